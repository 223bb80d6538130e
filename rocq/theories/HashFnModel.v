(** Model of the default hash and compare functions, hash.c:482-552 (set.c uses
    the same ones).  Little-endian LP64; char is signed. *)
From Verif Require Import Base CStr.
Local Open Scope N_scope.

(** unsigned long arithmetic with a signed char operand *)
Definition add_char (h : N) (b : N) : N := Z.to_N ((Z.of_N h + schar b) mod 2 ^ 64).
Definition hash_step (h : N) (b : N) : N := u64 (add_char h b * 2654435789).

(** hash.c:490-499: while ( *pt) { h += *pt++; h *= 2654435789U; } *)
Fixpoint hash_loop (buf : list N) (h : N) : res N :=
  match buf with
  | [] => UB
  | b :: buf' => if b =? 0 then Ret h else hash_loop buf' (hash_step h b)
  end.

(** hash.c:482-500 *)
Definition hsh_string_hash (key : option (list N)) : res N :=
  match key with None => Abort | Some buf => hash_loop buf 0 end.

(** hash.c:502-528: the bytes of the pointer value, least significant first *)
Fixpoint le_bytes (n : nat) (v : N) : list N :=
  match n with O => [] | S n' => v mod 256 :: le_bytes n' (v / 256) end.
Definition hsh_pointer_hash (key : N) : N :=
  N.land (fold_left hash_step (le_bytes 8 key) 0) 4294967295.

(** hash.c:530-537 *)
Definition hsh_string_compare (key1 key2 : option (list N)) : res Z :=
  match key1, key2 with
  | Some b1, Some b2 => c_strcmp b1 b2
  | _, _ => Abort
  end.

(** hash.c:539-550.  intptr_t: the 64-bit address as a signed number. *)
Definition intptr (v : N) : Z := if v <? 2 ^ 63 then Z.of_N v else (Z.of_N v - 2 ^ 64)%Z.
Definition hsh_pointer_compare (key1 key2 : N) : Z :=
  let v1 := intptr key1 in let v2 := intptr key2 in
  if (v1 <? v2)%Z then (-1)%Z else if (v2 <? v1)%Z then 1%Z else 0%Z.
