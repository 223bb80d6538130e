(** Model of maa/flags.c and maa/debug.c.  Both keep a hash table from names to flags
    (unsigned long, cast to the datum pointer), and two static arrays of four words. *)
From Verif Require Import Base CStr PrimeModel HashModel HashFnModel HashFnProofs NameTab.
Local Open Scope N_scope.

(** flags.c:47-49, debug.c:48-50: hash, setFlags, usedFlags *)
Record fstate := FS { fhash : option (hst skey N); fset : list N; fused : list N }.
Definition fempty : fstate := FS None [0; 0; 0; 0] [0; 0; 0; 0].
Definition fenv : henv skey N := string_env 0.

(** TEST (flags.c:39-45, debug.c:40-46); the callers convert the unsigned long to int *)
Definition TEST (flags : N) (var : list N) : res Z :=
  x ← (if negb (N.shiftr flags 31 =? 0) then
         if negb (N.shiftr flags 30 =? 0)
         then v ← aget var 3; Ret (u64 (N.shiftl (N.land v flags) 2))
         else v ← aget var 2; Ret (u64 (N.shiftl (N.land v flags) 2))
       else
         if negb (N.shiftr flags 30 =? 0)
         then v ← aget var 1; Ret (u64 (N.shiftl (N.land v flags) 2))
         else v ← aget var 0; Ret (u64 (N.shiftl (N.land v flags) 2)));
  Ret (to_int (Z.of_N x)).

(** for (tmp = ..; tmp && !(tmp & 1); tmp >>= 1); (flags.c:86, debug.c:86): at most 64
    shifts of an unsigned long *)
Fixpoint strip_zeros (n : nat) (tmp : N) : N :=
  match n with
  | O => tmp
  | S n' => if negb (tmp =? 0) && (N.land tmp 1 =? 0) then strip_zeros n' (N.shiftr tmp 1) else tmp
  end.
(** !tmp || tmp >> 1 (flags.c:86-87, debug.c:86-87) *)
Definition malformed (flag : N) : bool :=
  let tmp := strip_zeros 64 (N.land flag 0x3fffffff) in
  (tmp =? 0) || negb (N.shiftr tmp 1 =? 0).

(** flg_name (flags.c:62-76) and _dbg_name (debug.c:63-78): the name, [None] for "unknown
    flag".  On NULL hash hsh_init_position aborts (flags.c), _dbg_name is fatal. *)
Definition name_body (flag : N) : iterator skey N (option (list N)) :=
  fun k d '(t, u) =>
    let '(u', r) := if flag =? d then (Some (proj1_sig k), 1%Z) else (u, 0%Z) in Ret (t, u', r).
Definition flg_name (s : fstate) (flag : N) : res (fstate * option (list N)) :=
  match fhash s with
  | None => Abort
  | Some t =>
      '(t1, r, stopped) ← HSH_ITERATE (S (size (heap t))) fenv (name_body flag) t None;
      if (stopped : bool)
      then '(t2, _) ← HSH_ITERATE_END t1; Ret (FS (Some t2) (fset s) (fused s), r)
      else Ret (FS (Some t1) (fset s) (fused s), None)
  end.
Definition dbg_name (s : fstate) (flag : N) : res (fstate * option (list N)) :=
  match fhash s with None => Fatal | Some _ => flg_name s flag end.

(** flg_register (flags.c:82-104), _dbg_register (debug.c:82-104).  The reuse message
    prints the name, then exits. *)
Definition flg_register (al : halloc skey N) (s : fstate) (flag : N) (name : option (list N)) : res fstate :=
  if malformed flag then Fatal else
  t ← match fhash s with None => hsh_create al | Some t => Ret t end;
  e ← TEST flag (fused s);                                    (* _flg_exists *)
  if negb (e =? 0)%Z then _ ← flg_name (FS (Some t) (fset s) (fused s)) flag; Fatal else
  k ← name_key name;
  '(t', _) ← hsh_insert fenv al t k flag;
  Ret (FS (Some t') (fset s) (fused s)).
Definition _dbg_register := flg_register.
(** dbg_register (debug.c:114-123) *)
Definition dbg_register (al : halloc skey N) (s : fstate) (flag : N) (name : option (list N)) : res fstate :=
  if N.land flag 0xc0000000 =? 0xc0000000 then Fatal else _dbg_register al s flag name.

(** ~x on unsigned long; setFlags[flag >> 30] |= flag and &= ~flag *)
Definition unot (x : N) : N := N.lxor x (2 ^ 64 - 1).
Definition set_bits (v : list N) (flag : N) : res (list N) :=
  let i := N.to_nat (N.shiftr flag 30) in x ← aget v i; aset v i (N.lor x flag).
Definition clear_bits (v : list N) (flag : N) : res (list N) :=
  let i := N.to_nat (N.shiftr flag 30) in x ← aget v i; aset v i (N.land x (unot flag)).

(** flg_list (flags.c:179-182) and dbg_list (debug.c:223-227) with their iterators
    (flags.c:169-175, debug.c:200-218): the lines printed; the mark is "(builtin)".
    Each is one hsh_iterate_arg; the rounds are bounded by table size plus nodes. *)
Definition rounds (t : hst skey N) : nat := S (N.to_nat (prime (tab t)) + size (heap t)).
Definition line_body (f : skey -> N -> list (list N * bool)) : iterator skey N (list (list N * bool)) :=
  fun k d '(t, u) => Ret (t, u ++ f k d, 0%Z).
Definition builtin (flag : N) : bool := N.land flag 0xc0000000 =? 0xc0000000.
Definition flg_list (s : fstate) : res (fstate * list (list N * bool)) :=
  match fhash s with
  | None => Abort
  | Some t =>
      '(t1, out, _) ← hsh_iterate (rounds t) (line_body (fun k d => [(proj1_sig k, false)])) t [];
      Ret (FS (Some t1) (fset s) (fused s), out)
  end.
Definition dbg_list (s : fstate) : res (fstate * list (list N * bool)) :=
  match fhash s with
  | None => Abort
  | Some t =>
      '(t1, o1, _) ← hsh_iterate (rounds t) (line_body (fun k d => if negb (builtin d) then [(proj1_sig k, false)] else [])) t [];
      '(t2, o2, _) ← hsh_iterate (rounds t1) (line_body (fun k d => if builtin d then [(proj1_sig k, true)] else [])) t1 o1;
      Ret (FS (Some t2) (fset s) (fused s), o2)
  end.

Definition s_none : list N := [110; 111; 110; 101].
Definition s_all : list N := [97; 108; 108].
Definition all4 (x : N) : list N := [x; x; x; x].
Definition upd (s : fstate) (t : hst skey N) (v : list N) : fstate := FS (Some t) v (fused s).

(** flg_set (flags.c:109-145) *)
Definition flg_set (s : fstate) (name : option (list N)) : res fstate :=
  match name with
  | None => Abort
  | Some buf =>
      match fhash s with
      | None => Fatal
      | Some t =>
          c1 ← c_strcmp buf (s_none ++ [0]);
          if (c1 =? 0)%Z then Ret (upd s t (all4 0)) else
          c2 ← c_strcmp buf (s_all ++ [0]);
          if (c2 =? 0)%Z then Ret (upd s t (all4 (2 ^ 64 - 1))) else
          k ← name_key (Some buf);
          '(t1, flag) ← hsh_retrieve fenv t k;
          if flag =? 0 then
            ch ← aget buf 0;
            if negb (ch =? 45) && negb (ch =? 43) then _ ← flg_list (upd s t1 (fset s)); Fatal else
            k1 ← name_key (Some (drop 1 buf));
            '(t2, flag1) ← hsh_retrieve fenv t1 k1;
            if flag1 =? 0 then _ ← flg_list (upd s t2 (fset s)); Fatal else
            v ← (if ch =? 43 then set_bits (fset s) flag1 else clear_bits (fset s) flag1);
            Ret (upd s t2 v)
          else v ← set_bits (fset s) flag; Ret (upd s t1 v)
      end
  end.
(** dbg_set (debug.c:128-160): && does not look at the first character when the rest of
    the name is registered *)
Definition dbg_set (s : fstate) (name : option (list N)) : res fstate :=
  match name with
  | None => Abort
  | Some buf =>
      match fhash s with
      | None => Fatal
      | Some t =>
          c1 ← c_strcmp buf (s_none ++ [0]);
          if (c1 =? 0)%Z then Ret (upd s t (all4 0)) else
          c2 ← c_strcmp buf (s_all ++ [0]);
          if (c2 =? 0)%Z then Ret (upd s t (all4 (2 ^ 64 - 1))) else
          k ← name_key (Some buf);
          '(t1, flag) ← hsh_retrieve fenv t k;
          if flag =? 0 then
            k1 ← name_key (Some (drop 1 buf));
            '(t2, flag1) ← hsh_retrieve fenv t1 k1;
            ch ← aget buf 0;
            if (flag1 =? 0) && negb (ch =? 45) && negb (ch =? 43) then _ ← dbg_list (upd s t2 (fset s)); Fatal else
            v ← (if ch =? 43 then set_bits (fset s) flag1 else clear_bits (fset s) flag1);
            Ret (upd s t2 v)
          else v ← set_bits (fset s) flag; Ret (upd s t1 v)
      end
  end.
(** dbg_set_flag (debug.c:165-168), dbg_unset_flag (debug.c:173-176) *)
Definition dbg_set_flag (s : fstate) (flag : N) : res fstate :=
  v ← set_bits (fset s) flag; Ret (FS (fhash s) v (fused s)).
Definition dbg_unset_flag (s : fstate) (flag : N) : res fstate :=
  v ← clear_bits (fset s) flag; Ret (FS (fhash s) v (fused s)).
(** dbg_test (debug.c:181-184), flg_test (flags.c:150-153) *)
Definition dbg_test (s : fstate) (flag : N) : res Z := TEST flag (fset s).
Definition flg_test := dbg_test.
(** dbg_destroy (debug.c:191-197), flg_destroy (flags.c:160-166); the nodes left over *)
Definition dbg_destroy (s : fstate) : res (fstate * bheap skey N) :=
  H ← match fhash s with Some t => hsh_destroy t | None => Ret ∅ end;
  Ret (fempty, H).
Definition flg_destroy := dbg_destroy.
