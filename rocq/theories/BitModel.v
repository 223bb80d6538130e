(** Model of maa/bit.c.  A word is an [N] below 2^64 (2^32 for 32-bit longs). *)
From Verif Require Import Base.
Local Open Scope N_scope.

(** 1UL << bit: undefined unless 0 <= bit < 64 *)
Definition ul_bit (bit : Z) : res N :=
  if ((0 <=? bit) && (bit <? 64))%Z then Ret (2 ^ Z.to_N bit) else UB.

(** bit.c:36-39 *)
Definition bit_set (flags : N) (bit : Z) : res N := m ← ul_bit bit; Ret (N.lor flags m).
(** bit.c:43-46; ~ on a 64-bit word *)
Definition bit_clr (flags : N) (bit : Z) : res N :=
  m ← ul_bit bit; Ret (N.land flags (2 ^ 64 - 1 - m)).
(** bit.c:51-54: the unsigned long is converted to int *)
Definition bit_tst (flags : N) (bit : Z) : res Z :=
  m ← ul_bit bit; Ret (to_int (Z.of_N (N.land flags m))).

(** bit.c:58-84, SIZEOF_LONG == 8 *)
Definition bit_cnt (flags : N) : Z :=
  let x := flags in
  let x := u64 (N.land (N.shiftr x 1) 0x5555555555555555 + N.land x 0x5555555555555555) in
  let x := u64 (N.land (N.shiftr x 2) 0x3333333333333333 + N.land x 0x3333333333333333) in
  let x := N.land (u64 (N.shiftr x 4 + x)) 0x0f0f0f0f0f0f0f0f in
  let x := N.land (u64 (N.shiftr x 8 + x)) 0x00ff00ff00ff00ff in
  let x := N.land (u64 (N.shiftr x 16 + x)) 0x0000ffff0000ffff in
  to_int (Z.of_N (N.land (u64 (x + N.shiftr x 32)) 0xff)).

(** bit.c:62-68, SIZEOF_LONG == 4 *)
Definition bit_cnt32 (flags : N) : Z :=
  let x := flags in
  let x := u32 (N.land (N.shiftr x 1) 0x55555555 + N.land x 0x55555555) in
  let x := u32 (N.land (N.shiftr x 2) 0x33333333 + N.land x 0x33333333) in
  let x := N.land (u32 (N.shiftr x 4 + x)) 0x0f0f0f0f in
  let x := u32 (N.shiftr x 8 + x) in
  to_int (Z.of_N (N.land (u32 (x + N.shiftr x 16)) 0xff)).
