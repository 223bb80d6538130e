(** C18, C19: bit.c. *)
From Verif Require Import Base BitModel BitProofs.
Local Open Scope N_scope.

(** ** C18 *)
Theorem C18_bit_set : forall x b, (0 <= b < 64)%Z -> exists x', bit_set x b = Ret x' /\
  forall i, N.testbit x' i = N.testbit x i || (i =? Z.to_N b).
Proof. exact bit_set_ok. Qed.
Print Assumptions C18_bit_set.

Theorem C18_bit_clr : forall x b, x < 2 ^ 64 -> (0 <= b < 64)%Z -> exists x', bit_clr x b = Ret x' /\
  forall i, N.testbit x' i = N.testbit x i && negb (i =? Z.to_N b).
Proof. exact bit_clr_ok. Qed.
Print Assumptions C18_bit_clr.

(** non-zero iff the bit is set, but only for bits below 32 *)
Theorem C18_bit_tst : forall x b, (0 <= b < 64)%Z -> exists r, bit_tst x b = Ret r /\
  (r <> 0%Z <-> N.testbit x (Z.to_N b) = true /\ (b < 32)%Z).
Proof. exact bit_tst_ok. Qed.
Print Assumptions C18_bit_tst.

Theorem C18_outside_undefined : forall x b, ~ (0 <= b < 64)%Z ->
  bit_set x b = UB /\ bit_clr x b = UB /\ bit_tst x b = UB.
Proof. exact bit_ub. Qed.
Print Assumptions C18_outside_undefined.

(** ** C19 *)
(** the number of set bits among the lowest [n] *)
Definition set_bits (n : nat) (x : N) : nat :=
  length (filter (fun i => N.testbit x (N.of_nat i) = true) (seq 0 n)).

Theorem C19_bit_cnt_64 : forall x, x < 2 ^ 64 -> bit_cnt x = Z.of_nat (set_bits 64 x).
Proof. exact bit_cnt_ok. Qed.
Print Assumptions C19_bit_cnt_64.

Theorem C19_bit_cnt_32 : forall x, x < 2 ^ 32 -> bit_cnt32 x = Z.of_nat (set_bits 32 x).
Proof. exact bit_cnt32_ok. Qed.
Print Assumptions C19_bit_cnt_32.

Example C18_bit_40 : bit_set 0 40 = Ret 0x10000000000 /\ bit_tst 0x10000000000 40 = Ret 0%Z /\
  bit_tst 0x80000000 31 = Ret (- 2 ^ 31)%Z.
Proof. vm_compute. done. Qed.
Example C19_counts : bit_cnt 0xfedcba9876543211 = 33%Z /\ bit_cnt32 0xfedcba98 = 20%Z /\
  bit_cnt 0xffffffffffffffff = 64%Z /\ bit_cnt32 0xffffffff = 32%Z.
Proof. vm_compute. done. Qed.
