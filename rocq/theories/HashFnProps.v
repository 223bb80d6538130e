(** C09: the default hash and compare functions.  A key is the bytes from the
    pointer to the end of its object; a string [s] is stored there when the bytes
    are [s ++ 0 :: rest]. *)
From Verif Require Import Base CStr HashFnModel HashFnProofs HashModel HashSpec HashOps.
Local Open Scope N_scope.

(** sum of char_i * 2654435789^(n-i) mod 2^64: depends on the string only *)
Theorem C09_string_hash : forall s rest, str_ok s ->
  exists h, hsh_string_hash (Some (s ++ 0 :: rest)) = Ret h /\ Z.of_N h = (poly s mod 2 ^ 64)%Z.
Proof. exact string_hash_spec. Qed.
Print Assumptions C09_string_hash.

Theorem C09_string_compare : forall s1 s2 r1 r2, str_ok s1 -> str_ok s2 ->
  exists z, hsh_string_compare (Some (s1 ++ 0 :: r1)) (Some (s2 ++ 0 :: r2)) = Ret z /\
            (z = 0%Z <-> s1 = s2).
Proof. exact string_compare_spec. Qed.
Print Assumptions C09_string_compare.

Theorem C09_string_null : hsh_string_hash None = Abort /\
  (forall k, hsh_string_compare None k = Abort) /\ (forall k, hsh_string_compare k None = Abort).
Proof. exact string_null. Qed.
Print Assumptions C09_string_null.

Theorem C09_pointer_hash : forall p,
  hsh_pointer_hash p < 2 ^ 32 /\
  Z.of_N (hsh_pointer_hash p) = (poly ((fun i : nat => (p / 256 ^ N.of_nat i mod 256)%N) <$> seq 0 8) mod 2 ^ 32)%Z.
Proof.
  intros p. split; [exact (pointer_hash_lt p)|]. rewrite pointer_hash_poly. do 2 f_equal.
  assert (H : forall n v k, le_bytes n (v / 256 ^ N.of_nat k) = (fun i => v / 256 ^ N.of_nat i mod 256) <$> seq k n).
  { induction n as [|n IH]; intros v k; [reflexivity|]. cbn [le_bytes seq fmap list_fmap]. f_equal.
    rewrite <- IH. rewrite N.div_div by (try apply N.pow_nonzero; lia). f_equal. f_equal.
    rewrite Nat2N.inj_succ, N.pow_succ_r'. lia. }
  rewrite <- (H 8%nat p 0%nat). change (256 ^ N.of_nat 0) with 1. by rewrite N.div_1_r.
Qed.
Print Assumptions C09_pointer_hash.

Theorem C09_pointer_compare : forall p q, p < 2 ^ 64 -> q < 2 ^ 64 ->
  (hsh_pointer_compare p q = 0%Z <-> p = q) /\
  hsh_pointer_compare q p = (- hsh_pointer_compare p q)%Z /\
  (hsh_pointer_compare p q = -1 \/ hsh_pointer_compare p q = 0 \/ hsh_pointer_compare p q = 1)%Z.
Proof. exact pointer_compare_spec. Qed.
Print Assumptions C09_pointer_compare.

(** the order is that of the addresses read as signed 64-bit numbers: [z] is the address [p] if it is
    equal to it modulo 2^64 and lies between -2^63 and 2^63 *)
Definition signed_address (p : N) (z : Z) : Prop := (- 2 ^ 63 <= z < 2 ^ 63)%Z /\ (z mod 2 ^ 64 = Z.of_N p)%Z.
Theorem C09_pointer_compare_sign : forall p q z1 z2, signed_address p z1 -> signed_address q z2 ->
  hsh_pointer_compare p q = (if decide (z1 < z2)%Z then -1 else if decide (z2 < z1)%Z then 1 else 0)%Z.
Proof.
  assert (H : forall p z, signed_address p z -> intptr p = z).
  { intros p z [Hz Hm]. unfold intptr. pose proof (Z.div_mod z (2 ^ 64) ltac:(lia)). pose proof (Z.mod_pos_bound z (2 ^ 64) ltac:(lia)). rewrite Hm in *.
    assert (z / 2 ^ 64 = 0 \/ z / 2 ^ 64 = -1)%Z as [E|E] by lia; rewrite E in *; destruct (N.ltb_spec p (2 ^ 63)); lia. }
  intros p q z1 z2 H1 H2. unfold hsh_pointer_compare. rewrite (H p z1 H1), (H q z2 H2). cbn zeta.
  destruct (Z.ltb_spec z1 z2), (decide (z1 < z2)%Z), (Z.ltb_spec z2 z1), (decide (z2 < z1)%Z); lia || reflexivity.
Qed.
Print Assumptions C09_pointer_compare_sign.
Example C09_sign_ex : signed_address (2 ^ 64 - 1) (-1) /\ signed_address 5 5 /\ hsh_pointer_compare (2 ^ 64 - 1) 5 = (-1)%Z.
Proof. split; [split; [lia|reflexivity]|]. split; [split; [lia|reflexivity]|]. reflexivity. Qed.

Theorem C09_pointer_compare_trans : forall p q r,
  (hsh_pointer_compare p q < 0)%Z -> (hsh_pointer_compare q r < 0)%Z -> (hsh_pointer_compare p r < 0)%Z.
Proof. exact pointer_compare_trans. Qed.
Print Assumptions C09_pointer_compare_trans.

(** Both pairs satisfy what the table theorems C01-C15 ask of hash and compare,
    and are what the C functions compute on stored strings. *)
Theorem C09_defaults_good : forall D (null : D), good (string_env null) /\ good (pointer_env null).
Proof. exact (fun D null => conj (string_env_good null) (pointer_env_good null)). Qed.
Print Assumptions C09_defaults_good.

Theorem C09_string_env : forall (a b : skey) r1 r2,
  hsh_string_hash (Some (proj1_sig a ++ 0 :: r1)) = Ret (hashf (string_env tt) a) /\
  hsh_string_compare (Some (proj1_sig a ++ 0 :: r1)) (Some (proj1_sig b ++ 0 :: r2)) =
    Ret (cmpf (string_env tt) a b).
Proof. exact string_env_runs. Qed.
Print Assumptions C09_string_env.

(** bytes above 127 are negative chars: "\xff" hashes to -2654435789 mod 2^64 *)
Example C09_ex : str_ok [255; 97] /\
  hsh_string_hash (Some [255; 97; 0; 12]) = hsh_string_hash (Some ([255; 97] ++ [0])) /\
  hsh_string_hash (Some [255; 0]) = Ret (2 ^ 64 - 2654435789) /\
  hsh_string_hash (Some [255]) = UB.
Proof. split; [repeat constructor; lia|]. vm_compute. done. Qed.
