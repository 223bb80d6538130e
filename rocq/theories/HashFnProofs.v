From Verif Require Import Base CStr HashFnModel HashModel HashSpec HashOps.
Local Open Scope N_scope.

(** Horner form: the sum of char_i * M^(n-i), modulo 2^64 *)
Fixpoint poly (s : list N) : Z :=
  match s with
  | [] => 0
  | b :: s' => schar b * 2654435789 ^ Z.of_nat (length s) + poly s'
  end%Z.

Lemma hash_step_Z h b : h < 2 ^ 64 ->
  Z.of_N (hash_step h b) = ((Z.of_N h + schar b) * 2654435789 mod 2 ^ 64)%Z.
Proof.
  intros Hh. unfold hash_step, add_char, u64.
  rewrite N2Z.inj_mod, N2Z.inj_mul, Z2N.id by (apply Z.mod_pos_bound; lia).
  change (Z.of_N (2 ^ 64)) with (2 ^ 64)%Z. change (Z.of_N 2654435789) with 2654435789%Z.
  rewrite Zmult_mod_idemp_l. done.
Qed.
Lemma hash_step_lt h b : hash_step h b < 2 ^ 64.
Proof. unfold hash_step, u64. apply N.mod_lt. lia. Qed.

Lemma hash_fold_Z s : forall h, h < 2 ^ 64 ->
  Z.of_N (fold_left hash_step s h) =
  ((Z.of_N h * 2654435789 ^ Z.of_nat (length s) + poly s) mod 2 ^ 64)%Z.
Proof.
  induction s as [|b s IH]; intros h Hh; cbn [fold_left poly length].
  - change (2654435789 ^ Z.of_nat 0)%Z with 1%Z. rewrite Z.mod_small; lia.
  - rewrite IH by apply hash_step_lt. rewrite hash_step_Z by done.
    set (P := (2654435789 ^ Z.of_nat (length s))%Z).
    replace (2654435789 ^ Z.of_nat (S (length s)))%Z with (2654435789 * P)%Z
      by (unfold P; rewrite Nat2Z.inj_succ, Z.pow_succ_r by lia; done).
    rewrite Zplus_mod, Zmult_mod_idemp_l, <- Zplus_mod. f_equal. lia.
Qed.

Lemma hash_loop_fold s rest h : str_ok s ->
  hash_loop (s ++ 0 :: rest) h = Ret (fold_left hash_step s h).
Proof.
  revert h. induction s as [|b s IH]; intros h Hs; simpl; [done|].
  apply Forall_cons in Hs as [Hb Hs]. destruct (N.eqb_spec b 0); [lia|]. by apply IH.
Qed.

Lemma string_hash_spec s rest : str_ok s ->
  exists h, hsh_string_hash (Some (s ++ 0 :: rest)) = Ret h /\
            Z.of_N h = (poly s mod 2 ^ 64)%Z.
Proof.
  intros Hs. exists (fold_left hash_step s 0). split; [by apply hash_loop_fold|].
  by rewrite hash_fold_Z by lia.
Qed.

Lemma string_compare_spec s1 s2 r1 r2 : str_ok s1 -> str_ok s2 ->
  exists z, hsh_string_compare (Some (s1 ++ 0 :: r1)) (Some (s2 ++ 0 :: r2)) = Ret z /\
            (z = 0%Z <-> s1 = s2).
Proof. intros H1 H2. exists (scmp s1 s2). split; [by apply c_strcmp_spec|by apply scmp_eq]. Qed.

Lemma string_null : hsh_string_hash None = Abort /\
  (forall k, hsh_string_compare None k = Abort) /\ (forall k, hsh_string_compare k None = Abort).
Proof. split; [done|]. split; [done|]. by intros [|]. Qed.

Lemma pointer_hash_lt p : hsh_pointer_hash p < 2 ^ 32.
Proof.
  unfold hsh_pointer_hash. change 4294967295 with (N.ones 32). rewrite N.land_ones.
  apply N.mod_lt. lia.
Qed.

Lemma le_bytes_length n v : length (le_bytes n v) = n.
Proof. revert v. induction n; intros; simpl; auto. Qed.

Lemma pointer_hash_poly p :
  Z.of_N (hsh_pointer_hash p) = (poly (le_bytes 8 p) mod 2 ^ 32)%Z.
Proof.
  unfold hsh_pointer_hash. change 4294967295 with (N.ones 32). rewrite N.land_ones.
  rewrite N2Z.inj_mod, hash_fold_Z by lia. change (Z.of_N (2 ^ 32)) with (2 ^ 32)%Z.
  rewrite Z.mul_0_l, Z.add_0_l.
  change (2 ^ 64)%Z with (2 ^ 32 * 2 ^ 32)%Z. rewrite Z.rem_mul_r by lia.
  rewrite Z.mul_comm, Z.mod_add by lia. by rewrite Z.mod_mod by lia.
Qed.

Lemma intptr_inj p q : p < 2 ^ 64 -> q < 2 ^ 64 -> intptr p = intptr q -> p = q.
Proof. unfold intptr. intros. destruct (N.ltb_spec p (2^63)), (N.ltb_spec q (2^63)); lia. Qed.

Lemma pointer_compare_spec p q : p < 2 ^ 64 -> q < 2 ^ 64 ->
  (hsh_pointer_compare p q = 0%Z <-> p = q) /\
  hsh_pointer_compare q p = (- hsh_pointer_compare p q)%Z /\
  (hsh_pointer_compare p q = -1 \/ hsh_pointer_compare p q = 0 \/ hsh_pointer_compare p q = 1)%Z.
Proof.
  intros Hp Hq. unfold hsh_pointer_compare.
  destruct (Z.ltb_spec (intptr p) (intptr q)), (Z.ltb_spec (intptr q) (intptr p)); try lia.
  - split; [|lia]. split; [done|]. intros ->. lia.
  - split; [|lia]. split; [done|]. intros ->. lia.
  - split; [|lia]. split; [|done]. intros _. apply intptr_inj; [done..|]. lia.
Qed.

Lemma pointer_compare_trans p q r :
  (hsh_pointer_compare p q < 0)%Z -> (hsh_pointer_compare q r < 0)%Z -> (hsh_pointer_compare p r < 0)%Z.
Proof.
  unfold hsh_pointer_compare.
  destruct (Z.ltb_spec (intptr p) (intptr q)), (Z.ltb_spec (intptr q) (intptr p)),
    (Z.ltb_spec (intptr q) (intptr r)), (Z.ltb_spec (intptr r) (intptr q)),
    (Z.ltb_spec (intptr p) (intptr r)), (Z.ltb_spec (intptr r) (intptr p)); lia.
Qed.

(** the defaults are admissible as the user functions of every table theorem *)
Definition strhash (s : list N) : N := fold_left hash_step s 0.
Definition skey := {s : list N | str_ok s}.
Definition string_env {D} (null : D) : henv skey D :=
  HE (fun s => strhash (proj1_sig s)) (fun a b => scmp (proj1_sig a) (proj1_sig b)) null.
Lemma string_env_runs (a b : skey) r1 r2 :
  hsh_string_hash (Some (proj1_sig a ++ 0 :: r1)) = Ret (hashf (string_env tt) a) /\
  hsh_string_compare (Some (proj1_sig a ++ 0 :: r1)) (Some (proj1_sig b ++ 0 :: r2)) =
    Ret (cmpf (string_env tt) a b).
Proof.
  destruct a as [a Ha], b as [b Hb]. cbn [proj1_sig string_env hashf cmpf].
  split; [by apply hash_loop_fold|by apply c_strcmp_spec].
Qed.
Lemma string_env_good {D} (null : D) : good (string_env null).
Proof.
  constructor; cbn [string_env hashf cmpf].
  - intros a. apply scmp_refl.
  - intros [a Ha] [b Hb]; cbn [proj1_sig]. rewrite !scmp_eq by done. done.
  - intros [a Ha] [b Hb] [c Hc]; cbn [proj1_sig]. rewrite !scmp_eq by done. congruence.
  - intros [a Ha] [b Hb]; cbn [proj1_sig]. rewrite !scmp_eq by done. by intros ->.
Qed.
Definition pkey := {p : N | (p <? 2 ^ 64) = true}.
Definition pointer_env {D} (null : D) : henv pkey D :=
  HE (fun p => hsh_pointer_hash (proj1_sig p)) (fun a b => hsh_pointer_compare (proj1_sig a) (proj1_sig b)) null.
Lemma pointer_env_good {D} (null : D) : good (pointer_env null).
Proof.
  assert (Hz : forall a b : pkey, hsh_pointer_compare (proj1_sig a) (proj1_sig b) = 0%Z <-> proj1_sig a = proj1_sig b).
  { intros [a Ha] [b Hb]; cbn [proj1_sig]. apply N.ltb_lt in Ha, Hb. by apply pointer_compare_spec. }
  constructor; cbn [pointer_env hashf cmpf].
  - intros a. by apply Hz.
  - intros a b. rewrite !Hz. done.
  - intros a b c. rewrite !Hz. congruence.
  - intros a b. rewrite !Hz. by intros ->.
Qed.
