(** Proofs about flags.c and debug.c. *)
From Verif Require Import Base CStr ListLemmas PrimeModel HashModel HashSpec HashProofs HashOps HashOps2 HashIter HashHist HashFnModel HashFnProofs NameTab FlagModel FlagSpec.
Local Open Scope N_scope.

(** ** Bits *)
Lemma low_bits y : y mod 2 ^ 30 <> 0 <-> exists i, i < 30 /\ N.testbit y i = true.
Proof.
  split.
  - intros H. destruct (decide (Exists (fun i => N.testbit y (N.of_nat i) = true) (seq 0 30))) as [Hx|Hn].
    + apply Exists_exists in Hx as (i & Hi & Hb). apply elem_of_seq in Hi. exists (N.of_nat i). split; [lia|done].
    + exfalso. apply H. apply N.bits_inj. intros i. rewrite N.bits_0. destruct (N.lt_ge_cases i 30) as [Hi|Hi].
      * rewrite N.mod_pow2_bits_low by done. destruct (N.testbit y i) eqn:E; [|done]. exfalso. apply Hn.
        apply Exists_exists. exists (N.to_nat i). rewrite N2Nat.id. split; [|done]. apply elem_of_seq. lia.
      * by apply N.mod_pow2_bits_high.
  - intros (i & Hi & Hb) H. assert (N.testbit (y mod 2 ^ 30) i = true) as Hx by (by rewrite N.mod_pow2_bits_low).
    rewrite H, N.bits_0 in Hx. done.
Qed.
Lemma to_int_zero z : (0 <= z)%Z -> to_int z = 0%Z <-> (z mod 2 ^ 32)%Z = 0%Z.
Proof.
  intros Hz. unfold to_int. pose proof (Z.div_mod z (2^32) ltac:(lia)). pose proof (Z.mod_pos_bound z (2^32) ltac:(lia)).
  pose proof (Z.div_mod (z + 2^31) (2^32) ltac:(lia)). pose proof (Z.mod_pos_bound (z+2^31) (2^32) ltac:(lia)).
  split; intros; [|].
  - assert ((z + 2 ^ 31) / 2 ^ 32 * 2 ^ 32 = z)%Z by lia.
    assert ((z / 2^32) = (z + 2 ^ 31) / 2 ^ 32)%Z by nia. lia.
  - assert ((z + 2 ^ 31) / 2 ^ 32 = z / 2^32)%Z by nia. lia.
Qed.
Definition word (v : list N) (k : N) : N := v !!! N.to_nat k.

Lemma pick_ok x g : g < 2 ^ 32 ->
  to_int (Z.of_N (u64 (N.shiftl (N.land x g) 2))) <> 0%Z <-> exists i, i < 30 /\ N.testbit g i = true /\ N.testbit x i = true.
Proof.
  intros Hg. set (y := N.land x g).
  assert (Hy : y < 2 ^ 32).
  { unfold y. destruct (N.eq_dec g 0) as [->|Hn]; [rewrite N.land_0_r; lia|].
    apply N.lt_le_trans with (2 ^ N.log2 (N.land x g) * 2).
    - destruct (N.eq_dec (N.land x g) 0) as [->|Hz]; [lia|]. pose proof (N.log2_spec (N.land x g) ltac:(lia)) as [_ H].
      rewrite N.pow_succ_r' in H. lia.
    - assert (N.log2 (N.land x g) <= 31).
      { pose proof (N.log2_land x g). assert (N.log2 g < 32) by (apply N.log2_lt_pow2; lia). lia. }
      assert (2 ^ N.log2 (N.land x g) <= 2 ^ 31) by (apply N.pow_le_mono_r; lia). lia. }
  assert (E : u64 (N.shiftl y 2) = 4 * y).
  { unfold u64. rewrite N.shiftl_mul_pow2. rewrite N.mod_small by lia. lia. }
  rewrite E. rewrite to_int_zero by lia.
  assert (Hm : ((Z.of_N (4 * y) mod 2 ^ 32)%Z = 0%Z <-> y mod 2 ^ 30 = 0)).
  { replace (Z.of_N (4 * y)) with (4 * Z.of_N y)%Z by lia. replace (2 ^ 32)%Z with (4 * 2 ^ 30)%Z by lia.
    rewrite Z.mul_mod_distr_l by lia. change (2 ^ 30)%Z with (Z.of_N (2 ^ 30)). rewrite <- N2Z.inj_mod. lia. }
  rewrite Hm. rewrite low_bits. split; intros (i & Hi & H); exists i; (split; [done|]).
  - unfold y in H. rewrite N.land_spec in H. apply andb_true_iff in H. tauto.
  - unfold y. rewrite N.land_spec. apply andb_true_iff. tauto.
Qed.

Lemma test_ok v g : length v = 4%nat -> g < 2 ^ 32 ->
  exists r, TEST g v = Ret r /\
    (r <> 0%Z <-> exists i, i < 30 /\ N.testbit g i = true /\ N.testbit (word v (seen g)) i = true).
Proof.
  intros Hv Hg. destruct v as [|a [|b [|c [|d [|]]]]]; try discriminate Hv.
  unfold TEST, seen, set_of. rewrite !N.shiftr_div_pow2.
  assert (H31 : (g / 2 ^ 31 =? 0) = (g <? 2 ^ 31)).
  { destruct (N.ltb_spec g (2^31)); [apply N.eqb_eq, N.div_small; done|]. apply N.eqb_neq.
    assert (1 <= g / 2 ^ 31) by (apply N.div_le_lower_bound; lia). lia. }
  assert (H30 : (g / 2 ^ 30 =? 0) = (g <? 2 ^ 30)).
  { destruct (N.ltb_spec g (2^30)); [apply N.eqb_eq, N.div_small; done|]. apply N.eqb_neq.
    assert (1 <= g / 2 ^ 30) by (apply N.div_le_lower_bound; lia). lia. }
  rewrite H31, H30.
  assert (Hq : g / 2 ^ 30 = if g <? 2 ^ 30 then 0 else if g <? 2 ^ 31 then 1 else if g <? 3 * 2 ^ 30 then 2 else 3).
  { symmetry. pose proof (N.div_mod g (2^30) ltac:(lia)). pose proof (N.mod_lt g (2^30) ltac:(lia)).
    destruct (N.ltb_spec g (2^30)), (N.ltb_spec g (2^31)), (N.ltb_spec g (3 * 2^30)); nia. }
  rewrite Hq. destruct (N.ltb_spec g (2^31)), (N.ltb_spec g (2^30)), (N.ltb_spec g (3 * 2^30)); try lia;
    cbn [negb aget lookup list_lookup]; rb; eexists; (split; [reflexivity|]); unfold word; apply pick_ok; done.
Qed.

(** ** Words and events *)
Definition wordsok (v : list N) (ev : list fevent) : Prop :=
  length v = 4%nat /\ forall k i, k < 4 -> i < 30 -> N.testbit (word v k) i = lit ev k i.

Lemma set_of_lt f : f < 2 ^ 32 -> set_of f < 4.
Proof. intros H. unfold set_of. apply N.div_lt_upper_bound; lia. Qed.
Lemma word_insert v j k x : (j < length v)%nat ->
  word (<[j := x]> v) k = if decide (N.to_nat k = j) then x else word v k.
Proof.
  intros Hj. unfold word. destruct (decide _) as [E|E].
  - rewrite E. by rewrite list_lookup_total_insert.
  - by rewrite list_lookup_total_insert_ne.
Qed.
Lemma set_bits_ok v ev f : wordsok v ev -> f < 2 ^ 32 ->
  exists v', set_bits v f = Ret v' /\ wordsok v' (ESet f :: ev).
Proof.
  intros [Hl Hw] Hf. pose proof (set_of_lt f Hf) as Hk. unfold set_bits. rewrite N.shiftr_div_pow2. fold (set_of f).
  destruct (lookup_lt_is_Some_2 v (N.to_nat (set_of f)) ltac:(lia)) as [x Hx].
  rewrite (aget_Some _ _ _ Hx). rb. rewrite (aset_Some _ _ _ _ Hx). eexists. split; [reflexivity|].
  split; [by rewrite insert_length|]. intros k i Hk4 Hi. rewrite word_insert by lia. cbn [lit].
  destruct (decide _) as [E|E].
  - assert (set_of f = k) as Ek by lia. rewrite (proj2 (N.eqb_eq _ _) Ek). cbn [andb]. rewrite N.lor_spec.
    assert (Hxi : N.testbit x i = lit ev k i).
    { rewrite <- Hw by done. unfold word. rewrite E. by rewrite (list_lookup_total_correct _ _ _ Hx). }
    rewrite Hxi. destruct (N.testbit f i); [by rewrite orb_true_r|by rewrite orb_false_r].
  - rewrite (proj2 (N.eqb_neq _ _)) by lia. cbn [andb]. by apply Hw.
Qed.
Lemma unot_spec f i : i < 64 -> N.testbit (unot f) i = negb (N.testbit f i).
Proof.
  intros Hi. unfold unot. replace (2 ^ 64 - 1) with (N.ones 64) by done. rewrite N.lxor_spec, N.ones_spec_low by done.
  by rewrite xorb_true_r.
Qed.
Lemma clear_bits_ok v ev f : wordsok v ev -> f < 2 ^ 32 ->
  exists v', clear_bits v f = Ret v' /\ wordsok v' (EClear f :: ev).
Proof.
  intros [Hl Hw] Hf. pose proof (set_of_lt f Hf) as Hk. unfold clear_bits. rewrite N.shiftr_div_pow2. fold (set_of f).
  destruct (lookup_lt_is_Some_2 v (N.to_nat (set_of f)) ltac:(lia)) as [x Hx].
  rewrite (aget_Some _ _ _ Hx). rb. rewrite (aset_Some _ _ _ _ Hx). eexists. split; [reflexivity|].
  split; [by rewrite insert_length|]. intros k i Hk4 Hi. rewrite word_insert by lia. cbn [lit].
  destruct (decide _) as [E|E].
  - assert (set_of f = k) as Ek by lia. rewrite (proj2 (N.eqb_eq _ _) Ek). cbn [andb].
    rewrite N.land_spec, unot_spec by lia.
    assert (Hxi : N.testbit x i = lit ev k i).
    { rewrite <- Hw by done. unfold word. rewrite E. by rewrite (list_lookup_total_correct _ _ _ Hx). }
    rewrite Hxi. destruct (N.testbit f i); cbn [negb]; [by rewrite andb_false_r|by rewrite andb_true_r].
  - rewrite (proj2 (N.eqb_neq _ _)) by lia. cbn [andb]. by apply Hw.
Qed.
(** beyond 32 bits: outside the array *)
Lemma wide_bits v f : length v = 4%nat -> 2 ^ 32 <= f -> set_bits v f = UB /\ clear_bits v f = UB.
Proof.
  intros Hl Hf. assert (H4 : 4 <= set_of f) by (apply N.div_le_lower_bound; lia).
  unfold set_bits, clear_bits. rewrite N.shiftr_div_pow2. fold (set_of f).
  unfold aget. rewrite lookup_ge_None_2 by lia. done.
Qed.
Lemma all4_ok ev x e : (e = EAll /\ x = 2 ^ 64 - 1) \/ (e = ENone /\ x = 0) -> wordsok (all4 x) (e :: ev).
Proof.
  intros He. split; [done|]. intros k i Hk Hi.
  assert (Hw : word (all4 x) k = x).
  { unfold word, all4. assert (N.to_nat k = 0 \/ N.to_nat k = 1 \/ N.to_nat k = 2 \/ N.to_nat k = 3)%nat as Hn by lia.
    destruct Hn as [-> |[-> |[-> | ->]]]; done. }
  rewrite Hw. destruct He as [[-> ->]|[-> ->]]; cbn [lit].
  - replace (2 ^ 64 - 1) with (N.ones 64) by done. apply N.ones_spec_low. lia.
  - apply N.bits_0.
Qed.

(** ** malformed *)
Lemma strip_ok n : forall t, t < 2 ^ N.of_nat n ->
  (t = 0 /\ strip_zeros n t = 0) \/
  exists j, t = 2 ^ j * strip_zeros n t /\ N.odd (strip_zeros n t) = true.
Proof.
  induction n as [|n IH]; intros t Ht; cbn [strip_zeros].
  - left. simpl in Ht. lia.
  - destruct (N.eqb_spec t 0) as [->|Hn]; cbn [negb andb]; [by left|]. right.
    assert (Hland : N.land t 1 = t mod 2) by (replace 1 with (N.ones 1) by done; rewrite N.land_ones; done).
    rewrite Hland. destruct (N.eqb_spec (t mod 2) 0) as [He|Ho]; cbn [negb andb].
    + rewrite N.shiftr_div_pow2. change (2 ^ 1) with 2.
      pose proof (N.div_mod t 2 ltac:(lia)) as Hd.
      destruct (IH (t / 2)) as [[Hz _]|(j & Ej & Hodd)].
      { apply N.div_lt_upper_bound; [lia|]. rewrite Nat2N.inj_succ, N.pow_succ_r' in Ht. lia. }
      * lia.
      * exists (N.succ j). split; [|done]. rewrite N.pow_succ_r'. rewrite <- N.mul_assoc, <- Ej. lia.
    + exists 0. split; [change (2 ^ 0) with 1; lia|]. 
      pose proof (N.mod_lt t 2 ltac:(lia)). pose proof (N.div_mod t 2 ltac:(lia)) as Hd. apply N.odd_spec. exists (t / 2). lia.
Qed.
Lemma malformed_spec f : malformed f = false <-> exists i, i < 30 /\ f mod 2 ^ 30 = 2 ^ i.
Proof.
  unfold malformed. replace 0x3fffffff with (N.ones 30) by done. rewrite N.land_ones.
  pose proof (N.mod_lt f (2 ^ 30) ltac:(lia)) as Hlt. set (t := f mod 2 ^ 30) in *.
  destruct (strip_ok 64 t) as [[-> ->]|(j & Ej & Ho)].
  { change (2 ^ N.of_nat 64) with (2 ^ 64). lia. }
  - cbn. split; [done|]. intros (i & Hi & H). pose proof (N.pow_nonzero 2 i ltac:(lia)). lia.
  - set (r := strip_zeros 64 t) in *.
    assert (Hr : r <> 0) by (intros E; rewrite E in Ho; done).
    rewrite (proj2 (N.eqb_neq r 0) Hr). cbn [orb]. rewrite N.shiftr_div_pow2. change (2 ^ 1) with 2.
    split.
    + intros H. apply negb_false_iff, N.eqb_eq in H. assert (r = 1) as Hr1.
      { pose proof (N.div_mod r 2 ltac:(lia)). pose proof (N.mod_lt r 2 ltac:(lia)). lia. }
      exists j. rewrite Hr1, N.mul_1_r in Ej. split; [|done]. rewrite Ej in Hlt. by apply N.pow_lt_mono_r_iff in Hlt; [|lia].
    + intros (i & Hi & H). apply negb_false_iff, N.eqb_eq. rewrite H in Ej.
      (* r odd divides 2^i *)
      assert (r = 1) as ->; [|done].
      assert (Hij : j <= i).
      { destruct (N.le_gt_cases j i) as [|Hlt2]; [done|]. exfalso.
        assert (2 ^ i < 2 ^ j) by (apply N.pow_lt_mono_r; lia). assert (2 ^ j * 1 <= 2 ^ j * r) by (apply N.mul_le_mono_l; lia). lia. }
      assert (E2 : 2 ^ (i - j) = r).
      { apply (N.mul_cancel_l _ _ (2 ^ j)); [apply N.pow_nonzero; lia|]. rewrite <- Ej, <- N.pow_add_r. f_equal. lia. }
      destruct (N.eq_dec (i - j) 0) as [E0|E0]; [rewrite E0 in E2; done|].
      exfalso. rewrite <- E2 in Ho. replace (i - j) with (N.succ (i - j - 1)) in Ho by lia.
      rewrite N.pow_succ_r', N.odd_mul in Ho. done.
Qed.
Lemma wellformed_nonzero f : malformed f = false -> f <> 0.
Proof. intros H ->. done. Qed.
