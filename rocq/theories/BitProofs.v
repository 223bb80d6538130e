(** Proofs about bit.c. *)
From Verif Require Import Base BitModel.
Local Open Scope N_scope.

(** ** words as digit lists, least significant first *)
Fixpoint val (w : N) (fs : list N) : N :=
  match fs with [] => 0 | f :: fs' => f + 2 ^ w * val w fs' end.
Fixpoint evens (fs : list N) : list N :=
  match fs with a :: _ :: r => a :: evens r | [a] => [a] | [] => [] end.
Fixpoint pairsums (fs : list N) : list N :=
  match fs with a :: b :: r => (a + b) :: pairsums r | [a] => [a] | [] => [] end.
Definition sumN (fs : list N) : N := fold_right N.add 0 fs.

Lemma land_split k a b m n : a < 2 ^ k -> m < 2 ^ k ->
  N.land (a + 2 ^ k * b) (m + 2 ^ k * n) = N.land a m + 2 ^ k * N.land b n.
Proof.
  intros Ha Hm.
  assert (Hhi : forall a i, a < 2 ^ k -> k <= i -> N.testbit a i = false).
  { intros a' i Ha' Hi. destruct (N.eq_dec a' 0) as [->|]; [by rewrite N.bits_0|].
    rewrite N.bits_above_log2; [done|]. apply N.log2_lt_pow2; [lia|].
    eapply N.lt_le_trans; [exact Ha'|]. apply N.pow_le_mono_r; lia. }
  assert (Hd : forall a b, a < 2 ^ k -> a + 2 ^ k * b = N.lor a (N.shiftl b k)).
  { intros a' b' Ha'. rewrite (N.mul_comm _ b'), <- N.shiftl_mul_pow2.
    assert (Hz : N.land a' (N.shiftl b' k) = 0).
    { apply N.bits_inj. intros i. rewrite N.land_spec, N.bits_0.
      destruct (N.ltb_spec i k); [rewrite N.shiftl_spec_low by done; apply andb_false_r|].
      by rewrite (Hhi a' i). }
    rewrite N.add_nocarry_lxor by done. by apply N.lxor_lor. }
  assert (Hl : N.land a m < 2 ^ k).
  { eapply N.le_lt_trans; [|exact Ha]. apply N.ldiff_le. apply N.bits_inj. intros i.
    rewrite N.ldiff_spec, N.land_spec, N.bits_0. by destruct (N.testbit a i), (N.testbit m i). }
  rewrite (Hd a b Ha), (Hd m n Hm), (Hd _ _ Hl).
  apply N.bits_inj. intros i. rewrite N.land_spec, !N.lor_spec, N.land_spec.
  destruct (N.ltb_spec i k).
  - rewrite !N.shiftl_spec_low by done. by rewrite !orb_false_r.
  - rewrite (Hhi a i), (Hhi m i) by done. rewrite !N.shiftl_spec_high' by done. by rewrite N.land_spec.
Qed.

Lemma shiftr_val w f fs : f < 2 ^ w -> N.shiftr (val w (f :: fs)) w = val w fs.
Proof.
  intros Hf. rewrite N.shiftr_div_pow2. simpl. rewrite N.mul_comm, N.div_add by lia.
  rewrite N.div_small by done. lia.
Qed.

(** the mask 0..01..1 0..01..1 of [n] fields of width 2w *)
Definition mask (w : N) (n : nat) : N := val (2 * w) (replicate n (2 ^ w - 1)).

Lemma land_mask w n : forall fs, Forall (fun f => f < 2 ^ w) fs -> (length fs <= 2 * n)%nat ->
  N.land (val w fs) (mask w n) = val (2 * w) (evens fs).
Proof.
  induction n as [|n IH]; intros fs Hf Hl.
  - destruct fs; [done|]. simpl in Hl. lia.
  - assert (H2w : 2 ^ (2 * w) = 2 ^ w * 2 ^ w) by (rewrite <- N.pow_add_r; f_equal; lia).
    assert (Hpos : 2 ^ w <> 0) by (apply N.pow_nonzero; lia).
    assert (Hm : 2 ^ w - 1 < 2 ^ (2 * w)) by (rewrite H2w; nia).
    unfold mask in *. cbn [replicate val].
    assert (Hone : forall a b, a < 2 ^ w -> N.land (a + 2 ^ w * b) (2 ^ w - 1) = a).
    { intros a b Ha. replace (2 ^ w - 1) with (N.ones w) by (rewrite N.ones_equiv; lia).
      rewrite N.land_ones, N.mul_comm, N.mod_add by lia. by apply N.mod_small. }
    destruct fs as [|a [|b r]].
    + cbn [val evens]. by rewrite N.land_0_l.
    + apply Forall_inv in Hf as Ha. cbn [val evens]. rewrite N.mul_0_r, N.add_0_r.
      replace a with (a + 2 ^ (2 * w) * 0) at 1 by lia.
      rewrite land_split by (rewrite ?H2w; nia). rewrite N.land_0_l.
      specialize (Hone a 0 Ha). rewrite N.mul_0_r, N.add_0_r in Hone. rewrite Hone. lia.
    + inversion_clear Hf as [|? ? Ha Hf']. inversion_clear Hf' as [|? ? Hb Hr].
      cbn [val evens].
      replace (a + 2 ^ w * (b + 2 ^ w * val w r)) with ((a + 2 ^ w * b) + 2 ^ (2 * w) * val w r)
        by (rewrite H2w; lia).
      rewrite land_split; [|rewrite H2w; nia|done]. rewrite Hone by done.
      rewrite IH; [done|done|simpl in Hl; lia].
Qed.

Lemma val_add w fs gs : length fs = length gs ->
  val w fs + val w gs = val w (zip_with N.add fs gs).
Proof.
  revert gs. induction fs as [|f fs IH]; intros [|g gs] Hl; try done. simpl. injection Hl as Hl.
  rewrite <- IH by done. lia.
Qed.
Lemma val_bound w B fs : B < 2 ^ w -> Forall (fun f => f <= B) fs -> val w fs < 2 ^ (w * N.of_nat (length fs)).
Proof.
  intros HB. induction 1 as [|f fs Hf Hfs IH].
  - cbn [length val]. rewrite N.mul_0_r. lia.
  - cbn [length val]. replace (w * N.of_nat (S (length fs))) with (w + w * N.of_nat (length fs)) by lia.
    rewrite N.pow_add_r. nia.
Qed.

Fixpoint odds (fs : list N) : list N :=
  match fs with _ :: b :: r => b :: odds r | _ => [] end.

Lemma pair_ind (P : list N -> Prop) :
  P [] -> (forall a b r, P r -> P (a :: b :: r)) -> forall fs, Nat.even (length fs) = true -> P fs.
Proof.
  intros H0 H2 fs. remember (length fs) as n eqn:Hn. revert fs Hn.
  induction n as [n IH] using lt_wf_ind. intros [|a [|b r]] -> He; [done|done|].
  apply H2. eapply (IH (length r)); [simpl; lia|done|done].
Qed.

Lemma evens_tail f fs : Nat.even (length (f :: fs)) = true -> evens fs = odds (f :: fs).
Proof.
  intros He. change (evens (tail (f :: fs)) = odds (f :: fs)).
  apply (pair_ind (fun l => evens (tail l) = odds l)); [done| |done].
  intros a b r IH. simpl in *. destruct r; [done|]. simpl. simpl in IH. by rewrite IH.
Qed.
Lemma evens_odds_sum fs : Nat.even (length fs) = true -> zip_with N.add (odds fs) (evens fs) = pairsums fs.
Proof.
  apply (pair_ind (fun fs => zip_with N.add (odds fs) (evens fs) = pairsums fs)); [done|].
  intros a b r IH. simpl. by rewrite IH, N.add_comm.
Qed.
Lemma evens_odds_length fs : Nat.even (length fs) = true -> length (odds fs) = length (evens fs).
Proof.
  apply (pair_ind (fun fs => length (odds fs) = length (evens fs))); [done|].
  intros a b r IH. simpl. by rewrite IH.
Qed.
Lemma pairsums_sum fs : sumN (pairsums fs) = sumN fs.
Proof.
  remember (length fs) as n eqn:Hn. revert fs Hn.
  induction n as [n IH] using lt_wf_ind. intros [|a [|b r]] ->; [done|done|].
  cbn [pairsums sumN fold_right]. unfold sumN in IH. rewrite (IH (length r)); [lia|simpl; lia|done].
Qed.
Lemma pairsums_bound B fs : Nat.even (length fs) = true -> Forall (fun f => f <= B) fs -> Forall (fun f => f <= 2 * B) (pairsums fs).
Proof.
  apply (pair_ind (fun fs => Forall (fun f => f <= B) fs -> Forall (fun f => f <= 2 * B) (pairsums fs))); [intros; constructor|].
  intros a b r IH H. inversion_clear H as [|? ? Ha H']. inversion_clear H' as [|? ? Hb Hr].
  simpl. constructor; [lia|auto].
Qed.
Lemma pairsums_length n fs : length fs = (2 * n)%nat -> length (pairsums fs) = n.
Proof.
  revert fs. induction n as [|n IH]; intros fs Hl.
  - by destruct fs.
  - destruct fs as [|a [|b r]]; simpl in Hl; try lia. simpl. f_equal. apply IH. lia.
Qed.

Lemma even_2n n : Nat.even (2 * n) = true.
Proof. apply Nat.even_spec. by exists n. Qed.

(** one stage "((x >> w) & M) + (x & M)" *)
Lemma stage_masked w n B fs : length fs = (2 * n)%nat -> B < 2 ^ w -> Forall (fun f => f <= B) fs ->
  N.land (N.shiftr (val w fs) w) (mask w n) + N.land (val w fs) (mask w n) = val (2 * w) (pairsums fs).
Proof.
  intros Hl HB Hf. assert (He : Nat.even (length fs) = true) by (rewrite Hl; apply even_2n).
  assert (Hf' : Forall (fun f => f < 2 ^ w) fs) by (eapply Forall_impl; [exact Hf|]; simpl; lia).
  destruct fs as [|f fs].
  - simpl. by rewrite N.shiftr_0_l.
  - inversion Hf' as [|? ? Ha Hr]; subst. rewrite shiftr_val by done.
    rewrite !land_mask; [|done|lia|done|simpl in *; lia].
    rewrite (evens_tail f) by done. rewrite val_add by (by apply evens_odds_length).
    by rewrite evens_odds_sum.
Qed.

(** one stage "((x >> w) + x) & M" *)
Fixpoint slides (fs : list N) : list N :=
  match fs with [] => [] | a :: r => (a + hd 0 r) :: slides r end.
Lemma slides_val w f fs : val w fs + val w (f :: fs) = val w (slides (f :: fs)).
Proof.
  revert f. induction fs as [|g fs IH]; intros f; [simpl; lia|].
  specialize (IH g). cbn [val slides hd] in *. lia.
Qed.
Lemma evens_slides fs : Nat.even (length fs) = true -> evens (slides fs) = pairsums fs.
Proof.
  apply (pair_ind (fun fs => evens (slides fs) = pairsums fs)); [done|].
  intros a b r IH. simpl. by rewrite IH.
Qed.
Lemma slides_bound B fs : Forall (fun f => f <= B) fs -> Forall (fun f => f <= 2 * B) (slides fs).
Proof.
  induction 1 as [|f fs Hf Hfs IH]; simpl; constructor; [|done].
  destruct Hfs; simpl; lia.
Qed.
Lemma slides_length fs : length (slides fs) = length fs.
Proof. induction fs; simpl; congruence. Qed.

Lemma stage_sum w n B fs : length fs = (2 * n)%nat -> 2 * B < 2 ^ w -> Forall (fun f => f <= B) fs ->
  N.shiftr (val w fs) w + val w fs = val w (slides fs) /\
  N.land (val w (slides fs)) (mask w n) = val (2 * w) (pairsums fs).
Proof.
  intros Hl HB Hf. assert (He : Nat.even (length fs) = true) by (rewrite Hl; apply even_2n).
  split.
  - destruct fs as [|f fs]; [simpl; by rewrite N.shiftr_0_l|].
    inversion Hf as [|? ? Ha Hr]; subst. rewrite shiftr_val by lia. apply slides_val.
  - rewrite land_mask; [by rewrite evens_slides| |rewrite slides_length; lia].
    eapply Forall_impl; [by apply slides_bound|]. simpl. lia.
Qed.

(** ** the bits of a word *)
Definition ones_of (x : N) (n : nat) : list N := (fun i => N.b2n (N.testbit x (N.of_nat i))) <$> seq 0 n.
Lemma ones_val n : forall x, x < 2 ^ N.of_nat n -> val 1 (ones_of x n) = x.
Proof.
  unfold ones_of. induction n as [|n IH]; intros x Hx.
  - simpl in *. lia.
  - cbn [seq fmap list_fmap val]. rewrite <- fmap_S_seq, <- list_fmap_compose.
    rewrite (list_fmap_ext _ (fun i => N.b2n (N.testbit (N.div2 x) (N.of_nat i)))).
    2:{ intros i y _. simpl. f_equal. rewrite N.div2_spec, N.shiftr_spec'. f_equal. lia. }
    rewrite IH.
    + replace (2 ^ 1) with 2 by done. pose proof (N.div2_odd x). rewrite N.bit0_odd. lia.
    + replace (N.of_nat (S n)) with (1 + N.of_nat n) in Hx by lia. rewrite N.pow_add_r in Hx.
      change (2 ^ 1) with 2 in Hx. rewrite N.div2_div. apply N.div_lt_upper_bound; lia.
Qed.
Lemma ones_bound x n : Forall (fun f => f <= 1) (ones_of x n).
Proof. apply Forall_fmap, Forall_forall. intros i _. simpl. destruct (N.testbit _ _); simpl; lia. Qed.
Lemma ones_length x n : length (ones_of x n) = n.
Proof. unfold ones_of. by rewrite fmap_length, seq_length. Qed.

(** the number of set bits among the lowest [n] *)
Definition popcount (n : nat) (x : N) : nat :=
  length (filter (fun i => N.testbit x (N.of_nat i) = true) (seq 0 n)).
Lemma popcount_ones n x : N.of_nat (popcount n x) = sumN (ones_of x n).
Proof.
  unfold popcount, ones_of, sumN. induction (seq 0 n) as [|i l IH]; [done|].
  destruct (N.testbit x (N.of_nat i)) eqn:E.
  - rewrite filter_cons_True by done. cbn [length fmap list_fmap fold_right]. rewrite E, <- IH. simpl N.b2n. lia.
  - rewrite filter_cons_False by congruence. cbn [fmap list_fmap fold_right]. rewrite E, <- IH. simpl N.b2n. lia.
Qed.

Lemma u64_id x : x < 2 ^ 64 -> u64 x = x.
Proof. apply N.mod_small. Qed.
Lemma u32_id x : x < 2 ^ 32 -> u32 x = x.
Proof. apply N.mod_small. Qed.

Lemma bit_cnt_ok x : x < 2 ^ 64 -> bit_cnt x = Z.of_nat (popcount 64 x).
Proof.
  intros Hx. rewrite <- nat_N_Z, popcount_ones.
  assert (exists f1, ones_of x 64 = f1 /\ x = val 1 f1) as (f1 & E1 & Ex) by (eexists; split; [done|]; symmetry; by apply ones_val).
  assert (L1 : length f1 = (2 * 32)%nat) by (rewrite <- E1; apply ones_length).
  assert (B1 : Forall (fun f => f <= 1) f1) by (rewrite <- E1; apply ones_bound).
  rewrite E1. clear E1 Hx. subst x. unfold bit_cnt. cbv zeta.
  change 0x5555555555555555 with (mask 1 32). rewrite (stage_masked 1 32 1 f1) by done.
  change (2 * 1) with 2.
  set (f2 := pairsums f1). assert (L2 : length f2 = (2 * 16)%nat) by (by apply pairsums_length).
  assert (B2 : Forall (fun f => f <= 2) f2) by (apply (pairsums_bound 1); [by rewrite L1|done]).
  rewrite (u64_id (val 2 f2)) by (eapply N.lt_le_trans; [by apply (val_bound 2 2)|by rewrite L2]).
  change 0x3333333333333333 with (mask 2 16). rewrite (stage_masked 2 16 2 f2) by done.
  change (2 * 2) with 4.
  set (f3 := pairsums f2). assert (L3 : length f3 = (2 * 8)%nat) by (by apply pairsums_length).
  assert (B3 : Forall (fun f => f <= 4) f3) by (apply (pairsums_bound 2); [by rewrite L2|done]).
  rewrite (u64_id (val 4 f3)) by (eapply N.lt_le_trans; [by apply (val_bound 4 4)|by rewrite L3]).
  destruct (stage_sum 4 8 4 f3 L3 ltac:(done) B3) as [E3 M3]. rewrite E3.
  rewrite (u64_id (val 4 (slides f3))).
  2:{ eapply N.lt_le_trans; [apply (val_bound 4 8); [done|by apply (slides_bound 4)]|by rewrite slides_length, L3]. }
  change 0x0f0f0f0f0f0f0f0f with (mask 4 8). rewrite M3. change (2 * 4) with 8.
  set (f4 := pairsums f3). assert (L4 : length f4 = (2 * 4)%nat) by (by apply pairsums_length).
  assert (B4 : Forall (fun f => f <= 8) f4) by (apply (pairsums_bound 4); [by rewrite L3|done]).
  destruct (stage_sum 8 4 8 f4 L4 ltac:(done) B4) as [E4 M4]. rewrite E4.
  rewrite (u64_id (val 8 (slides f4))).
  2:{ eapply N.lt_le_trans; [apply (val_bound 8 16); [done|by apply (slides_bound 8)]|by rewrite slides_length, L4]. }
  change 0x00ff00ff00ff00ff with (mask 8 4). rewrite M4. change (2 * 8) with 16.
  set (f5 := pairsums f4). assert (L5 : length f5 = (2 * 2)%nat) by (by apply pairsums_length).
  assert (B5 : Forall (fun f => f <= 16) f5) by (apply (pairsums_bound 8); [by rewrite L4|done]).
  destruct (stage_sum 16 2 16 f5 L5 ltac:(done) B5) as [E5 M5]. rewrite E5.
  rewrite (u64_id (val 16 (slides f5))).
  2:{ eapply N.lt_le_trans; [apply (val_bound 16 32); [done|by apply (slides_bound 16)]|by rewrite slides_length, L5]. }
  change 0x0000ffff0000ffff with (mask 16 2). rewrite M5. change (2 * 16) with 32.
  set (f6 := pairsums f5). assert (L6 : length f6 = (2 * 1)%nat) by (by apply pairsums_length).
  assert (B6 : Forall (fun f => f <= 32) f6) by (apply (pairsums_bound 16); [by rewrite L5|done]).
  assert (S6 : sumN f6 = sumN f1).
  { unfold f6, f5, f4, f3, f2. by rewrite !pairsums_sum. }
  rewrite <- S6. clearbody f6.
  destruct f6 as [|a [|b [|]]]; simpl in L6; try lia.
  inversion_clear B6 as [|? ? Ha H']. inversion_clear H' as [|? ? Hb _].
  rewrite shiftr_val by lia. cbn [val sumN fold_right]. rewrite N.mul_0_r, !N.add_0_r.
  replace (a + 2 ^ 32 * b + b) with ((a + b) + 2 ^ 32 * b) by lia.
  rewrite u64_id by lia. change 0xff with (N.ones 8). rewrite N.land_ones.
  replace ((a + b + 2 ^ 32 * b)) with (a + b + (2 ^ 24 * b) * 2 ^ 8) by lia.
  rewrite N.mod_add by done. rewrite N.mod_small by lia.
  unfold to_int. rewrite Z.mod_small by lia. lia.
Qed.

Lemma bit_cnt32_ok x : x < 2 ^ 32 -> bit_cnt32 x = Z.of_nat (popcount 32 x).
Proof.
  intros Hx. rewrite <- nat_N_Z, popcount_ones.
  assert (exists f1, ones_of x 32 = f1 /\ x = val 1 f1) as (f1 & E1 & Ex) by (eexists; split; [done|]; symmetry; by apply ones_val).
  assert (L1 : length f1 = (2 * 16)%nat) by (rewrite <- E1; apply ones_length).
  assert (B1 : Forall (fun f => f <= 1) f1) by (rewrite <- E1; apply ones_bound).
  rewrite E1. clear E1 Hx. subst x. unfold bit_cnt32. cbv zeta.
  change 0x55555555 with (mask 1 16). rewrite (stage_masked 1 16 1 f1) by done.
  change (2 * 1) with 2.
  set (f2 := pairsums f1). assert (L2 : length f2 = (2 * 8)%nat) by (by apply pairsums_length).
  assert (B2 : Forall (fun f => f <= 2) f2) by (apply (pairsums_bound 1); [by rewrite L1|done]).
  rewrite (u32_id (val 2 f2)) by (eapply N.lt_le_trans; [by apply (val_bound 2 2)|by rewrite L2]).
  change 0x33333333 with (mask 2 8). rewrite (stage_masked 2 8 2 f2) by done.
  change (2 * 2) with 4.
  set (f3 := pairsums f2). assert (L3 : length f3 = (2 * 4)%nat) by (by apply pairsums_length).
  assert (B3 : Forall (fun f => f <= 4) f3) by (apply (pairsums_bound 2); [by rewrite L2|done]).
  rewrite (u32_id (val 4 f3)) by (eapply N.lt_le_trans; [by apply (val_bound 4 4)|by rewrite L3]).
  destruct (stage_sum 4 4 4 f3 L3 ltac:(done) B3) as [E3 M3]. rewrite E3.
  rewrite (u32_id (val 4 (slides f3))).
  2:{ eapply N.lt_le_trans; [apply (val_bound 4 8); [done|by apply (slides_bound 4)]|by rewrite slides_length, L3]. }
  change 0x0f0f0f0f with (mask 4 4). rewrite M3. change (2 * 4) with 8.
  set (f4 := pairsums f3). assert (L4 : length f4 = (2 * 2)%nat) by (by apply pairsums_length).
  assert (B4 : Forall (fun f => f <= 8) f4) by (apply (pairsums_bound 4); [by rewrite L3|done]).
  assert (S4 : sumN f4 = sumN f1).
  { unfold f4, f3, f2. by rewrite !pairsums_sum. }
  rewrite <- S4. clearbody f4.
  destruct f4 as [|a [|b [|c [|d [|]]]]]; simpl in L4; try lia.
  inversion_clear B4 as [|? ? Ha H']. inversion_clear H' as [|? ? Hb H'']. 
  inversion_clear H'' as [|? ? Hc H3]. inversion_clear H3 as [|? ? Hd _].
  rewrite shiftr_val by lia. cbn [val sumN fold_right]. rewrite !N.mul_0_r, !N.add_0_r.
  rewrite (u32_id (b + _ + _)) by lia.
  replace (b + 2 ^ 8 * (c + 2 ^ 8 * d) + (a + 2 ^ 8 * (b + 2 ^ 8 * (c + 2 ^ 8 * d))))
    with ((a + b + 2 ^ 8 * (b + c)) + ((c + d) + 2 ^ 8 * d) * 2 ^ 16) by lia.
  rewrite N.shiftr_div_pow2, N.div_add by done. rewrite N.div_small by lia. rewrite N.add_0_l.
  rewrite u32_id by lia. change 0xff with (N.ones 8). rewrite N.land_ones.
  replace (a + b + 2 ^ 8 * (b + c) + (c + d + 2 ^ 8 * d) * 2 ^ 16 + (c + d + 2 ^ 8 * d))
    with ((a + b + c + d) + (b + c + d + (c + d + 2 ^ 8 * d) * 2 ^ 8) * 2 ^ 8) by lia.
  rewrite N.mod_add by done. rewrite N.mod_small by lia.
  unfold to_int. rewrite Z.mod_small by lia. lia.
Qed.

(** ** single bits *)
Lemma ul_bit_ok b : (0 <= b < 64)%Z -> ul_bit b = Ret (2 ^ Z.to_N b).
Proof.
  intros Hb. unfold ul_bit. destruct (Z.leb_spec 0 b), (Z.ltb_spec b 64); (done || lia).
Qed.

Lemma bit_set_ok x b : (0 <= b < 64)%Z -> exists x', bit_set x b = Ret x' /\
  forall i, N.testbit x' i = N.testbit x i || (i =? Z.to_N b).
Proof.
  intros Hb. unfold bit_set. rewrite ul_bit_ok by done. rb. eexists. split; [done|]. intros i.
  rewrite N.lor_spec, N.pow2_bits_eqb. f_equal. apply N.eqb_sym.
Qed.

Lemma bit_clr_ok x b : x < 2 ^ 64 -> (0 <= b < 64)%Z -> exists x', bit_clr x b = Ret x' /\
  forall i, N.testbit x' i = N.testbit x i && negb (i =? Z.to_N b).
Proof.
  intros Hx Hb. unfold bit_clr. rewrite ul_bit_ok by done. rb. eexists. split; [done|]. intros i.
  rewrite N.land_spec. set (k := Z.to_N b) in *. assert (Hk : k < 64) by (unfold k; lia).
  destruct (N.ltb_spec i 64) as [Hi|Hi].
  - f_equal. replace (2 ^ 64 - 1 - 2 ^ k) with (N.ldiff (N.ones 64) (2 ^ k)).
    + rewrite N.ldiff_spec, N.pow2_bits_eqb. rewrite N.ones_spec_low by done. by rewrite N.eqb_sym.
    + rewrite <- N.sub_nocarry_ldiff.
      * rewrite N.ones_equiv. lia.
      * apply N.bits_inj. intros j. rewrite N.ldiff_spec, N.pow2_bits_eqb, N.bits_0.
        destruct (N.eqb_spec k j); [|done]. subst. by rewrite N.ones_spec_low.
  - replace (N.testbit x i) with false; [done|]. symmetry.
    destruct (N.eq_dec x 0) as [->|]; [by rewrite N.bits_0|].
    apply N.bits_above_log2. apply N.log2_lt_pow2; [lia|].
    eapply N.lt_le_trans; [exact Hx|]. apply N.pow_le_mono_r; lia.
Qed.

Lemma land_pow2 x k : N.land x (2 ^ k) = if N.testbit x k then 2 ^ k else 0.
Proof.
  apply N.bits_inj. intros i. rewrite N.land_spec, N.pow2_bits_eqb.
  destruct (N.eqb_spec k i) as [->|Hne].
  - rewrite andb_true_r. destruct (N.testbit x i); [by rewrite N.pow2_bits_true|by rewrite N.bits_0].
  - rewrite andb_false_r. destruct (N.testbit x k); [by rewrite N.pow2_bits_false|by rewrite N.bits_0].
Qed.

Lemma bit_tst_ok x b : (0 <= b < 64)%Z -> exists r, bit_tst x b = Ret r /\
  (r <> 0%Z <-> N.testbit x (Z.to_N b) = true /\ (b < 32)%Z).
Proof.
  intros Hb. unfold bit_tst. rewrite ul_bit_ok by done. rb. eexists. split; [done|].
  rewrite land_pow2. destruct (N.testbit x (Z.to_N b)) eqn:E.
  - destruct (Z.ltb_spec b 32) as [Hlt|Hge].
    + split; [done|]. intros _. unfold to_int. intros Hz.
      rewrite N2Z.inj_pow, Z2N.id in Hz by lia. change (Z.of_N 2) with 2%Z in Hz.
      assert (1 <= 2 ^ b)%Z by (pose proof (Z.pow_pos_nonneg 2 b); lia).
      assert (2 ^ b <= 2 ^ 31)%Z by (apply Z.pow_le_mono_r; lia).
      destruct (Z.eq_dec (2 ^ b)%Z (2 ^ 31)%Z) as [Heq|Hne].
      * rewrite Heq in Hz. vm_compute in Hz. discriminate Hz.
      * rewrite Z.mod_small in Hz by lia. lia.
    + split; [|lia]. intros Hz. exfalso. apply Hz. unfold to_int.
      rewrite N2Z.inj_pow, Z2N.id by lia. change (Z.of_N 2) with 2%Z.
      replace (2 ^ b)%Z with (2 ^ (b - 32) * 2 ^ 32)%Z.
      * rewrite Z.add_comm, Z.mod_add by lia. reflexivity.
      * rewrite <- Z.pow_add_r by lia. f_equal. lia.
  - split; [intros []; reflexivity|]. by intros [].
Qed.
Lemma bit_ub x b : ~ (0 <= b < 64)%Z -> bit_set x b = UB /\ bit_clr x b = UB /\ bit_tst x b = UB.
Proof.
  intros Hb. unfold bit_set, bit_clr, bit_tst, ul_bit.
  destruct (Z.leb_spec 0 b), (Z.ltb_spec b 64); (done || lia).
Qed.
