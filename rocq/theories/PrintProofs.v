(** Proofs about printing. *)
From Verif Require Import Base ListLemmas CStr StackModel StackProofs ObjModel ObjProofs MemModel MemProofs MemHist ListModel.
From Verif Require Import PrimeModel HashModel HashSpec HashProofs HashOps HashOps2 HashIter HashHist SetModel HashFnModel HashFnProofs StrModel StrHist SourceSpec SourceMsg PrintModel PrintSpec.
From Coq Require Import String Ascii.
Notation length := List.length.
Local Open Scope Z_scope.

Lemma size_bound n : (n < 10 ^ N.of_nat (S (N.to_nat (N.size n))))%N.
Proof.
  rewrite Nat2N.inj_succ, N2Nat.id. pose proof (N.size_gt n).
  assert (2 ^ N.size n <= 10 ^ N.size n)%N by (apply N.pow_le_mono_l; lia).
  rewrite N.pow_succ_r'. lia.
Qed.
Lemma digits_num n : decimal (Z.of_N n) (digits (S (N.to_nat (N.size n))) n).
Proof.
  destruct (digits_decimal (S (N.to_nat (N.size n))) n ltac:(lia) (size_bound n)) as (H1 & H2 & H3 & _).
  exists (digits (S (N.to_nat (N.size n))) n). rewrite decide_False by lia. split; [reflexivity|]. split; [assumption|]. split; [rewrite H2; lia|assumption].
Qed.
Lemma lu_prints n l o : prints l o -> prints (Num (Z.of_N n) :: l) (lu n ++ o).
Proof. intros H. apply p_num; [apply digits_num|assumption]. Qed.
Lemma pd_prints z l o : prints l o -> prints (Num z :: l) (pd z ++ o).
Proof.
  intros H. apply p_num; [|assumption].
  destruct (digits_decimal (S (N.to_nat (N.size (Z.abs_N z)))) (Z.abs_N z) ltac:(lia) (size_bound _)) as (H1 & H2 & H3 & _).
  eexists. split; [|split; [exact H1|split; [rewrite H2; lia|exact H3]]].
  destruct (Z.ltb_spec z 0); [rewrite decide_True by assumption|rewrite decide_False by lia]; reflexivity.
Qed.
Lemma lit_prints s l o : prints l o -> prints (T s :: l) (lit s ++ o).
Proof. intros H. by apply p_text. Qed.
Lemma nl_prints l o : prints l o -> prints (EOL :: l) (nl ++ o).
Proof. intros H. by apply p_eol. Qed.
Lemma addr_prints p l o : prints l o -> prints (At p :: l) ([Addr p] ++ o).
Proof. intros H. by apply p_at. Qed.
Lemma ratio_prints a b l o : prints l o -> prints (Quot a b :: l) ([Ratio a b] ++ o).
Proof. intros H. by apply p_quot. Qed.
Lemma prints_app l1 l2 o1 o2 : prints l1 o1 -> prints l2 o2 -> prints (l1 ++ l2) (o1 ++ o2).
Proof.
  intros H1 H2. induction H1; cbn [app]; [assumption|rewrite <- ?app_assoc; constructor; assumption..].
Qed.
Lemma nl_last : prints [EOL] nl.
Proof. apply p_eol, p_nil. Qed.

Ltac pr := repeat first [apply lit_prints|apply lu_prints|apply pd_prints|apply addr_prints|apply ratio_prints|apply nl_last|apply nl_prints].
Lemma stats_prints what self s : prints (stats_items what self s) (stats_text what self s).
Proof.
  unfold stats_items, stats_text. destruct (decide (s_buckets_used s = 0%N)) as [E|E].
  - apply N.eqb_eq in E. rewrite E. cbn [negb app]. pr.
  - apply N.eqb_neq in E. rewrite E. cbn [negb]. rewrite <- !app_assoc. pr.
Qed.

(** ** keys in columns *)
Lemma iter_chain_ext {K D U} (c1 c2 : iterator K D U) : (forall k d x, c1 k d x = c2 k d x) ->
  forall n pt su, iter_chain n c1 pt su = iter_chain n c2 pt su.
Proof.
  intros H. induction n as [|n IH]; intros [a|] su; cbn [iter_chain]; try reflexivity.
  destruct (hget (heap su.1) a) as [b| | | |]; try reflexivity. cbn [mbind res_bind]. rewrite H.
  destruct (c2 (bkey b) (bdatum b) su) as [[su' r]| | | |]; try reflexivity. cbn [mbind res_bind].
  destruct (negb (r =? 0)); [reflexivity|apply IH].
Qed.
Lemma iter_rows_ext {K D U} (c1 c2 : iterator K D U) : (forall k d x, c1 k d x = c2 k d x) ->
  forall n fuel i su, iter_rows n fuel c1 i su = iter_rows n fuel c2 i su.
Proof.
  intros H. induction n as [|n IH]; intros fuel i su; cbn [iter_rows]; [reflexivity|].
  destruct (i <? prime (tab su.1))%N; [|reflexivity].
  destruct (aget (buckets (tab su.1)) (N.to_nat i)) as [p| | | |]; try reflexivity. cbn [mbind res_bind].
  rewrite (iter_chain_ext c1 c2 H). destruct (iter_chain fuel c2 p su) as [[su' []]| | | |]; try reflexivity. cbn [mbind res_bind]. apply IH.
Qed.
Lemma hsh_iterate_ext {K D U} (c1 c2 : iterator K D U) : (forall k d x, c1 k d x = c2 k d x) ->
  forall fuel s u, hsh_iterate fuel c1 s u = hsh_iterate fuel c2 s u.
Proof. intros H fuel s u. unfold hsh_iterate. destruct (hsh_check (tab s)); try reflexivity. cbn [mbind res_bind]. by apply iter_rows_ext. Qed.

Definition ks_f {D} (k : skey) (d : D) (u : list sym * Z) : (list sym * Z) * Z :=
  let '(out, i) := u in
  let s := proj1_sig k in
  let i' := to_int (Z.of_N (u64 (Z.to_N (i mod 2 ^ 64) + N.of_nat (length s) + 2))) in
  let out' := out ++ (B <$> s) ++ lit "  " in
  if (60 <=? i')%Z then ((out' ++ nl, 0), 0) else ((out', i'), 0).
Lemma ks_pure {D} k (d : D) x : key_strings_cb k d x = pure_cb ks_f k d x.
Proof.
  destruct x as [t [out i]]. unfold key_strings_cb, pure_cb, ks_f.
  destruct (60 <=? _)%Z; reflexivity.
Qed.
Lemma to_int_small z : 0 <= z < 2 ^ 31 -> to_int z = z.
Proof. intros H. unfold to_int. rewrite Z.mod_small by lia. lia. Qed.

Lemma width_app a b : width (a ++ b) = (width a + width b)%nat.
Proof. unfold width. rewrite fmap_app, sum_list_with_app || idtac. induction a as [|x a IH]; cbn; [reflexivity|]. cbn in IH. lia. Qed.
Lemma cells_app a b : cells (a ++ b) = cells a ++ cells b.
Proof. unfold cells. by rewrite fmap_app, concat_app. Qed.

Lemma visit_columns {D} (m : list (skey * D)) : Forall (fun kd => Z.of_nat (length (proj1_sig kd.1)) < 2 ^ 31 - 62) m ->
  forall lines lastl, Forall full_line lines -> (width lastl < 60)%nat ->
  exists lines' lastl', List.concat lines' ++ lastl' = List.concat lines ++ lastl ++ ((fun kd => proj1_sig kd.1) <$> m) /\
    Forall full_line lines' /\ (width lastl' < 60)%nat /\
    visit ks_f m (List.concat ((fun l => cells l ++ [B 10]) <$> lines) ++ cells lastl, Z.of_nat (width lastl)) =
      ((List.concat ((fun l => cells l ++ [B 10]) <$> lines') ++ cells lastl', Z.of_nat (width lastl')), false).
Proof.
  induction 1 as [|[k d] m Hk Hm IH]; intros lines lastl Hl Hw.
  - exists lines, lastl. cbn [fmap list_fmap visit]. rewrite app_nil_r. done.
  - cbn [fst] in Hk. cbn [visit ks_f].
    assert (E : to_int (Z.of_N (u64 (Z.to_N (Z.of_nat (width lastl) mod 2 ^ 64) + N.of_nat (length (proj1_sig k)) + 2))) = Z.of_nat (width (lastl ++ [proj1_sig k]))).
    { rewrite width_app. unfold width at 3. cbn [fmap list_fmap sum_list sum_list_with foldr]. rewrite Z.mod_small by lia.
      unfold u64. rewrite N.mod_small by (change (2 ^ 64)%N with 18446744073709551616%N; lia). rewrite to_int_small; [|]; cbn; lia. }
    rewrite E. destruct (Z.leb_spec 60 (Z.of_nat (width (lastl ++ [proj1_sig k])))) as [H60|H60].
    + destruct (IH (lines ++ [lastl ++ [proj1_sig k]]) []) as (lines' & lastl' & I1 & I2 & I3 & I4).
      { apply Forall_app. split; [assumption|]. apply Forall_singleton. exists lastl, (proj1_sig k). split; [reflexivity|]. split; [assumption|lia]. }
      { cbn. lia. }
      exists lines', lastl'. split; [rewrite I1, concat_app; cbn; by rewrite app_nil_r, <- !app_assoc|].
      split; [assumption|]. split; [assumption|]. rewrite <- I4. cbn [Z.eqb]. f_equal.
      rewrite fmap_app, concat_app. cbn. rewrite cells_app. f_equal. cbn.
      rewrite !app_nil_r, <- !app_assoc. reflexivity.
    + destruct (IH lines (lastl ++ [proj1_sig k])) as (lines' & lastl' & I1 & I2 & I3 & I4); [assumption|lia|].
      exists lines', lastl'. split; [rewrite I1; cbn [fmap list_fmap]; by rewrite <- !app_assoc|].
      split; [assumption|]. split; [assumption|]. rewrite <- I4. cbn [Z.eqb]. f_equal. rewrite cells_app, <- !app_assoc. do 2 f_equal. unfold cells. cbn. by rewrite app_nil_r.
Qed.
