(** Algebra of the list-sets of SetSpec. *)
From Verif Require Import Base HashSpec SetSpec.
Local Open Scope nat_scope.

Section Alg.
Context {K : Type} (cmp : K -> K -> Z).
Implicit Types (xs ys : list K).
Context (Crefl : forall a, cmp a a = 0%Z)
        (Csym : forall a b, cmp a b = 0%Z -> cmp b a = 0%Z)
        (Ctrans : forall a b c, cmp a b = 0%Z -> cmp b c = 0%Z -> cmp a c = 0%Z).

Lemma smem_true k xs : smem cmp k xs = true <-> exists x, x ∈ xs /\ cmp x k = 0%Z.
Proof.
  unfold smem. rewrite existsb_exists. setoid_rewrite elem_of_list_In. setoid_rewrite Z.eqb_eq. done.
Qed.
Lemma smem_false k xs : smem cmp k xs = false <-> forall x, x ∈ xs -> cmp x k <> 0%Z.
Proof.
  rewrite <- not_true_iff_false, smem_true. split.
  - intros H x Hx E. apply H. eauto.
  - intros H (x & Hx & E). by apply (H x).
Qed.
Lemma smem_perm k xs ys : xs ≡ₚ ys -> smem cmp k xs = smem cmp k ys.
Proof.
  intros Hp. destruct (smem cmp k ys) eqn:E.
  - apply smem_true in E as (x & Hx & Hc). apply smem_true. exists x. by rewrite Hp.
  - apply smem_false. intros x Hx. rewrite Hp in Hx. by apply (proj1 (smem_false k ys) E).
Qed.
Lemma smem_eq k k' xs : cmp k k' = 0%Z -> smem cmp k xs = smem cmp k' xs.
Proof.
  intros Hk. destruct (smem cmp k' xs) eqn:E.
  - apply smem_true in E as (x & Hx & Hc). apply smem_true. eauto.
  - apply smem_false. intros x Hx Hc. apply (proj1 (smem_false k' xs) E x Hx). eauto.
Qed.
Lemma smem_cons k x xs : smem cmp k (x :: xs) = ((cmp x k =? 0)%Z || smem cmp k xs).
Proof. done. Qed.

Lemma sinsert_perm k xs ys : xs ≡ₚ ys -> sinsert cmp k xs ≡ₚ sinsert cmp k ys.
Proof. intros Hp. unfold sinsert. rewrite (smem_perm k xs ys Hp). destruct (smem cmp k ys); [done|by rewrite Hp]. Qed.
Lemma sremove_perm k xs ys : xs ≡ₚ ys -> sremove cmp k xs ≡ₚ sremove cmp k ys.
Proof. unfold sremove. by intros ->. Qed.

Lemma filter_ext_ {A} (P Q : A -> Prop) `{forall x, Decision (P x)} `{forall x, Decision (Q x)} (l : list A) :
  (forall x, x ∈ l -> P x <-> Q x) -> filter P l = filter Q l.
Proof.
  induction l as [|x l IH]; intros Hl; [done|].
  destruct (decide (P x)) as [Hp|Hp].
  - rewrite !filter_cons_True; [|by apply Hl; [set_solver|]|done]. f_equal. apply IH. set_solver.
  - rewrite !filter_cons_False; [|rewrite <- Hl; [done|set_solver]|done]. apply IH. set_solver.
Qed.

Lemma sdiff_perm xs xs' ys ys' : xs ≡ₚ xs' -> ys ≡ₚ ys' -> sdiff cmp xs ys ≡ₚ sdiff cmp xs' ys'.
Proof.
  intros Hx Hy. unfold sdiff. rewrite Hx.
  rewrite (filter_ext_ _ (fun x => smem cmp x ys' = false)); [done|].
  intros x _. by rewrite (smem_perm x ys ys' Hy).
Qed.
Lemma sinter_perm xs xs' ys ys' : xs ≡ₚ xs' -> ys ≡ₚ ys' -> sinter cmp xs ys ≡ₚ sinter cmp xs' ys'.
Proof.
  intros Hx Hy. unfold sinter. rewrite Hx.
  rewrite (filter_ext_ _ (fun x => smem cmp x ys' = true)); [done|].
  intros x _. by rewrite (smem_perm x ys ys' Hy).
Qed.
Lemma sunion_perm xs xs' ys ys' : xs ≡ₚ xs' -> ys ≡ₚ ys' -> sunion cmp xs ys ≡ₚ sunion cmp xs' ys'.
Proof. intros Hx Hy. unfold sunion. rewrite Hx at 1. by rewrite (sdiff_perm ys ys' xs xs' Hy Hx). Qed.

Lemma sdistinct_cons x xs : sdistinct cmp (x :: xs) <-> (forall y, y ∈ xs -> cmp x y <> 0%Z) /\ sdistinct cmp xs.
Proof.
  unfold sdistinct. split.
  - intros H. inversion H as [|? ? Hf Ht]. subst. rewrite Forall_forall in Hf. done.
  - intros [H1 H2]. constructor; [|done]. by apply Forall_forall.
Qed.

Definition insert_all xs ks : list K := fold_left (fun xs k => sinsert cmp k xs) ks xs.
Definition remove_all xs ks : list K := fold_left (fun xs k => sremove cmp k xs) ks xs.

Lemma insert_all_perm ks : forall xs ys, xs ≡ₚ ys -> insert_all xs ks ≡ₚ insert_all ys ks.
Proof.
  induction ks as [|k ks IH]; intros xs ys Hp; [done|]. apply IH, sinsert_perm, Hp.
Qed.
Lemma remove_all_perm ks : forall xs ys, xs ≡ₚ ys -> remove_all xs ks ≡ₚ remove_all ys ks.
Proof.
  induction ks as [|k ks IH]; intros xs ys Hp; [done|]. apply IH, sremove_perm, Hp.
Qed.

Lemma insert_all_union ks : sdistinct cmp ks -> forall xs, insert_all xs ks ≡ₚ sunion cmp xs ks.
Proof.
  induction ks as [|k ks IH]; intros Hd xs; unfold insert_all, sunion, sdiff; cbn [fold_left].
  - rewrite filter_nil, app_nil_r. done.
  - apply sdistinct_cons in Hd as [Hk Hd]. specialize (IH Hd). unfold insert_all, sunion, sdiff in IH.
    rewrite IH. unfold sinsert. destruct (smem cmp k xs) eqn:E.
    + rewrite (filter_cons_False _ k); [done|congruence].
    + rewrite (filter_cons_True _ k) by done. simpl.
      rewrite (filter_ext_ (fun x => smem cmp x (k :: xs) = false) (fun x => smem cmp x xs = false)).
      * apply Permutation_middle.
      * intros y Hy. rewrite smem_cons. destruct (Z.eqb_spec (cmp k y) 0) as [Ec|Ec]; [|done].
        exfalso. by apply (Hk y).
Qed.

Lemma remove_all_diff ks xs : remove_all xs ks = sdiff cmp xs ks.
Proof.
  revert xs. induction ks as [|k ks IH]; intros xs; unfold remove_all; cbn [fold_left].
  - unfold sdiff, smem. simpl. symmetry. rewrite (filter_ext_ _ (fun _ => True)); [|done].
    induction xs as [|x xs IHx]; [done|]. rewrite filter_cons_True by done. by rewrite IHx.
  - unfold remove_all in IH. rewrite IH. unfold sdiff, sremove. rewrite list_filter_filter.
    apply filter_ext_. intros x _. rewrite smem_cons, orb_false_iff.
    assert ((cmp x k =? 0)%Z = (cmp k x =? 0)%Z) as ->.
    { destruct (Z.eqb_spec (cmp x k) 0) as [E|E], (Z.eqb_spec (cmp k x) 0) as [E'|E']; try done; exfalso; auto. }
    tauto.
Qed.

Lemma sunion_nil ks : sunion cmp [] ks = ks.
Proof.
  unfold sunion, sdiff. simpl. induction ks as [|k ks IH]; [done|].
  rewrite filter_cons_True by done. by rewrite IH.
Qed.

Lemma sdistinct_perm xs ys : xs ≡ₚ ys -> sdistinct cmp xs -> sdistinct cmp ys.
Proof.
  intros Hp. induction Hp as [|x l l' Hp IH|x y l|l l' l'' H1 IH1 H2 IH2]; intros Hd; [done|..].
  - apply sdistinct_cons in Hd as [Hx Hd]. apply sdistinct_cons. split; [|auto].
    intros z Hz. apply Hx. by rewrite Hp.
  - apply sdistinct_cons in Hd as [Hy Hd]. apply sdistinct_cons in Hd as [Hx Hd].
    apply sdistinct_cons. split.
    + intros z Hz. apply elem_of_cons in Hz as [->|Hz]; [|auto].
      intros E. apply (Hy x); [set_solver|]. auto.
    + apply sdistinct_cons. split; [|done]. intros z Hz. apply Hy. set_solver.
  - auto.
Qed.

(** ** pigeonhole *)
Definition ssub xs ys : Prop := forall x, x ∈ xs -> smem cmp x ys = true.

Lemma sremove_length k ys : smem cmp k ys = true -> length (sremove cmp k ys) < length ys.
Proof.
  induction ys as [|y ys IH]; [done|]. rewrite smem_cons. unfold sremove. intros H.
  destruct (cmp y k =? 0)%Z eqn:E.
  - rewrite filter_cons_False by congruence. pose proof (filter_length (fun x => (cmp x k =? 0)%Z = false) ys).
    simpl. lia.
  - rewrite filter_cons_True by done. simpl in *. apply IH in H. unfold sremove in H. lia.
Qed.

Lemma ssub_length xs : forall ys, sdistinct cmp xs -> ssub xs ys -> length xs <= length ys.
Proof.
  induction xs as [|x xs IH]; intros ys Hd Hs; simpl; [lia|].
  apply sdistinct_cons in Hd as [Hx Hd].
  assert (Hm : smem cmp x ys = true) by (apply Hs; set_solver).
  pose proof (sremove_length x ys Hm).
  assert (length xs <= length (sremove cmp x ys)); [|lia].
  apply IH; [done|]. intros z Hz. specialize (Hs z ltac:(set_solver)).
  apply smem_true in Hs as (y & Hy & Hc). apply smem_true. exists y. split; [|done].
  apply elem_of_list_filter. split; [|done]. apply Z.eqb_neq. intros E. apply (Hx z Hz). eauto.
Qed.

Lemma ssub_full xs ys : sdistinct cmp xs -> ssub xs ys -> length ys <= length xs -> ssub ys xs.
Proof.
  intros Hd Hs Hl y Hy. destruct (smem cmp y xs) eqn:E; [done|]. exfalso.
  assert (Hm : smem cmp y ys = true) by (apply smem_true; eauto).
  pose proof (sremove_length y ys Hm).
  assert (length xs <= length (sremove cmp y ys)); [|lia].
  apply ssub_length; [done|]. intros x Hx. specialize (Hs x Hx).
  apply smem_true in Hs as (z & Hz & Hc). apply smem_true. exists z. split; [|done].
  apply elem_of_list_filter. split; [|done]. apply Z.eqb_neq. intros E'.
  apply (proj1 (smem_false y xs) E x Hx). eauto.
Qed.

Lemma sequal_sub xs ys : sequal cmp xs ys <-> ssub xs ys /\ ssub ys xs.
Proof.
  split.
  - intros H. split; intros x Hx; [rewrite <- H|rewrite H]; apply smem_true; eauto.
  - intros [H1 H2] k. destruct (smem cmp k ys) eqn:E.
    + apply smem_true in E as (y & Hy & Hc). apply H2 in Hy. by rewrite <- (smem_eq y k xs Hc).
    + apply smem_false. intros x Hx Hc. apply H1 in Hx. rewrite (smem_eq x k ys Hc) in Hx. congruence.
Qed.

Lemma sequal_length xs ys : sdistinct cmp xs -> sdistinct cmp ys -> sequal cmp xs ys -> length xs = length ys.
Proof.
  intros Dx Dy H. apply sequal_sub in H as [H1 H2].
  pose proof (ssub_length xs ys Dx H1). pose proof (ssub_length ys xs Dy H2). lia.
Qed.
End Alg.
