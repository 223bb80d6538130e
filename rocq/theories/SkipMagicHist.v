(** Histories of skip list calls that keep track of the destroyed lists. *)
From Verif Require Import Base StackModel StackProofs ObjModel ObjProofs MemProofs ListHist SkipModel SkipSpec SkipProofs SkipWorld SkipHist
  SkipMagicModel.
Local Open Scope Z_scope.

Section Hist.
Context {K : Type}.
Implicit Types (w : mworld K) (G : gmap positive (glist K)) (D : gset positive).

(** as [sl_history], and [D] are the lists destroyed since the last shutdown whose
    address was not returned by sl_create again *)
Inductive msl_history : mworld K -> gmap positive (glist K) -> nat -> gset positive -> Prop :=
| mh_init : msl_history mempty ∅ 0 ∅
| mh_create al w G n D cmp key w' l : msl_history w G n D -> sal_ok al -> snodes_ok al -> order cmp -> Z.of_nat n < 2 ^ 31 - 1 ->
    msl_create al w (Some cmp) (Some key) = Ret (w', l) -> msl_history w' (<[l := GL cmp key []]> G) (n + 1) (D ∖ {[l]})
| mh_insert al rnd w G n D l g d w' : msl_history w G n D -> sal_ok al -> G !! l = Some g ->
    absent g (g_key g d) -> Z.of_nat (length (g_data g)) < 2 ^ 31 - 2 ->
    msl_insert al rnd w (Some l) d = Ret w' -> msl_history w' (<[l := g_insert d g]> G) n D
| mh_delete w G n D l g d x w' : msl_history w G n D -> G !! l = Some g -> present g (g_key g d) x ->
    msl_delete w (Some l) d = Ret w' -> msl_history w' (<[l := g_delete d g]> G) n D
| mh_destroy al w G n D l g w' : msl_history w G n D -> sal_ok al -> snodes_ok al -> G !! l = Some g ->
    msl_destroy al w (Some l) = Ret w' -> msl_history w' (delete l G) n ({[l]} ∪ D)
| mh_shutdown w n D w' : msl_history w ∅ n D -> msl_shutdown w = Ret w' -> msl_history w' ∅ 0 ∅.

Record minv w G n D : Prop := {
  mi_base : sl_history (mbase w) G n;
  mi_live : forall l, is_Some (G !! l) -> mmagic w !! l = Some SL_LIST_MAGIC;
  mi_dead : forall l, l ∈ D -> mmagic w !! l = Some SL_LIST_MAGIC_FREED }.

Local Ltac ib H x E :=
  match type of H with mbind ?f ?m = Ret _ => destruct m as [x| | | |] eqn:E; cbn [mbind res_bind] in H; try discriminate H end.
Lemma mcheck_live w G n D l : minv w G n D -> is_Some (G !! l) -> mcheck w (Some l) = Ret tt.
Proof. intros I Hl. unfold mcheck. rewrite (hget_Some _ _ _ (mi_live _ _ _ _ I l Hl)). done. Qed.
Lemma mcheck_dead w G n D l : minv w G n D -> l ∈ D -> mcheck w (Some l) = Abort.
Proof. intros I Hl. unfold mcheck. rewrite (hget_Some _ _ _ (mi_dead _ _ _ _ I l Hl)). done. Qed.
Lemma minv_disj w G n D l : minv w G n D -> l ∈ D -> G !! l = None.
Proof.
  intros I Hl. destruct (G !! l) as [g|] eqn:E; [|done].
  pose proof (mi_dead _ _ _ _ I l Hl) as H1. pose proof (mi_live _ _ _ _ I l ltac:(eauto)) as H2. rewrite H1 in H2. done.
Qed.

Lemma msl_history_inv w G n D : msl_history w G n D -> minv w G n D.
Proof.
  induction 1 as [|al w G n D cmp key w' l _ I Hal Hn Ho Hnn E|al rnd w G n D l g d w' _ I Hal Hl Hab Hlen E
    |w G n D l g d x w' _ I Hl Hp E|al w G n D l g w' _ I Hal Hn Hl E|w n D w' _ I E].
  - constructor; [constructor| |].
    + intros l [? H]. by rewrite lookup_empty in H.
    + intros l H. by apply elem_of_empty in H.
  - unfold msl_create in E. ib E x E1. destruct x as [w1 l1]. injection E as <- <-. constructor; cbn [mbase mmagic].
    + eapply (sh_create al); [apply I|done..].
    + intros l2 H. destruct (decide (l2 = l1)) as [-> | Hne]; [apply lookup_insert|].
      rewrite lookup_insert_ne in H by done. rewrite lookup_insert_ne by done. by apply I.
    + intros l2 [H1 H2]%elem_of_difference. rewrite lookup_insert_ne by (intros ->; apply H2; by apply elem_of_singleton). by apply I.
  - unfold msl_insert in E. rewrite (mcheck_live _ _ _ _ _ I ltac:(eauto)) in E. cbn [mbind res_bind] in E.
    ib E w1 E1. injection E as <-. constructor; cbn [mbase mmagic].
    + eapply (sh_insert al); [apply I|done..].
    + intros l2 H. apply I. destruct (decide (l2 = l)) as [-> | Hne]; [eauto|]. by rewrite lookup_insert_ne in H.
    + apply I.
  - unfold msl_delete in E. rewrite (mcheck_live _ _ _ _ _ I ltac:(eauto)) in E. cbn [mbind res_bind] in E.
    ib E w1 E1. injection E as <-. constructor; cbn [mbase mmagic].
    + eapply sh_delete; [apply I|done..].
    + intros l2 H. apply I. destruct (decide (l2 = l)) as [-> | Hne]; [eauto|]. by rewrite lookup_insert_ne in H.
    + apply I.
  - unfold msl_destroy in E. rewrite (mcheck_live _ _ _ _ _ I ltac:(eauto)) in E. cbn [mbind res_bind] in E.
    ib E w1 E1. injection E as <-. constructor; cbn [mbase mmagic].
    + eapply (sh_destroy al); [apply I|done..].
    + intros l2 [g2 [Hne H]%lookup_delete_Some]. rewrite lookup_insert_ne by done. apply I. eauto.
    + intros l2 H. destruct (decide (l2 = l)) as [-> | Hne]; [apply lookup_insert|]. rewrite lookup_insert_ne by done.
      apply I. set_solver.
  - unfold msl_shutdown in E. ib E w1 E1. injection E as <-. constructor; cbn [mbase mmagic].
    + eapply sh_shutdown; [apply I|done].
    + intros l [? H]. by rewrite lookup_empty in H.
    + intros l H. by apply elem_of_empty in H.
Qed.

Lemma iterate_mcalls {X} (f : X -> mworld K -> ptr -> res (X * mworld K * Z)) L : forall s m (v : sworld K),
  ('(s', m', v', r) ← calls (fun '(s, m) v d => '(s', v', r) ← f s (MW v m) d; Ret ((s', mmagic v'), mbase v', r)) (s, m) v L;
   Ret (s', MW v' m', r)) = calls f s (MW v m) L.
Proof.
  induction L as [|d L IH]; intros s m v; cbn [calls]; [done|].
  destruct (f s (MW v m) d) as [[[s1 [w1 m1]] r]| | | |]; cbn [mbind res_bind mmagic mbase]; try done.
  destruct (r =? 0); [apply IH|done].
Qed.
End Hist.
