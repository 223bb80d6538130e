(** Skip lists that are still alive when maa_shutdown is called. *)
From Verif Require Import Base StackModel StackProofs ObjModel ObjProofs SkipModel SkipSpec SkipProofs SkipWorld SkipHist.
Local Open Scope Z_scope.

Lemma sl_shutdown_ok {K} (w : sworld K) G n : sl_history w G n ->
  exists w', sl_shutdown w = Ret w' /\ smem w' = None /\ oblk (sobj w') = ∅ /\ oinf (sobj w') = ∅ /\ sent w' = sent w /\ (G = ∅ -> sl_history w' ∅ 0).
Proof.
  intros h. destruct (sl_history_inv _ _ _ h) as [(R & P & M & J) _].
  assert (Hinf : forall (o : oworld (slist K)) P' M', oinv anys o P' M' -> P' = ∅ -> oinf o = ∅).
  { intros o P' M' I ->. apply map_empty. intros i. apply eq_None_not_Some. intros Hi. apply (oi_dom _ _ _ _ I) in Hi.
    destruct Hi as [? Hi]. by rewrite lookup_empty in Hi. }
  assert (Hbl : forall (o : oworld (slist K)) P' M', oinv anys o P' M' -> P' = ∅ -> oblk o = ∅).
  { intros o P' M' I ->. apply map_empty. intros a. apply eq_None_not_Some. intros Ha.
    destruct (oi_blkall _ _ _ _ I a Ha) as (j & g2 & Hj & _). by rewrite lookup_empty in Hj. }
  unfold sl_shutdown. destruct (smem w) as [i|] eqn:Em.
  - destruct (sv_mem _ _ _ _ _ _ J i Em) as (g & HP & _). pose proof (sv_obj _ _ _ _ _ _ J) as Io. rewrite HP in Io.
    destruct (destroy_obj_spec anys (sobj w) _ M i g Io (lookup_singleton _ _)) as (o' & M' & E & Io' & _).
    rewrite delete_singleton in Io'. eexists. rewrite E. rb. split; [done|]. cbn [smem sobj sent]. split; [done|].
    split; [by eapply Hbl|]. split; [by eapply Hinf|]. split; [done|]. intros ->. eapply sh_shutdown; [exact h|].
    unfold sl_shutdown. rewrite Em, E. done.
  - destruct (sv_none _ _ _ _ _ _ J Em) as (HP & HR & Hn). eexists. split; [done|]. split; [done|].
    split; [by eapply Hbl; [apply J|]|]. split; [by eapply Hinf; [apply J|]|]. split; [done|]. intros ->. subst n.
    eapply sh_shutdown; [exact h|]. unfold sl_shutdown. by rewrite Em.
Qed.
(** its memory is gone, but not that of its entries *)
Lemma sl_lost {K} (w : sworld K) G n w' l g : sl_history w G n -> sl_shutdown w = Ret w' -> G !! l = Some g ->
  sent w' = sent w /\
  (forall k, sl_find w' (Some l) k = UB) /\ (forall d, sl_delete w' (Some l) d = UB) /\
  (forall al rnd d, sl_insert al rnd w' (Some l) d = UB) /\ (forall al, sl_destroy al w' (Some l) = UB).
Proof.
  intros h E Hl. destruct (sl_shutdown_ok w G n h) as (w1 & E1 & Hm & Hb & _ & Hs & _). rewrite E in E1. injection E1 as <-.
  assert (Hg : slget w' (Some l) = UB) by (unfold slget, hget; by rewrite Hb, lookup_empty).
  split; [done|]. unfold sl_find, sl_delete, sl_insert, sl_destroy. rewrite Hg. done.
Qed.
