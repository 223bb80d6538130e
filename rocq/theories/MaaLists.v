(** Lists that are still alive when maa_shutdown is called. *)
From Verif Require Import Base StackModel StackProofs ObjModel ObjProofs ListModel ListProofs ListHist.
Local Open Scope Z_scope.

Lemma lst_shutdown_ok w H n t : lst_history w (LG H n t) ->
  exists w', lst_shutdown w = Ret w' /\ lmem w' = None /\ oblk (lobj w') = ∅ /\ oinf (lobj w') = ∅ /\ lhs w' = lhs w /\ ltotal w' = ltotal w /\
    (H = ∅ -> lst_history w' (LG ∅ 0 t)).
Proof.
  intros h. destruct (lst_history_inv _ _ h) as [(P & M & J) _].
  assert (Hinf : forall o P' M', oinv anyb o P' M' -> P' = ∅ -> oinf o = ∅).
  { intros o P' M' I ->. apply map_empty. intros i. apply eq_None_not_Some. intros Hi. apply (oi_dom _ _ _ _ I) in Hi.
    destruct Hi as [? Hi]. by rewrite lookup_empty in Hi. }
  assert (Hbl : forall o P' M', oinv anyb o P' M' -> P' = ∅ -> oblk o = ∅).
  { intros o P' M' I ->. apply map_empty. intros a. apply eq_None_not_Some. intros Ha.
    destruct (oi_blkall _ _ _ _ I a Ha) as (j & g2 & Hj & _). by rewrite lookup_empty in Hj. }
  unfold lst_shutdown. destruct (lmem w) as [i|] eqn:Em.
  - destruct (li_mem _ _ _ _ J i Em) as (g & HP & Hsz & Hlog & Hlive). pose proof (li_obj _ _ _ _ J) as Io. rewrite HP in Io.
    destruct (destroy_obj_spec anyb (lobj w) _ M i g Io (lookup_singleton _ _)) as (o' & M' & E & Io' & _).
    rewrite delete_singleton in Io'. eexists. rewrite E. rb. split; [done|]. cbn [lmem lobj lhs ltotal]. split; [done|].
    split; [by eapply Hbl|]. split; [by eapply Hinf|]. split; [done|]. split; [done|]. intros ->. eapply lh_shutdown; [exact h|].
    unfold lst_shutdown. rewrite Em, E. done.
  - destruct (li_none _ _ _ _ J Em) as (-> & HH & Hn). cbn in HH, Hn. eexists. split; [done|]. split; [done|].
    split; [by eapply Hbl; [apply J|]|]. split; [by eapply Hinf; [apply J|]|]. split; [done|]. split; [done|]. intros _. subst n H. 
    eapply lh_shutdown; [exact h|]. unfold lst_shutdown. by rewrite Em.
Qed.

(** what becomes of a list *)
Lemma lst_lost w H n t w' l L : lst_history w (LG H n t) -> lst_shutdown w = Ret w' -> H !! l = Some L ->
  lst_length w' (Some l) = Ret (N.of_nat (length L)) /\
  (forall al dt, lst_append al w' (Some l) dt = Abort /\ lst_push al w' (Some l) dt = Abort) /\
  (L = [] -> lst_top w' (Some l) = Ret None /\
     forall al, lst_destroy al w' (Some l) = Ret (LW None (lobj w') (delete l (lhs w)) (ltotal w))) /\
  (L <> [] -> lst_top w' (Some l) = UB /\ forall al, lst_pop al w' (Some l) = UB /\ lst_destroy al w' (Some l) = UB).
Proof.
  intros h E Hl. destruct (lst_shutdown_ok w H n t h) as (w1 & E1 & Hm & Hb & _ & Hh & Ht & _). rewrite E in E1. injection E1 as <-.
  destruct (lst_history_inv _ _ h) as [(P & M & J) _]. pose proof (li_hdr _ _ _ _ J l) as Hhd. cbn [g_lists] in Hhd. rewrite Hl in Hhd. cbn in Hhd.
  assert (Hg : lget w' (Some l) = Ret (l, LH (hp L None) (tp L) (N.of_nat (length L)))).
  { unfold lget. rewrite Hh, (hget_Some _ _ _ Hhd). done. }
  split; [unfold lst_length; by rewrite Hg|]. split.
  { intros al dt. unfold lst_append, lst_push, get_node. rewrite Hm. done. }
  split.
  - intros ->. split; [unfold lst_top; by rewrite Hg|]. intros al. unfold lst_destroy. rewrite Hg. rb. cbn [hp lhead]. 
    unfold node_fuel. cbn [free_nodes]. rb. rewrite Hh. unfold hfree. rewrite Hhd. rb. by rewrite Hm, Ht.
  - intros HL. destruct L as [|[a d] L]; [done|]. cbn [hp] in Hg.
    assert (Hn : nget (lobj w') a = UB). { unfold nget, hget. by rewrite Hb, lookup_empty. }
    split; [unfold lst_top; rewrite Hg; rb; cbn [lhead]; by rewrite Hn|]. intros al. split.
    + unfold lst_pop. rewrite Hg. rb. cbn [lhead]. by rewrite Hn.
    + unfold lst_destroy. rewrite Hg. rb. cbn [lhead]. unfold node_fuel. cbn [free_nodes]. rewrite Hn. done.
Qed.
