(** The datum of a head entry stays NULL (sl.c:191): the first line of every dump shows it. *)
From Verif Require Import Base Alloc StackModel ObjModel SkipModel SkipSpec SkipProofs SkipWorld SkipHist SkipProps
  SkipCheckSpec SkipCheckProofs.
Local Open Scope Z_scope.

Definition keeps (h h' : gmap positive entry) : Prop :=
  forall c d, edatum <$> h !! c = Some d -> is_Some (h' !! c) -> edatum <$> h' !! c = Some d.
Lemma keeps_refl h : keeps h h.
Proof. intros c d H _. done. Qed.
Definition same (h h' : gmap positive entry) : Prop := forall c, edatum <$> h' !! c = edatum <$> h !! c.
Lemma same_trans a b c : same a b -> same b c -> same a c.
Proof. intros H1 H2 x. by rewrite H2, H1. Qed.
Lemma fset_same h b i q h' : fset h b i q = Ret h' -> same h h'.
Proof.
  intros (e0 & H0 & Hi & ->)%fset_inv c. destruct (decide (c = b)) as [-> | Hne]; [by rewrite lookup_insert, H0|].
  by rewrite lookup_insert_ne.
Qed.
Lemma for_up_same (body : nat -> gmap positive entry -> res (gmap positive entry)) :
  (forall i h h', body i h = Ret h' -> same h h') -> forall k i h h', for_up k i body h = Ret h' -> same h h'.
Proof.
  intros Hb k i h h' E. apply (for_up_keep body (same h)) in E; [done| |by intros c].
  intros j h1 h2 E1 E2. eapply same_trans; [exact E2|by eapply Hb].
Qed.
Lemma sub_keeps h h' : (forall b e, h' !! b = Some e -> h !! b = Some e) -> keeps h h'.
Proof. intros Hs c d H [e He]. rewrite He. rewrite (Hs _ _ He) in H. done. Qed.
Lemma same_keeps h h' : same h h' -> keeps h h'.
Proof. intros Hs c d H _. by rewrite Hs. Qed.
Lemma keeps_same_sub h h1 h' : same h h1 -> (forall b e, h' !! b = Some e -> h1 !! b = Some e) -> keeps h h'.
Proof. intros Hs Hb c d H Hl. apply (sub_keeps h1 h' Hb); [by rewrite Hs|done]. Qed.

Section S.
Context {K : Type}.
Implicit Types (w : sworld K) (G : gmap positive (glist K)).
Local Ltac ib H x E :=
  match type of H with mbind ?f ?m = Ret _ => destruct m as [x| | | |] eqn:E; cbn [mbind res_bind] in H; try discriminate H end.

Lemma get_blk (al : oalloc (slist K)) (w w' : oworld (slist K)) m a : mem_get_object al w m = Ret (w', a) -> forall b, b <> a -> oblk w' !! b = oblk w !! b.
Proof.
  intros E b Hb. unfold mem_get_object in E. ib E i E1. ib E p E2. destruct p as [h1 obj]. destruct obj as [a'|].
  - ib E r E3. ib E u E4. by injection E as <- <-.
  - destruct (al_blk al _ _) as [[a' j]|]; [|done]. ib E h2 E3. ib E t E4. ib E u E5. injection E as <- <-.
    cbn [oblk]. by rewrite lookup_insert_ne.
Qed.
Lemma free_blk (al : oalloc (slist K)) (w w' : oworld (slist K)) m a : mem_free_object al w m a = Ret w' -> oblk w' = oblk w.
Proof. intros E. unfold mem_free_object in E. ib E i E1. ib E h E2. ib E u E3. by injection E as <-. Qed.
Lemma slset_blk (o : oworld (slist K)) a x o' : slset o a x = Ret o' -> oblk o' = <[a := x]> (oblk o).
Proof. intros E. unfold slset in E. ib E b E1. injection E as <-. unfold hset in E1. destruct (oblk o !! a); [|done]. by injection E1 as <-. Qed.

Definition head_null w (l : positive) : Prop :=
  exists x, oblk (sobj w) !! l = Some x /\ edatum <$> sent w !! shead x = Some None.

Lemma create_heads al w cmp key w' l : malloc_ok (sa_entry al) -> sl_create al w cmp key = Ret (w', l) ->
  head_null w' l /\ forall l2, l2 <> l -> head_null w l2 -> head_null w' l2.
Proof.
  intros Hal E. unfold sl_create in E. ib E o1 E1. destruct o1 as [o m]. destruct cmp as [cmp|]; [|done].
  destruct key as [key|]; [|done]. ib E o2 E2. destruct o2 as [o1 l0]. ib E h1 E3. destruct h1 as [h e].
  ib E o3 E4. ib E h' E5. injection E as <- <-.
  apply (for_up_same) in E5; [|by intros i h1 h2 E; eapply fset_same].
  unfold sl_create_entry in E3. destruct (MaxLevel <? MaxLevel)%nat; [done|].
  destruct (sa_entry al (sent w)) as [a|] eqn:Ea; [|done]. injection E3 as <- <-. apply Hal in Ea.
  assert (Ho : oblk o = oblk (sobj w)).
  { destruct (smem w); [by injection E1 as <- _|]. unfold mem_create_objects in E1. destruct (al_info _ _); [|done].
    ib E1 p1 X1. destruct p1. ib E1 p2 X2. destruct p2. by injection E1 as <- <-. }
  split.
  - eexists. cbn [sobj]. rewrite (slset_blk _ _ _ _ E4), lookup_insert. split; [done|]. cbn [sent shead]. by rewrite E5, lookup_insert.
  - intros l2 Hne (x & Hx & Hd). exists x. cbn [sobj sent]. rewrite (slset_blk _ _ _ _ E4), lookup_insert_ne by done.
    rewrite (get_blk _ _ _ _ _ E2 l2 Hne), Ho. split; [done|]. rewrite E5.
    rewrite lookup_insert_ne by (intros ->; rewrite Ea in Hd; done). done.
Qed.
Lemma insert_heads al rnd w l d w' : malloc_ok (sa_entry al) -> sl_insert al rnd w l d = Ret w' ->
  forall l2, head_null w l2 -> head_null w' l2.
Proof.
  intros Hal E l2 (x2 & Hx2 & Hd). unfold sl_insert in E. ib E x1 E1. destruct x1 as [a x]. ib E x3 E2. destruct x3 as [pt u].
  ib E dup E3. destruct dup; [done|]. ib E x4 E4. destruct x4 as [[level slev] u']. ib E x5 E5. destruct x5 as [h e].
  ib E h' E6. ib E c E7. ib E o E8. injection E as <-.
  apply for_up_same in E6.
  2:{ intros i h1 h2 Hs. unfold splice_in in Hs. ib Hs p Hp. ib Hs n Hn. ib Hs h4 Hh4. eapply same_trans; by eapply fset_same. }
  unfold sl_create_entry in E5. destruct (MaxLevel <? level)%nat; [done|].
  destruct (sa_entry al (sent w)) as [b|] eqn:Ea; [|done]. injection E5 as <- <-. apply Hal in Ea.
  assert (Hb : b <> shead x2) by (intros ->; rewrite Ea in Hd; done).
  destruct l as [l|]; [|done]. unfold slget in E1. ib E1 y Ey. injection E1 as -> ->. unfold hget in Ey.
  unfold head_null. cbn [sobj sent]. rewrite (slset_blk _ _ _ _ E8). destruct (decide (l2 = a)) as [-> | Hne].
  - rewrite lookup_insert. eexists. split; [done|]. cbn [shead]. rewrite E6. rewrite Hx2 in Ey. injection Ey as <-.
    by rewrite lookup_insert_ne.
  - rewrite lookup_insert_ne by done. exists x2. split; [done|]. by rewrite E6, lookup_insert_ne.
Qed.
Lemma delete_heads w l d w' : sl_delete w l d = Ret w' ->
  forall l2, head_null w l2 -> (forall x, oblk (sobj w') !! l2 = Some x -> is_Some (sent w' !! shead x)) -> head_null w' l2.
Proof.
  intros E l2 (x2 & Hx2 & Hd) Hlive. unfold sl_delete in E. ib E x1 E1. destruct x1 as [a x]. ib E x3 E2. destruct x3 as [pt u].
  ib E here E3. destruct here; [|ib E dd Ed; done]. destruct pt as [pt|]; [|ib E dd Ed; done].
  ib E h1 E4. ib E h2 E5. ib E lev E6. ib E c E7. ib E o E8. injection E as <-.
  apply for_up_same in E4.
  2:{ intros i h3 h4 Hs. unfold splice_out in Hs. ib Hs p Hp. ib Hs n Hn. destruct (decide (n = Some pt)); [|injection Hs as <-; by intros ?].
      ib Hs q Hq. by eapply fset_same. }
  pose proof (keeps_same_sub _ _ _ E4 (hfree_sub _ _ _ E5)) as Hk.
  destruct l as [l|]; [|done]. unfold slget in E1. ib E1 y Ey. injection E1 as -> ->. unfold hget in Ey.
  unfold head_null. cbn [sobj sent] in *. rewrite (slset_blk _ _ _ _ E8) in *. destruct (decide (l2 = a)) as [-> | Hne].
  - rewrite lookup_insert in *. eexists. split; [done|]. specialize (Hlive _ eq_refl). cbn [shead] in *. rewrite Hx2 in Ey. injection Ey as <-.
    by apply Hk.
  - rewrite lookup_insert_ne in * by done. exists x2. split; [done|]. apply Hk; [done|]. by apply Hlive.
Qed.
Lemma destroy_heads al w l w' : sl_destroy al w l = Ret w' ->
  forall l2, head_null w l2 -> (forall x, oblk (sobj w') !! l2 = Some x -> is_Some (sent w' !! shead x)) -> head_null w' l2.
Proof.
  intros E l2 (x2 & Hx2 & Hd) Hlive. unfold sl_destroy in E. ib E x1 E1. destruct x1 as [a x]. ib E h E2. destruct (smem w); [|done].
  ib E o E3. injection E as <-. unfold head_null. cbn [sobj sent] in *. rewrite (free_blk _ _ _ _ _ E3) in *. exists x2. split; [done|].
  apply (sub_keeps _ _ (free_entries_sub _ _ _ _ E2)); [done|]. by apply Hlive.
Qed.
Lemma history_heads w G n : sl_history w G n -> forall l, is_Some (G !! l) -> head_null w l.
Proof.
  intros h. assert (Hlive : forall l, is_Some (G !! l) -> forall x, oblk (sobj w) !! l = Some x -> is_Some (sent w !! shead x)).
  { intros l [g Hl] x Hx. destruct (history_chain w G n l g h Hl) as (x' & L & Hx' & HL & _). rewrite Hx in Hx'. injection Hx' as <-.
    destruct (chain_head _ _ _ HL) as (e & He & _). eauto. }
  revert Hlive. induction h as [|al w G n cmp key w' l h IH Hal Hn Ho Hnn E|al rnd w G n l g d w' h IH Hal Hl Hab Hlen E
    |w G n l g d x w' h IH Hl Hp E|al w G n l g w' h IH Hal Hn Hl E|w n w' h IH E]; intros Hlive l2 Hl2.
  all: try (assert (IH2 := IH ltac:(intros l3 [g3 Hl3] x3 Hx3; destruct (history_chain _ _ _ _ _ h Hl3) as (x' & L & Hx' & HL & _);
      rewrite Hx3 in Hx'; injection Hx' as <-; destruct (chain_head _ _ _ HL) as (e & He & _); eauto))).
  - rewrite lookup_empty in Hl2. by destruct Hl2.
  - destruct (create_heads al w _ _ w' l ltac:(apply Hal) E) as [H1 H2]. destruct (decide (l2 = l)) as [-> | Hne]; [done|].
    apply H2; [done|]. apply IH2. by rewrite lookup_insert_ne in Hl2.
  - eapply insert_heads; [apply Hal|exact E|]. apply IH2. destruct (decide (l2 = l)) as [-> | Hne]; [eauto|]. by rewrite lookup_insert_ne in Hl2.
  - eapply delete_heads; [exact E| |by apply Hlive]. apply IH2. destruct (decide (l2 = l)) as [-> | Hne]; [eauto|]. by rewrite lookup_insert_ne in Hl2.
  - eapply destroy_heads; [exact E| |by apply Hlive]. apply IH2. destruct Hl2 as [g2 [_ H]%lookup_delete_Some]. eauto.
  - rewrite lookup_empty in Hl2. by destruct Hl2.
Qed.
End S.
