(** Proofs about the object pools of memory.c. *)
From Verif Require Import Base StackModel StackProofs ObjModel.
Local Open Scope Z_scope.

(** What the calls made on a pool imply: the configured size, the blocks handed
    out so far in order, and those not yet given back. *)
Record pool := Pool { p_size : Z; p_log : list positive; p_live : gset positive }.

Section Obj.
Context {B : Type}.
(** [wf n b]: [b] is a block of [n] bytes *)
Context (wf : Z -> B -> Prop).
Implicit Types (al : oalloc B) (w : oworld B) (P : gmap positive pool)
  (M : gmap positive (list (positive * ptr))).

Record oalloc_ok al : Prop := {
  oa_info : malloc_ok (al_info al);
  oa_stk : malloc_ok (al_stk al);
  oa_node : malloc_ok (al_node al);
  oa_blk : forall z h a b, al_blk al (size_t z) h = Some (a, b) -> h !! a = None /\ wf z b }.

(** [F]: blocks on the free stack, [A]: blocks allocated *)
Record pool_ok (i : oinfo) (g : pool) (Lf La : list (positive * ptr)) : Prop := {
  po_size : osize i = p_size g;
  po_free : exists F, Lf.*2 = Some <$> F /\ NoDup F /\
      (forall a, a ∈ F <-> a ∈ p_log g /\ a ∉ p_live g);
  po_all : exists A, La.*2 = Some <$> A /\ NoDup A /\ (forall a, a ∈ A <-> a ∈ p_log g) /\
      total i = Z.of_nat (length A) /\ reused i = Z.of_nat (length (p_log g)) - Z.of_nat (length A);
  po_live : forall a, a ∈ p_live g -> a ∈ p_log g;
  po_used : used i = Z.of_nat (size (p_live g)) }.

Record oinv w P M : Prop := {
  oi_stk : stk_inv (osh w) M;
  oi_dom : forall i, is_Some (oinf w !! i) <-> is_Some (P !! i);
  oi_pool : forall i g, P !! i = Some g -> exists x Lf La, oinf w !! i = Some x /\
      M !! ostack x = Some Lf /\ M !! oallocated x = Some La /\ pool_ok x g Lf La /\
      ostack x <> oallocated x;
  oi_stkdisj : forall i j x y s, oinf w !! i = Some x -> oinf w !! j = Some y ->
      s = ostack x \/ s = oallocated x -> s = ostack y \/ s = oallocated y -> i = j;
  oi_stkall : forall s, is_Some (M !! s) -> exists i x, oinf w !! i = Some x /\
      (s = ostack x \/ s = oallocated x);
  oi_blkdisj : forall i j g g' a, P !! i = Some g -> P !! j = Some g' ->
      a ∈ p_log g -> a ∈ p_log g' -> i = j;
  oi_blk : forall i g a, P !! i = Some g -> a ∈ p_log g ->
      exists b, oblk w !! a = Some b /\ wf (p_size g) b;
  oi_blkall : forall a, is_Some (oblk w !! a) -> exists i g, P !! i = Some g /\ a ∈ p_log g }.

Lemma oinv_empty : oinv oempty ∅ ∅.
Proof.
  constructor; unfold oempty; simpl.
  - apply stk_inv_empty.
  - intros i. rewrite !lookup_empty. by split; intros [? ?].
  - intros i g. by rewrite lookup_empty.
  - intros i j x y s H. by rewrite lookup_empty in H.
  - intros s. rewrite lookup_empty. by intros [? ?].
  - intros i j g g' a H. by rewrite lookup_empty in H.
  - intros i g a H. by rewrite lookup_empty in H.
  - intros a. rewrite lookup_empty. by intros [? ?].
Qed.

Lemma oinv_update w P M i g x w' M' g' x' :
  oinv w P M -> P !! i = Some g -> oinf w !! i = Some x ->
  ostack x' = ostack x -> oallocated x' = oallocated x ->
  oinf w' = <[i := x']> (oinf w) ->
  stk_inv (osh w') M' ->
  (forall s, s <> ostack x -> s <> oallocated x -> M' !! s = M !! s) ->
  (exists Lf La, M' !! ostack x = Some Lf /\ M' !! oallocated x = Some La /\ pool_ok x' g' Lf La) ->
  (forall a, a ∈ p_log g -> a ∈ p_log g') ->
  (forall a, a ∈ p_log g' -> a ∈ p_log g \/ oblk w !! a = None) ->
  (forall a, a ∉ p_log g' -> oblk w' !! a = oblk w !! a) ->
  (forall a, a ∈ p_log g' -> exists b, oblk w' !! a = Some b /\ wf (p_size g') b) ->
  oinv w' (<[i := g']> P) M'.
Proof.
  intros I Hi Hx Hs1 Hs2 Hinf Hstk Hother (Lf & La & HLf & HLa & Hok) Hlog Hnew Hold Hblk.
  assert (Hout : forall j g2 a, j <> i -> P !! j = Some g2 -> a ∈ p_log g2 -> a ∉ p_log g').
  { intros j g2 a Hne Hj Ha Ha'. destruct (Hnew a Ha') as [H|H].
    - apply Hne. by apply (oi_blkdisj _ _ _ I j i g2 g a).
    - destruct (oi_blk _ _ _ I j g2 a Hj Ha) as (b & Hb & _). congruence. }
  destruct (oi_pool _ _ _ I i g Hi) as (x0 & _ & _ & Hx0 & _ & _ & _ & Hneq).
  rewrite Hx in Hx0. injection Hx0 as <-.
  assert (Hget : forall j y, oinf w' !! j = Some y -> exists y0, oinf w !! j = Some y0 /\
    ostack y = ostack y0 /\ oallocated y = oallocated y0).
  { intros j y. rewrite Hinf. destruct (decide (j = i)) as [->|Hne].
    - rewrite lookup_insert. intros [= <-]. eauto.
    - rewrite lookup_insert_ne by done. eauto. }
  constructor.
  - done.
  - intros j. rewrite Hinf. destruct (decide (j = i)) as [->|Hne].
    + rewrite !lookup_insert. split; eauto.
    + rewrite !lookup_insert_ne by done. apply I.
  - intros j g2. destruct (decide (j = i)) as [->|Hne].
    + rewrite lookup_insert. intros [= <-]. exists x', Lf, La. rewrite Hinf, lookup_insert, Hs1, Hs2. done.
    + rewrite lookup_insert_ne by done. intros Hj.
      destruct (oi_pool _ _ _ I j g2 Hj) as (y & Lf2 & La2 & Hy & H1 & H2 & H3 & H4).
      exists y, Lf2, La2. rewrite Hinf, lookup_insert_ne by done.
      rewrite !Hother; [done|..]; intros Heq; apply Hne.
      * apply (oi_stkdisj _ _ _ I j i y x (oallocated y)); auto.
      * apply (oi_stkdisj _ _ _ I j i y x (oallocated y)); auto.
      * apply (oi_stkdisj _ _ _ I j i y x (ostack y)); auto.
      * apply (oi_stkdisj _ _ _ I j i y x (ostack y)); auto.
  - intros j k y z s Hy Hz. apply Hget in Hy as (y0 & Hy & -> & ->). apply Hget in Hz as (z0 & Hz & -> & ->).
    by apply I.
  - intros s Hs. destruct (decide (s = ostack x \/ s = oallocated x)) as [Hd|Hd].
    + exists i, x'. rewrite Hinf, lookup_insert, Hs1, Hs2. done.
    + assert (is_Some (M !! s)) as HM by (rewrite <- Hother by tauto; done).
      destruct (oi_stkall _ _ _ I s HM) as (j & y & Hy & Hsy).
      destruct (decide (j = i)) as [->|Hne].
      * exfalso. apply Hd. congruence.
      * exists j, y. rewrite Hinf, lookup_insert_ne by done. done.
  - intros j k g2 g3 a. destruct (decide (j = i)) as [->|Hj]; destruct (decide (k = i)) as [->|Hk];
      rewrite ?lookup_insert, ?lookup_insert_ne by done.
    + done.
    + intros [= <-] Hk3 Ha Ha3. exfalso. by apply (Hout k g3 a).
    + intros Hk2 [= <-] Ha Ha3. exfalso. by apply (Hout j g2 a).
    + apply I.
  - intros j g2 a. destruct (decide (j = i)) as [->|Hj].
    + rewrite lookup_insert. intros [= <-]. apply Hblk.
    + rewrite lookup_insert_ne by done. intros Hj2 Ha. rewrite Hold by (by apply (Hout j g2)). by apply (oi_blk _ _ _ I j).
  - intros a Ha. destruct (decide (a ∈ p_log g')) as [H|H].
    + exists i, g'. by rewrite lookup_insert.
    + rewrite Hold in Ha by done. destruct (oi_blkall _ _ _ I a Ha) as (j & g2 & Hj & Hja).
      destruct (decide (j = i)) as [->|Hne].
      * exfalso. apply H, Hlog. congruence.
      * exists j, g2. by rewrite lookup_insert_ne.
Qed.

Lemma fmap_cons_Some (L : list (positive * ptr)) F : L.*2 = Some <$> F ->
  match L with [] => F = [] | x :: L' => exists a F', snd x = Some a /\ F = a :: F' /\ L'.*2 = Some <$> F' end.
Proof. destruct L as [|x L], F as [|a F]; try done. simpl. intros [= H1 H2]. eauto. Qed.

Lemma log_len_bound (l : list positive) (A : list positive) :
  NoDup A -> (forall a, a ∈ A -> a ∈ l) -> (length A <= length l)%nat.
Proof. intros H1 H2. apply submseteq_length. apply NoDup_submseteq; auto. Qed.

Lemma live_len_bound (X : gset positive) (l : list positive) :
  (forall a, a ∈ X -> a ∈ l) -> (size X <= length l)%nat.
Proof.
  intros H. change (length (elements X) <= length l)%nat. apply log_len_bound; [apply NoDup_elements|].
  intros a. rewrite elem_of_elements. auto.
Qed.

(** mem_get_object: recycles a free block if there is one, else allocates; the
    block was not live in any pool.  Needs malloc of the stack node to succeed. *)
Lemma get_spec al w P M i g : oinv w P M -> oalloc_ok al -> P !! i = Some g ->
  al_node al (nodes (osh w)) <> None ->
  Z.of_nat (length (p_log g)) < 2 ^ 31 - 1 ->
  ok (fun '(w', a) => exists M', oinv w' (<[i := Pool (p_size g) (p_log g ++ [a]) ({[a]} ∪ p_live g)]> P) M' /\
       (forall j g2, P !! j = Some g2 -> a ∉ p_live g2) /\
       ((a ∈ p_log g /\ oblk w' = oblk w) \/
        ((forall b, b ∈ p_log g -> b ∈ p_live g) /\ oblk w !! a = None /\ exists b, wf (p_size g) b /\ oblk w' = <[a := b]> (oblk w))))
     (al_blk al (size_t (p_size g)) (oblk w) = None)
     (mem_get_object al w i).
Proof.
  intros I Hal Hi Hnode Hmax. unfold mem_get_object.
  destruct (oi_pool _ _ _ I i g Hi) as (x & Lf & La & Hx & HLf & HLa & Hok & Hneq).
  rewrite (hget_Some _ _ _ Hx). rb.
  destruct (pop_spec (osh w) M (ostack x) Lf (oi_stk _ _ _ I) HLf) as (h1 & E & I1 & Hn1 & Hd1). rewrite E. rb. clear E.
  destruct Hok as [Hsize (F & HF & HndF & HFs) (A & HA & HndA & HAs & Ht & Hr) Hlive Hused].
  assert (HlA : (length A <= length (p_log g))%nat) by (apply log_len_bound; [done|by intros a; rewrite HAs]).
  assert (Hll : (size (p_live g) <= length (p_log g))%nat) by (by apply live_len_bound).
  assert (Hsint : forall z, 0 <= z <= 2 ^ 31 - 1 -> sint z = Ret z).
  { intros z Hz. unfold sint, int_range, INT_MIN, INT_MAX.
    rewrite (proj2 (Bool.andb_true_iff (- 2 ^ 31 <=? z) _)) by (split; apply Z.leb_le; lia). done. }
  pose proof (fmap_cons_Some Lf F HF) as HLF. destruct Lf as [|[n d] Lf].
  - (* nothing free *)
    cbn [snd]. subst F. rewrite Hsize.
    destruct (al_blk al (size_t (p_size g)) (oblk w)) as [[a junk]|] eqn:Ea; [|done].
    apply (oa_blk _ Hal) in Ea as [Hfresh Hwf].
    simpl in I1. rewrite insert_id in I1 by done.
    pose proof (push_spec (al_node al) h1 M (oallocated x) La (Some a) (oa_node _ Hal) I1 HLa) as Hp.
    rewrite Hn1 in Hp. destruct (al_node al (nodes (osh w))) as [nd|]; [|done].
    destruct Hp as (h2 & E2 & I2 & _ & _). rewrite E2. rb.
    rewrite (Hsint (total x + 1)) by lia. rb. rewrite (Hsint (used x + 1)) by lia. rb.
    assert (Hall : forall b, b ∈ p_log g -> b ∈ p_live g).
    { intros b Hb. destruct (decide (b ∈ p_live g)); [done|]. exfalso.
      assert (b ∈ []) as H by (apply HFs; done). by apply elem_of_nil in H. }
    assert (Hna : a ∉ p_log g).
    { intros Ha. destruct (oi_blk _ _ _ I i g a Hi Ha) as (b & Hb & _). congruence. }
    eexists. split; [|split].
    + eapply oinv_update with (x' := OInfo (total x + 1) (used x + 1) (reused x) (p_size g) (ostack x) (oallocated x));
        try done; simpl.
      * intros s H1 H2. by rewrite lookup_insert_ne.
      * exists [], ((nd, Some a) :: La). rewrite lookup_insert_ne by done. rewrite lookup_insert.
        split; [done|]. split; [done|]. constructor; cbn [p_size p_log p_live total used reused osize]; try done.
        -- exists []. split; [done|]. split; [constructor|]. intros b. rewrite elem_of_nil.
           split; [done|]. rewrite elem_of_app, elem_of_list_singleton, elem_of_union, elem_of_singleton.
           intros [[Hb| ->] Hn]; apply Hn; [right; auto|by left].
        -- exists (a :: A). split; [rewrite !fmap_cons, HA; done|]. cbn [length]. split; [constructor; [by rewrite HAs|done]|].
           split; [|rewrite app_length; simpl; lia].
           intros b. rewrite elem_of_cons, elem_of_app, elem_of_list_singleton, HAs. tauto.
        -- intros b. rewrite elem_of_union, elem_of_singleton, elem_of_app, elem_of_list_singleton.
           intros [->|Hb]; [by right|left; auto].
        -- rewrite size_union by (intros b; rewrite elem_of_singleton; intros -> Hb; auto).
           rewrite size_singleton. lia.
      * intros b Hb. rewrite elem_of_app. auto.
      * intros b. rewrite elem_of_app, elem_of_list_singleton. intros [?| ->]; auto.
      * intros b. rewrite elem_of_app, elem_of_list_singleton. intros Hb. rewrite lookup_insert_ne; [done|].
        intros ->. tauto.
      * intros b. rewrite elem_of_app, elem_of_list_singleton. intros Hb.
        destruct (decide (b = a)) as [->|Hne].
        -- rewrite lookup_insert. eauto.
        -- rewrite lookup_insert_ne by done. destruct Hb as [Hb|]; [|done]. by apply (oi_blk _ _ _ I i).
    + intros j g2 Hj Ha.
      assert (a ∈ p_log g2) as Hl.
      { destruct (oi_pool _ _ _ I j g2 Hj) as (? & ? & ? & _ & _ & _ & Hok2 & _). by apply Hok2. }
      destruct (oi_blk _ _ _ I j g2 a Hj Hl) as (b & Hb & _). congruence.
    + right. split; [done|]. split; [done|]. exists junk. done.
  - (* recycle *)
    destruct HLF as (a & F' & Ed & -> & HF'). cbn [snd] in *. subst d.
    assert (Ha : a ∈ p_log g /\ a ∉ p_live g) by (apply HFs; left). destruct Ha as [Ha Hnl].
    assert (HlA' : (length A < length (p_log g) + 1)%nat) by lia.
    rewrite (Hsint (reused x + 1)) by lia. rb. rewrite (Hsint (used x + 1)) by lia. rb.
    apply NoDup_cons in HndF as [HnF HndF].
    eexists. split; [|split].
    + eapply oinv_update with (x' := OInfo (total x) (used x + 1) (reused x + 1) (osize x) (ostack x) (oallocated x));
        try done; simpl.
      * intros s H1 H2. by rewrite lookup_insert_ne.
      * exists Lf, La. rewrite lookup_insert. rewrite lookup_insert_ne by done.
        split; [done|]. split; [done|]. constructor; cbn [p_size p_log p_live total used reused osize]; try done.
        -- exists F'. split; [done|]. split; [done|]. intros b.
           rewrite elem_of_app, elem_of_list_singleton, elem_of_union, elem_of_singleton.
           specialize (HFs b). rewrite elem_of_cons in HFs. 
           split; [intros Hb; assert (b <> a) by (intros ->; auto); tauto|].
           intros [[Hb| ->] Hn]; tauto.
        -- exists A. split; [done|]. split; [done|]. split; [|rewrite app_length; simpl; lia].
           intros b. rewrite elem_of_app, elem_of_list_singleton, HAs. split; [tauto|]. intros [?| ->]; auto.
        -- intros b. rewrite elem_of_union, elem_of_singleton, elem_of_app, elem_of_list_singleton.
           intros [->|Hb]; [by right|left; auto].
        -- rewrite size_union by (intros b; rewrite elem_of_singleton; intros -> Hb; auto).
           rewrite size_singleton. lia.
      * intros b Hb. rewrite elem_of_app. auto.
      * intros b. rewrite elem_of_app, elem_of_list_singleton. intros [?| ->]; auto.
      * intros b. rewrite elem_of_app, elem_of_list_singleton. intros [Hb| ->]; by apply (oi_blk _ _ _ I i).
    + intros j g2 Hj Hl2.
      assert (a ∈ p_log g2) as Hl.
      { destruct (oi_pool _ _ _ I j g2 Hj) as (? & ? & ? & _ & _ & _ & Hok2 & _). by apply Hok2. }
      assert (j = i) as -> by (by apply (oi_blkdisj _ _ _ I j i g2 g a)). congruence.
    + left. done.
Qed.

Lemma free_spec al w P M i g a : oinv w P M -> oalloc_ok al -> P !! i = Some g -> a ∈ p_live g ->
  Z.of_nat (length (p_log g)) < 2 ^ 31 ->
  match al_node al (nodes (osh w)) with
  | None => mem_free_object al w i (Some a) = UB
  | Some _ => exists w' M', mem_free_object al w i (Some a) = Ret w' /\ oblk w' = oblk w /\
      oinv w' (<[i := Pool (p_size g) (p_log g) (p_live g ∖ {[a]})]> P) M'
  end.
Proof.
  intros I Hal Hi Ha Hmax. unfold mem_free_object.
  destruct (oi_pool _ _ _ I i g Hi) as (x & Lf & La & Hx & HLf & HLa & Hok & Hneq).
  rewrite (hget_Some _ _ _ Hx). rb.
  pose proof (push_spec (al_node al) (osh w) M (ostack x) Lf (Some a) (oa_node _ Hal) (oi_stk _ _ _ I) HLf) as Hp.
  destruct (al_node al (nodes (osh w))) as [nd|]; [|by rewrite Hp].
  destruct Hp as (h2 & E2 & I2 & _ & _). rewrite E2. rb.
  destruct Hok as [Hsize (F & HF & HndF & HFs) (A & HA & HndA & HAs & Ht & Hr) Hlive Hused].
  assert (Hll : (size (p_live g) <= length (p_log g))%nat) by (by apply live_len_bound).
  assert (Hpos : (0 < size (p_live g))%nat).
  { destruct (size (p_live g)) eqn:Es; [|lia]. apply size_empty_inv in Es. set_solver. }
  assert (sint (used x - 1) = Ret (used x - 1)) as ->.
  { unfold sint, int_range, INT_MIN, INT_MAX.
    rewrite (proj2 (Bool.andb_true_iff (- 2 ^ 31 <=? used x - 1) _)) by (split; apply Z.leb_le; lia). done. }
  rb. eexists _, _. split; [done|]. split; [done|].
  eapply oinv_update with (x' := OInfo (total x) (used x - 1) (reused x) (osize x) (ostack x) (oallocated x));
    try done; simpl.
  - intros s H1 H2. by rewrite lookup_insert_ne.
  - eexists ((nd, Some a) :: Lf), La. rewrite lookup_insert. rewrite lookup_insert_ne by done.
    split; [done|]. split; [done|]. constructor; cbn [p_size p_log p_live total used reused osize]; try done.
    + exists (a :: F). split; [rewrite !fmap_cons, HF; done|].
      split; [constructor; [rewrite HFs; tauto|done]|].
      intros b. rewrite elem_of_cons, elem_of_difference, elem_of_singleton, HFs.
      split; [intros [->|[? ?]]; [split; [auto|tauto]|tauto]|].
      intros [Hb Hn]. destruct (decide (b = a)); [by left|right]. tauto.
    + exists A. done.
    + intros b. rewrite elem_of_difference. intros [? _]. auto.
    + rewrite size_difference by set_solver. rewrite size_singleton. lia.
  - auto.
  - intros b Hb. by apply (oi_blk _ _ _ I i).
Qed.

Lemma free_all_spec fuel : forall h M s L F bl, stk_inv h M -> M !! s = Some L -> (length L < fuel)%nat ->
  L.*2 = Some <$> F -> NoDup F -> (forall a, a ∈ F -> is_Some (bl !! a)) ->
  exists h' bl', @free_all B fuel h s bl = Ret (h', bl') /\ stk_inv h' (<[s := []]> M) /\
    forall a, bl' !! a = if decide (a ∈ F) then None else bl !! a.
Proof.
  induction fuel as [|fuel IH]; intros h M s L F bl I HL Hf HF Hnd Hbl; [lia|]. cbn [free_all].
  rewrite (isempty_spec h M s L I HL). rb. pose proof (fmap_cons_Some L F HF) as HLF.
  destruct L as [|[n d] L].
  - subst F. exists h, bl. split; [done|]. rewrite insert_id by done. split; [done|].
    intros a. rewrite decide_False; [done|]. intros H. by apply elem_of_nil in H.
  - destruct HLF as (a & F' & Ed & -> & HF'). cbn [snd] in Ed. subst d. change (0 =? 0) with true. cbn beta iota.
    destruct (pop_spec h M s _ I HL) as (h1 & E & I1 & _). rewrite E. rb. cbn [snd xfree_blk].
    destruct (Hbl a) as [b Hb]; [left|]. rewrite (hfree_Some _ _ _ Hb). rb.
    apply NoDup_cons in Hnd as [Hna Hnd].
    destruct (IH h1 (<[s := L]> M) s L F' (delete a bl)) as (h2 & bl' & E2 & I2 & Hbl'); try done.
    + by rewrite lookup_insert.
    + simpl in Hf. lia.
    + intros c Hc. rewrite lookup_delete_ne by congruence. apply Hbl. by right.
    + exists h2, bl'. split; [done|]. rewrite insert_insert in I2. split; [done|].
      intros c. rewrite Hbl'. destruct (decide (c ∈ F')) as [Hc|Hc].
      * rewrite decide_True; [done|by right].
      * destruct (decide (c = a)) as [->|Hne].
        -- rewrite lookup_delete. rewrite decide_True; [done|left].
        -- rewrite lookup_delete_ne by done. rewrite decide_False; [done|]. by intros [?|?]%elem_of_cons.
Qed.

Lemma destroy_obj_spec w P M i g : oinv w P M -> P !! i = Some g ->
  exists w' M', mem_destroy_objects w i = Ret w' /\ oinv w' (delete i P) M' /\
    (forall a, oblk w' !! a = if decide (a ∈ p_log g) then None else oblk w !! a) /\
    oinf w' = delete i (oinf w).
Proof.
  intros I Hi. unfold mem_destroy_objects.
  destruct (oi_pool _ _ _ I i g Hi) as (x & Lf & La & Hx & HLf & HLa & Hok & Hneq).
  rewrite (hget_Some _ _ _ Hx). rb.
  assert (Hok2 := Hok). destruct Hok2 as [_ _ (A & HA & HndA & HAs & _ & _) _ _].
  destruct (free_all_spec (S (size (nodes (osh w)))) (osh w) M (oallocated x) La A (oblk w))
    as (h1 & bl & E & I1 & Hbl); try done.
  { apply I. }
  { destruct (si_chain _ _ (oi_stk _ _ _ I) _ _ HLa) as (p & _ & Hc).
    rewrite <- (fmap_length fst La). apply Nat.lt_succ_r. apply nodup_bound; [by apply (si_nodup _ _ (oi_stk _ _ _ I) (oallocated x))|].
    intros a Ha. by eapply chain_live. }
  { intros a Ha. apply HAs in Ha. destruct (oi_blk _ _ _ I i g a Hi Ha) as (b & Hb & _). eauto. }
  rewrite E. rb.
  destruct (destroy_spec h1 _ (oallocated x) [] I1) as (h2 & E2 & I2 & _ & _); [by rewrite lookup_insert|].
  rewrite E2. rb. rewrite delete_insert_delete in I2.
  destruct (destroy_spec h2 _ (ostack x) Lf I2) as (h3 & E3 & I3 & _ & _); [by rewrite lookup_delete_ne|].
  rewrite E3. rb. rewrite (hfree_Some _ _ _ Hx). rb. eexists _, _. split; [done|]. simpl.
  assert (Hbl2 : forall a, bl !! a = if decide (a ∈ p_log g) then None else oblk w !! a).
  { intros a. rewrite Hbl. destruct (decide (a ∈ A)) as [H|H]; rewrite HAs in H.
    - by rewrite decide_True. - by rewrite decide_False. }
  split; [|split; [done|done]].
  constructor; simpl.
  - done.
  - intros j. destruct (decide (j = i)) as [->|Hne].
    + rewrite !lookup_delete. by split; intros [? ?].
    + rewrite !lookup_delete_ne by done. apply I.
  - intros j g2 [Hne Hj]%lookup_delete_Some.
    destruct (oi_pool _ _ _ I j g2 Hj) as (y & Lf2 & La2 & Hy & H1 & H2 & H3 & H4).
    exists y, Lf2, La2. rewrite lookup_delete_ne by done.
    assert (forall s, s = ostack y \/ s = oallocated y -> s <> ostack x /\ s <> oallocated x) as Hd.
    { intros s Hs. split; intros Heq; apply Hne.
      - symmetry. apply (oi_stkdisj _ _ _ I j i y x s); auto.
      - symmetry. apply (oi_stkdisj _ _ _ I j i y x s); auto. }
    rewrite !lookup_delete_ne by (apply not_eq_sym, Hd; auto). done.
  - intros j k y z s [_ Hy]%lookup_delete_Some [_ Hz]%lookup_delete_Some. by apply I.
  - intros s [L [H1 [H2 Hs]%lookup_delete_Some]%lookup_delete_Some].
    destruct (oi_stkall _ _ _ I s) as (j & y & Hy & Hsy); [eauto|].
    exists j, y. rewrite lookup_delete_ne; [done|]. intros <-. rewrite Hx in Hy. injection Hy as <-.
    destruct Hsy; congruence.
  - intros j k g2 g3 a [_ Hj]%lookup_delete_Some [_ Hk]%lookup_delete_Some. by apply I.
  - intros j g2 a [Hne Hj]%lookup_delete_Some Ha. rewrite Hbl2. rewrite decide_False.
    + by apply (oi_blk _ _ _ I j).
    + intros Ha2. apply Hne. by apply (oi_blkdisj _ _ _ I i j g g2 a).
  - intros a. rewrite Hbl2. destruct (decide (a ∈ p_log g)) as [H|H]; [by intros [? ?]|].
    intros Ha. destruct (oi_blkall _ _ _ I a Ha) as (j & g2 & Hj & Hja). exists j, g2.
    rewrite lookup_delete_ne; [done|]. intros <-. congruence.
Qed.

Lemma create_obj_spec al w P M n : oinv w P M -> oalloc_ok al ->
  ok (fun '(w', i) => exists M', P !! i = None /\ oinv w' (<[i := Pool n [] ∅]> P) M' /\ oblk w' = oblk w)
     (al_info al (oinf w) = None \/ exists h, al_stk al h = None)
     (mem_create_objects al w n).
Proof.
  intros I Hal. unfold mem_create_objects. destruct (al_info al (oinf w)) as [i|] eqn:Ei; [|by left].
  apply (oa_info _ Hal) in Ei.
  pose proof (create_spec (al_stk al) (osh w) M (oa_stk _ Hal) (oi_stk _ _ _ I)) as H1.
  destruct (al_stk al (stks (osh w))) as [s1|] eqn:Es1; [|rewrite H1; right; eauto].
  destruct H1 as (h1 & -> & HM1 & I1 & _). rb.
  pose proof (create_spec (al_stk al) h1 _ (oa_stk _ Hal) I1) as H2.
  destruct (al_stk al (stks h1)) as [s2|] eqn:Es2; [|rewrite H2; right; eauto].
  destruct H2 as (h2 & -> & HM2 & I2 & _). rb.
  assert (Hne : s2 <> s1) by (intros ->; by rewrite lookup_insert in HM2).
  rewrite lookup_insert_ne in HM2 by done.
  assert (HP : P !! i = None).
  { apply eq_None_not_Some. intros H. apply (oi_dom _ _ _ I) in H. rewrite Ei in H. by destruct H. }
  assert (Hnew : forall j x s, oinf w !! j = Some x -> s = ostack x \/ s = oallocated x -> s <> s1 /\ s <> s2).
  { intros j x s Hx Hs. assert (is_Some (P !! j)) as [g Hg] by (apply (oi_dom _ _ _ I); eauto).
    destruct (oi_pool _ _ _ I j g Hg) as (x0 & Lf & La & Hx0 & H1 & H2 & _). rewrite Hx in Hx0. injection Hx0 as <-.
    split; intros ->; destruct Hs; congruence. }
  exists (<[s2 := []]> (<[s1 := []]> M)). split; [done|]. split; [|done]. constructor; simpl.
  - done.
  - intros j. destruct (decide (j = i)) as [->|Hj].
    + rewrite !lookup_insert. split; eauto.
    + rewrite !lookup_insert_ne by done. apply I.
  - intros j g. destruct (decide (j = i)) as [->|Hj].
    + rewrite !lookup_insert. intros [= <-]. exists (OInfo 0 0 0 n s1 s2), [], []. cbn [ostack oallocated].
      rewrite lookup_insert_ne by done. rewrite !lookup_insert.
      repeat (split; [done|]). split; [|done]. constructor; cbn [p_size p_log p_live total used reused osize]; try done.
      * exists []. split; [done|]. split; [constructor|]. intros a. rewrite !elem_of_nil. tauto.
      * exists []. split; [done|]. split; [constructor|]. split; [|done]. intros a. by rewrite !elem_of_nil.
    + rewrite !lookup_insert_ne by done. intros Hg.
      destruct (oi_pool _ _ _ I j g Hg) as (x & Lf & La & Hx & H1 & H2 & H3 & H4). exists x, Lf, La.
      destruct (Hnew j x (ostack x) Hx) as [? ?]; [auto|]. destruct (Hnew j x (oallocated x) Hx) as [? ?]; [auto|].
      rewrite !lookup_insert_ne by congruence. done.
  - intros j k x y s. destruct (decide (j = i)) as [->|Hj]; destruct (decide (k = i)) as [->|Hk];
      rewrite ?lookup_insert, ?lookup_insert_ne by done.
    + done.
    + intros [= <-] Hy Hs Hs'. destruct (Hnew k y s Hy Hs'). simpl in Hs. tauto.
    + intros Hy [= <-] Hs Hs'. destruct (Hnew j x s Hy Hs). simpl in Hs'. tauto.
    + apply I.
  - intros s Hs. destruct (decide (s = s1 \/ s = s2)) as [Hd|Hd].
    + exists i. eexists. rewrite lookup_insert. split; [done|]. done.
    + rewrite !lookup_insert_ne in Hs by (intros ->; tauto).
      destruct (oi_stkall _ _ _ I s Hs) as (j & y & Hy & Hsy). exists j, y. rewrite lookup_insert_ne by congruence. done.
  - intros j k g g' a. destruct (decide (j = i)) as [->|Hj];
      [rewrite lookup_insert; intros [= <-] _ H; by apply elem_of_nil in H|].
    destruct (decide (k = i)) as [->|Hk]; [rewrite lookup_insert; intros _ [= <-] _ H; by apply elem_of_nil in H|].
    rewrite !lookup_insert_ne by done. apply I.
  - intros j g a. destruct (decide (j = i)) as [->|Hj];
      [rewrite lookup_insert; intros [= <-] H; by apply elem_of_nil in H|].
    rewrite lookup_insert_ne by done. apply I.
  - intros a Ha. destruct (oi_blkall _ _ _ I a Ha) as (j & g2 & Hj & Hja). exists j, g2.
    rewrite lookup_insert_ne by congruence. done.
Qed.

(** the user stores into a block that is in some pool *)
Lemma write_spec w P M i g a b : oinv w P M -> P !! i = Some g -> a ∈ p_log g -> wf (p_size g) b ->
  oinv (OW (osh w) (<[a := b]> (oblk w)) (oinf w)) P M.
Proof.
  intros I Hi Ha Hb. destruct I as [I1 I2 I3 I4 I5 I6 I7 I8]. constructor; simpl; try done.
  - intros j g2 c Hj Hc. destruct (decide (c = a)) as [->|Hne].
    + rewrite lookup_insert. assert (j = i) as -> by (by apply (I6 j i g2 g a)). exists b.
      split; [done|]. congruence.
    + rewrite lookup_insert_ne by done. by apply (I7 j).
  - intros c Hc. destruct (decide (c = a)) as [->|Hne]; [eauto|]. rewrite lookup_insert_ne in Hc by done. auto.
Qed.

Lemma stats_spec w P M i g : oinv w P M -> P !! i = Some g ->
  mem_get_object_stats true w (Some i) =
    Ret (Z.of_nat (size (list_to_set (C := gset positive) (p_log g))), Z.of_nat (size (p_live g)),
         Z.of_nat (length (p_log g)) - Z.of_nat (size (list_to_set (C := gset positive) (p_log g))), p_size g).
Proof.
  intros I Hi. destruct (oi_pool _ _ _ I i g Hi) as (x & Lf & La & Hx & HLf & HLa & Hok & Hneq).
  unfold mem_get_object_stats. rewrite (hget_Some _ _ _ Hx). rb.
  destruct Hok as [Hsize _ (A & HA & HndA & HAs & Ht & Hr) Hlive Hused].
  assert (length A = size (list_to_set (C := gset positive) (p_log g))) as HlA.
  { rewrite <- (size_list_to_set (C := gset positive) A) by done. f_equal. apply set_eq. intros a.
    by rewrite !elem_of_list_to_set. }
  rewrite Ht, Hr, Hused, Hsize, HlA. done.
Qed.
End Obj.
