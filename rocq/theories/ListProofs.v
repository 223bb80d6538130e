(** Proofs about list.c. *)
From Verif Require Import Base StackModel StackProofs ObjModel ObjProofs ListModel.
Local Open Scope Z_scope.

Definition anyb (z : Z) (c : cell) : Prop := True.
Notation elts := (list (positive * ptr)).
Implicit Types (w : lworld) (o : oworld cell) (L : list (positive * ptr)) (H : gmap positive (list (positive * ptr))).

(** first node address, [e] if there is none *)
Definition hp L (e : ptr) : ptr := match L with [] => e | (a, _) :: _ => Some a end.
(** last node address *)
Definition tp L : ptr := fst <$> last L.

Fixpoint lseg (bl : gmap positive cell) L (e : ptr) : Prop :=
  match L with
  | [] => True
  | (a, d) :: L' => bl !! a = Some (Cell d (hp L' e)) /\ lseg bl L' e
  end.

Lemma hp_app L1 L2 e : hp (L1 ++ L2) e = hp L1 (hp L2 e).
Proof. by destruct L1 as [|[a d] L1]. Qed.
Lemma lseg_app bl L1 L2 e : lseg bl (L1 ++ L2) e <-> lseg bl L1 (hp L2 e) /\ lseg bl L2 e.
Proof.
  induction L1 as [|[a d] L1 IH]; simpl; [tauto|]. rewrite IH, hp_app. tauto.
Qed.
Lemma lseg_frame bl bl' L e : (forall a, a ∈ L.*1 -> bl' !! a = bl !! a) -> lseg bl L e -> lseg bl' L e.
Proof.
  induction L as [|[a d] L IH]; [done|]. cbn [lseg]. rewrite fmap_cons. intros Hf [Ha HL]. split.
  - rewrite Hf by left. done.
  - apply IH; [|done]. intros b Hb. apply Hf. by right.
Qed.
Lemma lseg_live bl L e a : lseg bl L e -> a ∈ L.*1 -> is_Some (bl !! a).
Proof.
  induction L as [|[b d] L IH]; cbn [lseg]; rewrite ?fmap_nil, ?fmap_cons.
  - intros _ Ha. by apply elem_of_nil in Ha.
  - intros [Hb HL] [Hab|Ha]%elem_of_cons; [cbn in Hab; subst a; rewrite Hb; eauto|auto].
Qed.
Lemma lseg_bound bl L e : NoDup L.*1 -> lseg bl L e -> (length L <= size bl)%nat.
Proof.
  intros Hnd HL. rewrite <- (fmap_length fst L). apply nodup_bound; [done|]. intros a. by eapply lseg_live.
Qed.
Lemma tp_snoc L a d : tp (L ++ [(a, d)]) = Some a.
Proof. unfold tp. by rewrite last_snoc. Qed.

(** the calls so far: per live list its (position, datum) sequence; node hand-outs
    since the pool was made; bytes accounted *)
Record lgh := LG { g_lists : gmap positive (list (positive * ptr)); g_gets : nat; g_total : Z }.

Record linvP w (G : lgh) (P : gmap positive pool) (M : gmap positive elts) : Prop := {
  li_obj : oinv anyb (lobj w) P M;
  li_none : lmem w = None -> P = ∅ /\ g_lists G = ∅ /\ g_gets G = 0%nat;
  li_mem : forall i, lmem w = Some i -> exists g, P = {[i := g]} /\ p_size g = sizeof_data /\
      length (p_log g) = g_gets G /\
      (forall a, a ∈ p_live g <-> exists l L, g_lists G !! l = Some L /\ a ∈ L.*1);
  li_hdr : forall l, lhs w !! l = (fun L => LH (hp L None) (tp L) (N.of_nat (length L))) <$> g_lists G !! l;
  li_seg : forall l L, g_lists G !! l = Some L -> lseg (oblk (lobj w)) L None;
  li_nodup : forall l L, g_lists G !! l = Some L -> NoDup L.*1;
  li_disj : forall l l' L L' a, g_lists G !! l = Some L -> g_lists G !! l' = Some L' ->
      a ∈ L.*1 -> a ∈ L'.*1 -> l = l';
  li_total : ltotal w = g_total G;
  li_gets : Z.of_nat (g_gets G) < 2 ^ 31 }.
Definition linv w G : Prop := exists P M, linvP w G P M.

Lemma linv_empty : linv lempty (LG ∅ 0 0).
Proof.
  exists ∅, ∅. constructor; unfold lempty; cbn [lobj lmem lhs g_lists g_gets g_total]; try done.
  apply oinv_empty.
Qed.

(** one list changes *)
Lemma linv_step w H n t P M i g l L L' o' g' M' n' t' tw hs' :
  linvP w (LG H n t) P M -> lmem w = Some i -> P = {[i := g]} -> H !! l = Some L ->
  oinv anyb o' {[i := g']} M' -> p_size g' = sizeof_data -> length (p_log g') = n' -> Z.of_nat n' < 2 ^ 31 -> tw = t' ->
  (forall a, a ∈ p_live g' <-> (a ∈ p_live g /\ a ∉ L.*1) \/ a ∈ L'.*1) ->
  lseg (oblk o') L' None -> NoDup L'.*1 ->
  (forall a, a ∈ L'.*1 -> a ∈ L.*1 \/ a ∉ p_live g) ->
  (forall a, a ∈ p_live g -> a ∉ L.*1 -> oblk o' !! a = oblk (lobj w) !! a) ->
  hs' = <[l := LH (hp L' None) (tp L') (N.of_nat (length L'))]> (lhs w) ->
  linv (LW (Some i) o' hs' tw) (LG (<[l := L']> H) n' t').
Proof.
  intros I Hm HP Hl Io Hsz Hlog Hn -> Hlive Hseg Hnd Hnew Hframe ->.
  destruct (li_mem _ _ _ _ I i Hm) as (g0 & HP0 & _ & _ & Hlv). subst P.
  apply (f_equal (fun m => m !! i)) in HP0. rewrite !lookup_singleton in HP0. injection HP0 as <-.
  assert (Hoth : forall l2 L2 a, l2 <> l -> H !! l2 = Some L2 -> a ∈ L2.*1 -> a ∈ p_live g /\ a ∉ L.*1 /\ a ∉ L'.*1).
  { intros l2 L2 a Hne H2 Ha. assert (a ∈ p_live g) as Hg by (apply Hlv; eauto).
    assert (a ∉ L.*1) as Hn2. { intros Ha2. apply Hne. by apply (li_disj _ _ _ _ I l2 l L2 L a). }
    split; [done|]. split; [done|]. intros Ha2. destruct (Hnew a Ha2); done. }
  exists {[i := g']}, M'. constructor; cbn [lobj lmem lhs ltotal g_lists g_gets g_total]; try done.
  - intros j [= <-]. exists g'. split; [done|]. split; [done|]. split; [done|]. intros a. rewrite Hlive. split.
    + intros [[Ha Hn2]|Ha].
      * apply Hlv in Ha as (l2 & L2 & H2 & Ha). destruct (decide (l2 = l)) as [->|Hne]; [cbn in *; congruence|].
        exists l2, L2. by rewrite lookup_insert_ne.
      * exists l, L'. by rewrite lookup_insert.
    + intros (l2 & L2 & H2 & Ha). destruct (decide (l2 = l)) as [->|Hne].
      * rewrite lookup_insert in H2. injection H2 as <-. by right.
      * rewrite lookup_insert_ne in H2 by done. left. by destruct (Hoth l2 L2 a Hne H2 Ha) as (? & ? & ?).
  - intros l2. destruct (decide (l2 = l)) as [->|Hne].
    + by rewrite !lookup_insert.
    + rewrite !lookup_insert_ne by done. apply (li_hdr _ _ _ _ I).
  - intros l2 L2. destruct (decide (l2 = l)) as [->|Hne].
    + rewrite lookup_insert. by intros [= <-].
    + rewrite lookup_insert_ne by done. intros H2. eapply lseg_frame; [|by apply (li_seg _ _ _ _ I l2)].
      intros a Ha. destruct (Hoth l2 L2 a Hne H2 Ha) as (? & ? & ?). auto.
  - intros l2 L2. destruct (decide (l2 = l)) as [->|Hne].
    + rewrite lookup_insert. by intros [= <-].
    + rewrite lookup_insert_ne by done. apply (li_nodup _ _ _ _ I l2).
  - intros l2 l3 L2 L3 a. destruct (decide (l2 = l)) as [->|H2]; destruct (decide (l3 = l)) as [->|H3];
      rewrite ?lookup_insert, ?lookup_insert_ne by done.
    + done.
    + intros [= <-] HL3 Ha Ha3. by destruct (Hoth l3 L3 a H3 HL3 Ha3) as (? & ? & ?).
    + intros HL2 [= <-] Ha Ha2. by destruct (Hoth l2 L2 a H2 HL2 Ha) as (? & ? & ?).
    + apply (li_disj _ _ _ _ I).
Qed.

Section state.
Context (w : lworld) (G : lgh) (I : linv w G) (l : positive) (L : list (positive * ptr)) (Hl : g_lists G !! l = Some L).

Lemma li_get : lget w (Some l) = Ret (l, LH (hp L None) (tp L) (N.of_nat (length L))).
Proof.
  destruct I as (P & M & J). unfold lget. erewrite hget_Some; [done|]. rewrite (li_hdr _ _ _ _ J l), Hl. done.
Qed.
Lemma li_segment : lseg (oblk (lobj w)) L None.
Proof. destruct I as (P & M & J). by apply (li_seg _ _ _ _ J l). Qed.
Lemma li_uniq : NoDup L.*1.
Proof. destruct I as (P & M & J). by apply (li_nodup _ _ _ _ J l). Qed.
Lemma li_fuel : (length L < node_fuel w)%nat.
Proof.
  pose proof (lseg_bound _ _ _ li_uniq li_segment). unfold node_fuel. lia.
Qed.
Lemma li_pool : exists i g P M, linvP w G P M /\ lmem w = Some i /\ P = {[i := g]} /\ p_size g = sizeof_data /\
      length (p_log g) = g_gets G /\
      (forall a, a ∈ p_live g <-> exists l L, g_lists G !! l = Some L /\ a ∈ L.*1) /\
      (forall a, a ∈ p_live g -> a ∈ p_log g).
Proof.
  destruct I as (P & M & J). destruct (lmem w) as [i|] eqn:Em.
  - destruct (li_mem _ _ _ _ J i Em) as (g & HP & H1 & H2 & H3). exists i, g, P, M. do 6 (split; [done|]).
    destruct (oi_pool _ _ _ _ (li_obj _ _ _ _ J) i g) as (x & Lf & La & _ & _ & _ & Hok & _);
      [rewrite HP; apply lookup_singleton|]. apply Hok.
  - destruct (li_none _ _ _ _ J Em) as (_ & HG & _). rewrite HG, lookup_empty in Hl. done.
Qed.
Lemma li_len : Z.of_nat (length L) < 2 ^ 31.
Proof.
  destruct li_pool as (i & g & P & M & J & _ & _ & _ & Hlog & Hlive & Hll).
  pose proof (li_gets _ _ _ _ J). pose proof (log_len_bound (p_log g) (L.*1) li_uniq) as Hb.
  rewrite fmap_length in Hb. rewrite <- Hlog in *. enough (length L <= length (p_log g))%nat by lia.
  apply Hb. intros a Ha. apply Hll, Hlive. eauto.
Qed.
Lemma li_count : u32 (N.of_nat (length L)) = N.of_nat (length L).
Proof. pose proof li_len. unfold u32. rewrite N.mod_small; lia. Qed.
End state.

Record lal_ok (al : lalloc) : Prop := {
  lo_list : malloc_ok (la_list al);
  lo_obj : oalloc_ok anyb (la_obj al) }.
(** stk_push does not check malloc *)
Definition lnodes_ok (al : lalloc) : Prop := forall h, al_node (la_obj al) h <> None.

Lemma slong_ok z : - 2 ^ 63 <= z < 2 ^ 63 -> slong z = Ret z.
Proof.
  intros Hz. unfold slong. rewrite (proj2 (Z.leb_le _ z)) by lia. rewrite (proj2 (Z.leb_le z _)) by lia. done.
Qed.

Lemma nset_ok o a c c0 : oblk o !! a = Some c0 -> nset o a c = Ret (OW (osh o) (<[a := c]> (oblk o)) (oinf o)).
Proof. intros Ha. unfold nset. by rewrite (hset_Some _ _ _ _ Ha). Qed.

(** creation *)
Lemma create_list_spec al w H n t : linv w (LG H n t) -> lal_ok al -> -2 ^ 63 <= t -> t + 32 < 2 ^ 63 ->
  ok (fun '(w', l) => H !! l = None /\ linv w' (LG (<[l := []]> H) n (t + 32)))
     (exists h, la_list al h = None \/ exists h1 h2, al_info (la_obj al) h1 = None \/ al_stk (la_obj al) h2 = None)
     (lst_create al w).
Proof.
  intros (P & M & J) Hal Ht0 Ht. unfold lst_create.
  destruct (la_list al (lhs w)) as [l|] eqn:El; [|simpl; eauto].
  pose proof El as Hnew. apply (lo_list _ Hal) in Hnew. rewrite (li_total _ _ _ _ J). cbn [g_total].
  unfold sizeof_list. rewrite slong_ok by lia. rb.
  assert (HlH : H !! l = None).
  { pose proof (li_hdr _ _ _ _ J l) as Hh. rewrite Hnew in Hh. cbn in Hh. by destruct (H !! l). }
  assert (Hcase : forall i o P' M', oinv anyb o P' M' -> oblk o = oblk (lobj w) ->
     (exists g, P' = {[i := g]} /\ p_size g = sizeof_data /\ length (p_log g) = n /\
        forall a, a ∈ p_live g <-> exists l L, H !! l = Some L /\ a ∈ L.*1) ->
     linv (LW (Some i) o (<[l := LH None None 0]> (lhs w)) (t + 32)) (LG (<[l := []]> H) n (t + 32))).
  { intros i o P' M' Io Hb (g & HP & Hsz & Hlog & Hlive). exists P', M'.
    constructor; cbn [lobj lmem lhs ltotal g_lists g_gets g_total]; try done.
    - intros j [= <-]. exists g. do 3 (split; [done|]). intros a. rewrite Hlive. split.
      + intros (l2 & L2 & H2 & Ha). exists l2, L2. rewrite lookup_insert_ne by congruence. done.
      + intros (l2 & L2 & H2 & Ha). exists l2, L2. destruct (decide (l2 = l)) as [->|Hne].
        * rewrite lookup_insert in H2. injection H2 as <-. by apply elem_of_nil in Ha.
        * rewrite lookup_insert_ne in H2 by done. done.
    - intros l2. destruct (decide (l2 = l)) as [->|Hne]; [by rewrite !lookup_insert|].
      rewrite !lookup_insert_ne by done. apply (li_hdr _ _ _ _ J).
    - intros l2 L2. destruct (decide (l2 = l)) as [->|Hne]; [rewrite lookup_insert; by intros [= <-]|].
      rewrite !lookup_insert_ne by done. rewrite Hb. apply (li_seg _ _ _ _ J l2).
    - intros l2 L2. destruct (decide (l2 = l)) as [->|Hne]; [rewrite lookup_insert; intros [= <-]; constructor|].
      rewrite !lookup_insert_ne by done. apply (li_nodup _ _ _ _ J l2).
    - intros l2 l3 L2 L3 a. destruct (decide (l2 = l)) as [->|H2]; destruct (decide (l3 = l)) as [->|H3];
        rewrite ?lookup_insert, ?lookup_insert_ne by done; try done.
      + intros [= <-] _ Ha. by apply elem_of_nil in Ha.
      + intros _ [= <-] _ Ha. by apply elem_of_nil in Ha.
      + apply (li_disj _ _ _ _ J).
    - apply (li_gets _ _ _ _ J). }
  destruct (lmem w) as [i|] eqn:Em.
  - split; [done|]. destruct (li_mem _ _ _ _ J i Em) as (g & HP & H1 & H2 & H3).
    eapply Hcase; [apply J|done|]. eauto.
  - destruct (li_none _ _ _ _ J Em) as (HP & HG & Hn0). cbn in HG, Hn0.
    eapply ok_bind; [eapply ok_mono; [apply (create_obj_spec anyb (la_obj al) (lobj w) P M sizeof_data (li_obj _ _ _ _ J) (lo_obj _ Hal))|intros x Hx; exact Hx|]|].
    + intros [Hf|[h Hf]]; exists (lhs w); right; [exists (oinf (lobj w)), ∅|exists ∅, h]; auto.
    + intros [o i] (M' & _ & Io & Hb). cbv beta iota. simpl. split; [done|].
      eapply Hcase; [exact Io|done|]. subst P. exists (Pool sizeof_data [] ∅). split; [done|]. split; [done|].
      split; [by rewrite Hn0|]. intros a. split; [|intros (l2 & L2 & H2 & _)].
      * intros Ha. by apply elem_of_empty in Ha.
      * subst H. by rewrite lookup_empty in H2.
Qed.

Lemma get_node_spec al w G i g P M : linvP w G P M -> lmem w = Some i -> P = {[i := g]} -> p_size g = sizeof_data ->
  length (p_log g) = g_gets G -> lal_ok al -> lnodes_ok al -> Z.of_nat (g_gets G) < 2 ^ 31 - 1 ->
  ok (fun '(o, d) => exists M', oinv anyb o {[i := Pool sizeof_data (p_log g ++ [d]) ({[d]} ∪ p_live g)]} M' /\
       d ∉ p_live g /\ is_Some (oblk o !! d) /\
       (forall a, a ∈ p_live g -> oblk o !! a = oblk (lobj w) !! a))
     (exists n h, al_blk (la_obj al) n h = None) (get_node al w).
Proof.
  intros J Hm HP Hsz Hlog Hal Hn Hg. unfold get_node. rewrite Hm.
  assert (Hi : P !! i = Some g) by (rewrite HP; apply lookup_singleton).
  eapply ok_mono; [apply (get_spec anyb (la_obj al) (lobj w) P M i g (li_obj _ _ _ _ J) (lo_obj _ Hal) Hi); [apply Hn|lia]| |eauto].
  intros [o d] (M' & Io & Hnl & Hblk). exists M'. rewrite HP, insert_singleton, Hsz in Io. split; [exact Io|].
  assert (Hd : d ∉ p_live g) by (by apply (Hnl i)). split; [done|]. split.
  - destruct (oi_blk _ _ _ _ Io i _ d (lookup_singleton _ _)) as (b & Hb & _); [|eauto].
    cbn [p_log]. apply elem_of_app. right. left.
  - intros a Ha. destruct Hblk as [[_ ->]|(_ & _ & b2 & _ & ->)]; [done|].
    rewrite lookup_insert_ne; [done|]. by intros ->.
Qed.

Lemma nset_inv o i g M a c : oinv anyb o {[i := g]} M -> a ∈ p_log g ->
  exists o', nset o a c = Ret o' /\ oinv anyb o' {[i := g]} M /\ oblk o' = <[a := c]> (oblk o).
Proof.
  intros Io Ha. destruct (oi_blk _ _ _ _ Io i g a (lookup_singleton _ _) Ha) as (b & Hb & _).
  rewrite (nset_ok _ _ _ _ Hb). eexists. split; [done|]. split; [|done].
  eapply write_spec; [exact Io|apply lookup_singleton|done|done].
Qed.

Section ops.
Context (al : lalloc) (Hal : lal_ok al) (Hn : lnodes_ok al) (w : lworld) (H : gmap positive elts) (n : nat) (t : Z)
  (I : linv w (LG H n t)) (l : positive) (L : list (positive * ptr)) (Hl : H !! l = Some L).

Notation room1 := (Z.of_nat n < 2 ^ 31 - 1 /\ -2 ^ 63 <= t /\ t + 16 < 2 ^ 63).
Notation nomem := (exists n h, al_blk (la_obj al) n h = None).

Lemma append_spec dt : room1 ->
  ok (fun w' => exists d, linv w' (LG (<[l := L ++ [(d, dt)]]> H) (n + 1) (t + 16)))
     nomem (lst_append al w (Some l) dt).
Proof.
  intros (Hr1 & Hr2 & Hr3). unfold lst_append.
  destruct (li_pool w (LG H n t) I l L Hl) as (i & g & P & M & J & Hm & HP & Hsz & Hlog & Hlive & Hll).
  eapply ok_bind; [apply (get_node_spec al w (LG H n t) i g P M); done|].
  intros [o d] (M' & Io & Hd & [c0 Hc0] & Hfr). cbv beta iota.
  rewrite (li_total _ _ _ _ J). cbn [g_total]. unfold sizeof_data at 1. rewrite slong_ok by lia. rb.
  rewrite (li_get w (LG H n t) I l L Hl). rb.
  destruct (nset_inv o i _ M' d (Cell dt None) Io) as (o1 & E1 & Io1 & Hb1); [cbn [p_log]; apply elem_of_app; right; left|].
  rewrite E1. rb. cbn [ltail lhead lcount].
  assert (HLl : forall a, a ∈ L.*1 -> a ∈ p_live g) by (intros a Ha; apply Hlive; eauto).
  assert (HdL : d ∉ L.*1) by (intros Ha; by apply Hd, HLl).
  pose proof (li_seg _ _ _ _ J l L Hl) as Hseg. pose proof (li_nodup _ _ _ _ J l L Hl) as Hnd.
  assert (Hstep : forall o2, oinv anyb o2 {[i := Pool sizeof_data (p_log g ++ [d]) ({[d]} ∪ p_live g)]} M' ->
     lseg (oblk o2) (L ++ [(d, dt)]) None ->
     (forall a, a ∈ p_live g -> a ∉ L.*1 -> oblk o2 !! a = oblk (lobj w) !! a) ->
     linv (LW (lmem w) o2 (<[l := LH (match hp L None with None => Some d | Some _ => hp L None end) (Some d)
                (u32 (N.of_nat (length L) + 1))]> (lhs w)) (t + 16)) (LG (<[l := L ++ [(d, dt)]]> H) (n + 1) (t + 16))).
  { intros o2 Io2 Hs2 Hf2. rewrite Hm.
    eapply (linv_step w H n t P M i g l L (L ++ [(d, dt)])); try done; cbn [p_size p_log p_live].
    - rewrite app_length, Hlog. done.
    - lia.
    - intros a. rewrite elem_of_union, elem_of_singleton, fmap_app, elem_of_app. cbn. rewrite elem_of_list_singleton.
      destruct (decide (a ∈ L.*1)) as [Ha|Ha]; [split; [tauto|]; intros _; right; auto|]. tauto.
    - rewrite fmap_app. cbn. apply NoDup_app. split; [done|]. split; [|apply NoDup_singleton].
      intros a Ha ->%elem_of_list_singleton. done.
    - intros a. rewrite fmap_app, elem_of_app. cbn. rewrite elem_of_list_singleton. intros [? | ->]; auto.
    - f_equal. f_equal.
      + by destruct L as [|[? ?] ?].
      + by rewrite tp_snoc.
      + rewrite app_length. cbn [length]. pose proof (li_len w (LG H n t) I l L Hl). unfold u32. rewrite N.mod_small; lia. }
  destruct (list_eq_nil_dec L) as [->|Hne].
  - change (tp []) with (@None positive). cbv iota. rb. simpl. exists d. apply Hstep.
    + done.
    + simpl. rewrite Hb1, lookup_insert. done.
    + intros a Ha _. rewrite Hb1, lookup_insert_ne by (by intros ->). auto.
  - destruct (exists_last Hne) as (L0 & [b x] & ->). rewrite tp_snoc.
    rewrite lseg_app in Hseg. destruct Hseg as [Hseg0 [Hb _]]. cbn [hp] in Hb.
    rewrite fmap_app in HdL, Hnd, HLl. cbn in HdL, Hnd, HLl.
    assert (Hbd : b <> d) by (intros ->; apply HdL, elem_of_app; right; left).
    assert (Hbl : b ∈ p_live g) by (apply HLl, elem_of_app; right; left).
    assert (Hb2 : oblk o1 !! b = Some (Cell x None)).
    { rewrite Hb1, lookup_insert_ne by done. rewrite Hfr by done. done. }
    unfold nget at 1. rewrite (hget_Some _ _ _ Hb2). rb. cbn [next datum].
    destruct (nset_inv o1 i _ M' b (Cell x (Some d)) Io1) as (o2 & E2 & Io2 & Hbb2); [cbn [p_log]; apply elem_of_app; left; auto|].
    rewrite E2. rb. simpl. exists d. apply Hstep.
    + done.
    + apply NoDup_app in Hnd as (Hnd0 & Hnb & _).
      rewrite <- app_assoc. apply lseg_app. split.
      * cbn [app hp]. eapply lseg_frame; [|exact Hseg0]. intros a Ha.
        rewrite Hbb2, Hb1. rewrite lookup_insert_ne by (intros ->; apply (Hnb a Ha); left).
        rewrite lookup_insert_ne by (intros ->; apply HdL, elem_of_app; by left). apply Hfr, HLl, elem_of_app. by left.
      * cbn [app lseg hp]. rewrite Hbb2, lookup_insert, lookup_insert_ne by done. rewrite Hb1, lookup_insert. done.
    + intros a Ha Hna. rewrite fmap_app in Hna. cbn in Hna. rewrite Hbb2, Hb1.
      rewrite lookup_insert_ne by (intros ->; apply Hna, elem_of_app; right; left).
      rewrite lookup_insert_ne by (by intros ->). auto.
Qed.

Lemma push_spec' dt : room1 ->
  ok (fun w' => exists d, linv w' (LG (<[l := (d, dt) :: L]> H) (n + 1) (t + 16)))
     nomem (lst_push al w (Some l) dt).
Proof.
  intros (Hr1 & Hr2 & Hr3). unfold lst_push.
  destruct (li_pool w (LG H n t) I l L Hl) as (i & g & P & M & J & Hm & HP & Hsz & Hlog & Hlive & Hll).
  eapply ok_bind; [apply (get_node_spec al w (LG H n t) i g P M); done|].
  intros [o d] (M' & Io & Hd & [c0 Hc0] & Hfr). cbv beta iota.
  rewrite (li_total _ _ _ _ J). cbn [g_total]. unfold sizeof_data at 1. rewrite slong_ok by lia. rb.
  rewrite (li_get w (LG H n t) I l L Hl). rb.
  destruct (nset_inv o i _ M' d (Cell dt (hp L None)) Io) as (o1 & E1 & Io1 & Hb1); [cbn [p_log]; apply elem_of_app; right; left|].
  cbn [ltail lhead lcount]. rewrite E1. rb.
  assert (HLl : forall a, a ∈ L.*1 -> a ∈ p_live g) by (intros a Ha; apply Hlive; eauto).
  assert (HdL : d ∉ L.*1) by (intros Ha; by apply Hd, HLl).
  pose proof (li_seg _ _ _ _ J l L Hl) as Hseg. pose proof (li_nodup _ _ _ _ J l L Hl) as Hnd.
  simpl. exists d. rewrite Hm.
  eapply (linv_step w H n t P M i g l L ((d, dt) :: L)); try done; cbn [p_size p_log p_live].
  - rewrite app_length, Hlog. done.
  - lia.
  - intros a. rewrite elem_of_union, elem_of_singleton, fmap_cons, elem_of_cons. cbn [fst].
    destruct (decide (a ∈ L.*1)) as [Ha|Ha]; [split; [tauto|]; intros _; right; auto|]. tauto.
  - cbn [lseg]. rewrite Hb1, lookup_insert. split; [done|]. eapply lseg_frame; [|exact Hseg].
    intros a Ha. rewrite lookup_insert_ne by (by intros ->). auto.
  - rewrite fmap_cons. by constructor.
  - intros a. rewrite fmap_cons, elem_of_cons. cbn [fst]. intros [->|?]; auto.
  - intros a Ha Hna. rewrite Hb1, lookup_insert_ne by (by intros ->). auto.
  - f_equal. f_equal.
    + unfold tp. rewrite last_cons. by destruct (last L) as [[? ?]|].
    + cbn [length]. pose proof (li_len w (LG H n t) I l L Hl). unfold u32. rewrite N.mod_small; lia.
Qed.

End ops.

Lemma u32_dec_pos x : (0 < x < 2 ^ 32)%N -> u32_dec x = (x - 1)%N.
Proof.
  intros Hx. unfold u32_dec, u32. replace (x + (2 ^ 32 - 1))%N with ((x - 1) + 1 * 2 ^ 32)%N by lia.
  rewrite N.mod_add by lia. rewrite N.mod_small by lia. done.
Qed.

Lemma free_nodes_spec al i fuel : lal_ok al -> lnodes_ok al -> forall o g M L cnt,
  oinv anyb o {[i := g]} M -> lseg (oblk o) L None -> NoDup L.*1 -> (forall a, a ∈ L.*1 -> a ∈ p_live g) ->
  (length L < fuel)%nat -> Z.of_nat (length (p_log g)) < 2 ^ 31 ->
  exists o' M' g' cnt', free_nodes al (Some i) fuel o (hp L None) cnt = Ret (o', cnt') /\
    oblk o' = oblk o /\ oinv anyb o' {[i := g']} M' /\ p_size g' = p_size g /\ p_log g' = p_log g /\
    (forall a, a ∈ p_live g' <-> a ∈ p_live g /\ a ∉ L.*1) /\
    ((N.of_nat (length L) <= cnt < 2 ^ 32)%N -> cnt' = (cnt - N.of_nat (length L))%N).
Proof.
  intros Hal Hn. induction fuel as [|fuel IH]; intros o g M L cnt Io Hseg Hnd Hlive Hf Hlog; [lia|]. cbn [free_nodes].
  destruct L as [|[a d] L].
  - cbn [hp]. exists o, M, g, cnt. do 5 (split; [done|]). split.
    + intros a. split; [|tauto]. intros Ha. split; [done|]. intros H. by apply elem_of_nil in H.
    + cbn [length]. lia.
  - cbn [hp lseg] in *. destruct Hseg as [Ha Hseg]. unfold nget. rewrite (hget_Some _ _ _ Ha). rb. cbn [next].
    rewrite fmap_cons in Hnd, Hlive. cbn [fst] in Hnd, Hlive. apply NoDup_cons in Hnd as [HaL Hnd]. unfold free_node.
    pose proof (free_spec anyb (la_obj al) o _ M i g a Io (lo_obj _ Hal) (lookup_singleton _ _) (Hlive a ltac:(left)) Hlog) as Hfree.
    destruct (al_node (la_obj al) (nodes (osh o))) eqn:En; [|by apply Hn in En].
    destruct Hfree as (o1 & M1 & E1 & Hb1 & Io1). rewrite E1. rb. rewrite insert_singleton in Io1.
    destruct (IH o1 _ M1 L (u32_dec cnt) Io1) as (o' & M' & g' & cnt' & E & Hb & Io' & Hs & Hlg & Hlv & Hc); cbn [p_live p_log p_size] in *.
    + rewrite Hb1. done.
    + done.
    + intros b Hb. apply elem_of_difference. split; [apply Hlive; by right|].
      intros ->%elem_of_singleton. done.
    + cbn [length] in Hf. lia.
    + done.
    + exists o', M', g', cnt'. split; [exact E|]. split; [by rewrite Hb, Hb1|]. split; [done|].
      split; [done|]. split; [done|]. split.
      * intros b. rewrite Hlv, elem_of_difference, elem_of_singleton, fmap_cons, elem_of_cons. cbn [fst]. tauto.
      * cbn [length]. intros Hcn. rewrite u32_dec_pos in Hc by lia. rewrite Hc by lia. lia.
Qed.

Section ops2.
Context (al : lalloc) (Hal : lal_ok al) (Hn : lnodes_ok al) (w : lworld) (H : gmap positive elts) (n : nat) (t : Z)
  (I : linv w (LG H n t)) (l : positive) (L : list (positive * ptr)) (Hl : H !! l = Some L).

Lemma pop_list_spec :
  match L with
  | [] => lst_pop al w (Some l) = Ret (w, None)
  | (_, dt) :: L' => exists w', lst_pop al w (Some l) = Ret (w', dt) /\ linv w' (LG (<[l := L']> H) n t)
  end.
Proof.
  unfold lst_pop. rewrite (li_get w (LG H n t) I l L Hl). rb. cbn [lhead].
  pose proof (li_segment w _ I l L Hl) as Hseg. pose proof (li_uniq w _ I l L Hl) as Hnd.
  pose proof (li_len w _ I l L Hl) as Hlen.
  destruct (li_pool w (LG H n t) I l L Hl) as (i & g & P & M & J & Hm & HP & Hsz & Hlog & Hlive & Hll).
  assert (HLl : forall a, a ∈ L.*1 -> a ∈ p_live g) by (intros a Ha; apply Hlive; eauto).
  destruct L as [|[a dt] L'] eqn:EL; [done|]. cbn [hp lseg] in *. destruct Hseg as [Ha Hseg].
  unfold nget at 1. rewrite (hget_Some _ _ _ Ha). rb. cbn [next datum].
  rewrite fmap_cons in Hnd, HLl. cbn [fst] in Hnd, HLl. apply NoDup_cons in Hnd as [HaL Hnd]. unfold free_node. rewrite Hm.
  pose proof (li_obj _ _ _ _ J) as Io. rewrite HP in Io. pose proof (li_gets _ _ _ _ J). cbn [g_gets] in *.
  pose proof (free_spec anyb (la_obj al) (lobj w) _ M i g a Io (lo_obj _ Hal) (lookup_singleton _ _) (HLl a ltac:(left)) ltac:(lia)) as Hfree.
  destruct (al_node (la_obj al) (nodes (osh (lobj w)))) eqn:En; [|by apply Hn in En].
  destruct Hfree as (o1 & M1 & E1 & Hb1 & Io1). rewrite E1. rb. rewrite insert_singleton in Io1.
  eexists. split; [done|]. eapply (linv_step w H n t P M i g l ((a, dt) :: L') L'); try done; cbn [p_live p_log p_size].
  - by rewrite (li_total _ _ _ _ J).
  - intros b. rewrite elem_of_difference, elem_of_singleton, fmap_cons, elem_of_cons. cbn [fst].
    split; [|intros [?|Hb]; [tauto|split; [apply HLl; by right|by intros ->]]].
    intros [Hb Hba]. destruct (decide (b ∈ L'.*1)); [by right|left]. tauto.
  - by rewrite Hb1.
  - intros b Hb. left. rewrite fmap_cons. by right.
  - by rewrite Hb1.
  - f_equal. f_equal.
    + unfold tp. rewrite last_cons. destruct L' as [|[b d] L'] using rev_ind; [done|]. rewrite last_snoc. clear.
      by destruct L' as [|[? ?] ?].
    + cbn [length lcount] in *. rewrite u32_dec_pos by lia. lia.
Qed.
Lemma top_list_spec : lst_top w (Some l) = Ret (match L with [] => None | (_, dt) :: _ => dt end).
Proof.
  unfold lst_top. rewrite (li_get w (LG H n t) I l L Hl). rb. cbn [lhead].
  pose proof (li_segment w _ I l L Hl) as Hseg. destruct L as [|[a d] L']; [done|]. cbn [hp].
  destruct Hseg as [Ha _]. unfold nget. by rewrite (hget_Some _ _ _ Ha).
Qed.
Lemma length_list_spec : lst_length w (Some l) = Ret (N.of_nat (length L)).
Proof. unfold lst_length. rewrite (li_get w (LG H n t) I l L Hl). done. Qed.

(** replacing the data of some nodes of one list *)
Lemma data_step o' L' : oblk o' <> oblk (lobj w) \/ True ->
  (exists i g P M, linvP w (LG H n t) P M /\ lmem w = Some i /\ P = {[i := g]} /\ exists M', oinv anyb o' {[i := g]} M') ->
  L'.*1 = L.*1 -> lseg (oblk o') L' None ->
  (forall a, a ∉ L.*1 -> oblk o' !! a = oblk (lobj w) !! a) ->
  linv (LW (lmem w) o' (lhs w) (ltotal w)) (LG (<[l := L']> H) n t).
Proof.
  intros _ (i & g & P & M & J & Hm & HP & M' & Io) Hp Hseg Hfr. rewrite Hm.
  destruct (li_mem _ _ _ _ J i Hm) as (g0 & HP0 & Hsz & Hlog & Hlive). subst P.
  apply (f_equal (fun m => m !! i)) in HP0. rewrite !lookup_singleton in HP0. injection HP0 as <-.
  pose proof (li_gets _ _ _ _ J). cbn [g_gets g_lists] in *.
  eapply (linv_step w H n t _ M i g l L L' _ g M'); try done.
  - by rewrite (li_total _ _ _ _ J).
  - intros a. rewrite Hp. split; [|intros [?|?]; [tauto|apply Hlive; eauto]].
    intros Ha. destruct (decide (a ∈ L.*1)); tauto.
  - rewrite Hp. by apply (li_nodup _ _ _ _ J l).
  - intros a. rewrite Hp. auto.
  - auto.
  - rewrite insert_id; [done|]. rewrite (li_hdr _ _ _ _ J l). cbn [g_lists]. rewrite Hl. cbn. f_equal. f_equal.
    + destruct L as [|[? ?] ?], L' as [|[? ?] ?]; try done. cbn in Hp. cbn. congruence.
    + unfold tp. rewrite <- !fmap_last. by rewrite Hp.
    + rewrite <- (fmap_length fst L), <- (fmap_length fst L'). by rewrite Hp.
Qed.

(** d = position a of L = L1 ++ (a, d) :: L2 *)
Lemma set_position_spec L1 a d L2 dt : L = L1 ++ (a, d) :: L2 ->
  exists w', lst_set_position w (Some a) dt = Ret w' /\ linv w' (LG (<[l := L1 ++ (a, dt) :: L2]> H) n t).
Proof.
  intros EL. unfold lst_set_position.
  pose proof (li_segment w _ I l L Hl) as Hseg. pose proof (li_uniq w _ I l L Hl) as Hnd.
  assert (Hseg2 := Hseg). rewrite EL, lseg_app in Hseg2. destruct Hseg2 as [Hs1 [Ha Hs2]]. cbn [hp] in Hs1.
  unfold nget. rewrite (hget_Some _ _ _ Ha). rb. cbn [next].
  destruct (li_pool w (LG H n t) I l L Hl) as (i & g & P & M & J & Hm & HP & Hsz & Hlog & Hlive & Hll).
  pose proof (li_obj _ _ _ _ J) as Io. rewrite HP in Io.
  destruct (nset_inv (lobj w) i g M a (Cell dt (hp L2 None)) Io) as (o1 & E1 & Io1 & Hb1).
  { apply Hll, Hlive. exists l, L. split; [done|]. rewrite EL, fmap_app. apply elem_of_app. right. left. }
  rewrite E1. rb. eexists. split; [done|].
  rewrite EL, fmap_app, fmap_cons in Hnd. cbn [fst] in Hnd. apply NoDup_app in Hnd as (Hnd1 & Hnd12 & Hnd2).
  apply NoDup_cons in Hnd2 as [HaL2 Hnd2].
  apply data_step.
  - by right.
  - exists i, g, P, M. eauto.
  - rewrite EL, !fmap_app, !fmap_cons. done.
  - apply lseg_app. cbn [hp lseg]. rewrite Hb1, lookup_insert. split; [|split; [done|]].
    + eapply lseg_frame; [|exact Hs1]. intros b Hb. rewrite lookup_insert_ne; [done|]. intros <-. apply (Hnd12 a Hb). left.
    + eapply lseg_frame; [|exact Hs2]. intros b Hb. rewrite lookup_insert_ne; [done|]. by intros <-.
  - intros b Hb. rewrite Hb1, lookup_insert_ne; [done|]. intros <-. apply Hb. rewrite EL, fmap_app. apply elem_of_app. right. left.
Qed.
Lemma get_position_spec L1 a d L2 : L = L1 ++ (a, d) :: L2 ->
  lst_get_position w (Some a) = Ret d /\ lst_next_position w (Some a) = Ret (hp L2 None).
Proof.
  intros EL. pose proof (li_segment w _ I l L Hl) as Hseg. rewrite EL, lseg_app in Hseg. destruct Hseg as [_ [Ha _]].
  unfold lst_get_position, lst_next_position, nget. rewrite (hget_Some _ _ _ Ha). done.
Qed.
Lemma init_position_spec : lst_init_position w (Some l) = Ret (fst <$> head L).
Proof.
  unfold lst_init_position. rewrite (li_get w (LG H n t) I l L Hl). rb. by destruct L as [|[? ?] ?].
Qed.
Lemma last_position_spec : lst_last_position w (Some l) = Ret (fst <$> last L).
Proof. unfold lst_last_position. rewrite (li_get w (LG H n t) I l L Hl). done. Qed.

Lemma nth_loop_spec bl fuel : forall L2 i k, oblk (lobj w) = bl -> lseg bl L2 None -> (length L2 < fuel)%nat ->
  (i + N.of_nat (length L2) < 2 ^ 32)%N -> (k < length L2)%nat ->
  nth_loop (lobj w) fuel i (i + N.of_nat k) (hp L2 None) = Ret ((i + N.of_nat k)%N, fst <$> L2 !! k).
Proof.
  induction fuel as [|fuel IH]; intros L2 i k Hb Hs Hf Hi Hk; [lia|]. cbn [nth_loop].
  destruct L2 as [|[a d] L2]; [cbn in Hk; lia|]. cbn [hp lseg length] in *. destruct Hs as [Ha Hs].
  destruct k as [|k].
  - rewrite (proj2 (N.ltb_ge i (i + N.of_nat 0))) by lia. by rewrite N.add_0_r.
  - rewrite (proj2 (N.ltb_lt i (i + N.of_nat (S k)))) by lia. unfold nget. rewrite Hb, (hget_Some _ _ _ Ha). rb. cbn [next].
    assert (u32 (i + 1) = (i + 1)%N) as -> by (unfold u32; rewrite N.mod_small; lia).
    replace (i + N.of_nat (S k))%N with ((i + 1) + N.of_nat k)%N by lia. rewrite IH by (done || lia). done.
Qed.
Lemma nth_loop_at k : (1 <= k <= N.of_nat (length L))%N ->
  nth_loop (lobj w) (node_fuel w) 1 k (hp L None) = Ret (k, fst <$> L !! N.to_nat (k - 1)).
Proof.
  intros Hk. pose proof (li_len w _ I l L Hl) as Hlen.
  pose proof (nth_loop_spec _ _ L 1 (N.to_nat (k - 1)) eq_refl (li_segment w _ I l L Hl) (li_fuel w _ I l L Hl)) as E.
  replace (1 + N.of_nat (N.to_nat (k - 1)))%N with k in E by lia. apply E; lia.
Qed.
Lemma nth_position_spec k :
  lst_nth_position w (Some l) k = Ret (if (k =? 0)%N then None else fst <$> L !! N.to_nat (k - 1)).
Proof.
  unfold lst_nth_position. rewrite (li_get w (LG H n t) I l L Hl). rb. cbn [lcount lhead].
  pose proof (li_len w _ I l L Hl) as Hlen.
  destruct (N.ltb_spec k 1) as [Hk|Hk].
  - assert (k = 0)%N as -> by lia. done.
  - cbn [orb]. rewrite (proj2 (N.eqb_neq k 0)) by lia. destruct (N.ltb_spec (N.of_nat (length L)) k) as [Hk2|Hk2].
    + rewrite lookup_ge_None_2 by lia. done.
    + rewrite nth_loop_at by lia. rb.
      rewrite N.eqb_refl. done.
Qed.
Lemma nth_get_spec k :
  lst_nth_get w (Some l) k = Ret (if (k =? 0)%N then None else match L !! N.to_nat (k - 1) with Some (_, d) => d | None => None end).
Proof.
  unfold lst_nth_get. rewrite (li_get w (LG H n t) I l L Hl). rb. cbn [lcount lhead].
  pose proof (li_len w _ I l L Hl) as Hlen.
  destruct (N.ltb_spec k 1) as [Hk|Hk].
  - assert (k = 0)%N as -> by lia. done.
  - cbn [orb]. rewrite (proj2 (N.eqb_neq k 0)) by lia. destruct (N.ltb_spec (N.of_nat (length L)) k) as [Hk2|Hk2].
    + rewrite lookup_ge_None_2 by lia. done.
    + rewrite nth_loop_at by lia. rb.
      rewrite N.eqb_refl. cbn [negb]. destruct (lookup_lt_is_Some_2 L (N.to_nat (k - 1)) ltac:(lia)) as [[a d] Hd].
      rewrite Hd. cbn. pose proof (li_segment w _ I l L Hl) as Hseg.
      rewrite <- (take_drop_middle L _ _ Hd), lseg_app in Hseg. destruct Hseg as [_ [Ha _]].
      unfold nget. by rewrite (hget_Some _ _ _ Ha).
Qed.
Lemma nth_set_spec k dt :
  if decide (1 <= k <= N.of_nat (length L))%N then
    exists w' a d, L !! N.to_nat (k - 1) = Some (a, d) /\ lst_nth_set w (Some l) k dt = Ret w' /\
      linv w' (LG (<[l := <[N.to_nat (k - 1) := (a, dt)]> L]> H) n t)
  else lst_nth_set w (Some l) k dt = Fatal.
Proof.
  unfold lst_nth_set. rewrite (li_get w (LG H n t) I l L Hl). rb. cbn [lcount lhead].
  pose proof (li_len w _ I l L Hl) as Hlen. destruct (decide _) as [[Hk1 Hk2]|Hk].
  - rewrite (proj2 (N.ltb_ge k 1)) by lia. rewrite (proj2 (N.ltb_ge _ k)) by lia. cbn [orb].
    destruct (lookup_lt_is_Some_2 L (N.to_nat (k - 1)) ltac:(lia)) as [[a d] Hd].
    pose proof (take_drop_middle L _ _ Hd) as EL.
    destruct (set_position_spec _ a d _ dt (eq_sym EL)) as (w' & E & I'). exists w', a, d. split; [done|].
    rewrite nth_loop_at by lia. rb.
    rewrite N.eqb_refl. cbn [negb]. rewrite Hd. cbn [fmap option_fmap option_map fst]. split; [exact E|].
    rewrite insert_take_drop by lia. exact I'.
  - destruct (N.ltb_spec k 1); [done|]. cbn [orb]. rewrite (proj2 (N.ltb_lt _ k)) by lia. done.
Qed.

Lemma member_loop_spec o dt fuel : forall L2, lseg (oblk o) L2 None -> (length L2 < fuel)%nat ->
  member_loop o fuel (hp L2 None) dt = Ret (if decide (dt ∈ L2.*2) then 1 else 0).
Proof.
  induction fuel as [|fuel IH]; intros L2 Hs Hf; [lia|]. cbn [member_loop].
  destruct L2 as [|[a d] L2]; cbn [hp lseg length] in *.
  - rewrite decide_False; [done|]. intros Hx. by apply elem_of_nil in Hx.
  - destruct Hs as [Ha Hs]. unfold nget. rewrite (hget_Some _ _ _ Ha). rb. cbn [datum next].
    rewrite fmap_cons. cbn [snd]. destruct (decide (d = dt)) as [->|Hne].
    + rewrite decide_True; [done|]. left.
    + rewrite IH by (done || lia). destruct (decide (dt ∈ L2.*2)) as [Hd|Hd].
      * rewrite decide_True; [done|]. by right.
      * rewrite decide_False; [done|]. intros [->|?]%elem_of_cons; done.
Qed.
Lemma member_spec dt : lst_member w (Some l) dt = Ret (if decide (dt ∈ L.*2) then 1 else 0).
Proof.
  unfold lst_member. rewrite (li_get w (LG H n t) I l L Hl). rb. cbn [lhead].
  apply member_loop_spec; [by apply (li_segment w _ I l)|by apply (li_fuel w _ I l)].
Qed.

(** cutting after L1 *)
Lemma cut_spec L1 a d L2 : L = L1 ++ (a, d) :: L2 ->
  exists w', lst_truncate_position al w (Some l) (Some a) = Ret w' /\ linv w' (LG (<[l := L1 ++ [(a, d)]]> H) n t) /\
  exists o o', nget (lobj w) a = Ret (Cell d (hp L2 None)) /\ nset (lobj w) a (Cell d None) = Ret o /\
    free_nodes al (lmem w) (node_fuel w) o (hp L2 None) (N.of_nat (length L)) = Ret (o', N.of_nat (length L1 + 1)) /\
    w' = LW (lmem w) o' (<[l := LH (hp L None) (Some a) (N.of_nat (length L1 + 1))]> (lhs w)) (ltotal w).
Proof.
  intros EL. unfold lst_truncate_position. rewrite (li_get w (LG H n t) I l L Hl). rb. cbn [lhead lcount].
  pose proof (li_segment w _ I l L Hl) as Hseg. pose proof (li_uniq w _ I l L Hl) as Hnd.
  pose proof (li_len w _ I l L Hl) as Hlen. pose proof (li_fuel w _ I l L Hl) as Hfuel.
  assert (Hseg2 := Hseg). rewrite EL, lseg_app in Hseg2. destruct Hseg2 as [Hs1 [Ha Hs2]]. cbn [hp] in Hs1.
  assert (Hget : nget (lobj w) a = Ret (Cell d (hp L2 None))) by (unfold nget; by rewrite (hget_Some _ _ _ Ha)).
  rewrite Hget. rb. cbn [next datum].
  destruct (li_pool w (LG H n t) I l L Hl) as (i & g & P & M & J & Hm & HP & Hsz & Hlog & Hlive & Hll).
  pose proof (li_obj _ _ _ _ J) as Io. rewrite HP in Io. pose proof (li_gets _ _ _ _ J). cbn [g_gets g_lists] in *.
  assert (HLl : forall b, b ∈ L.*1 -> b ∈ p_live g) by (intros b Hb; apply Hlive; eauto).
  destruct (nset_inv (lobj w) i g M a (Cell d None) Io) as (o1 & E1 & Io1 & Hb1).
  { apply Hll, HLl. rewrite EL, fmap_app. apply elem_of_app. right. left. }
  rewrite E1. rb. rewrite Hm.
  rewrite EL, fmap_app, fmap_cons in Hnd. cbn [fst] in Hnd. apply NoDup_app in Hnd as (Hnd1 & Hnd12 & Hnd2).
  apply NoDup_cons in Hnd2 as [HaL2 Hnd2].
  assert (HlenL : length L = (length L1 + 1 + length L2)%nat) by (rewrite EL, app_length; cbn [length]; lia).
  destruct (free_nodes_spec al i (node_fuel w) Hal Hn o1 g M L2 (N.of_nat (length L)) Io1)
    as (o' & M' & g' & cnt & E & Hb' & Io' & Hsz' & Hlg' & Hlv' & Hc).
  { eapply lseg_frame; [|exact Hs2]. intros b Hb. rewrite Hb1, lookup_insert_ne; [done|]. by intros <-. }
  { done. }
  { intros b Hb. apply HLl. rewrite EL, fmap_app. apply elem_of_app. right. by right. }
  { lia. } { lia. }
  rewrite E. rb. rewrite Hc by lia. assert (N.of_nat (length L) - N.of_nat (length L2) = N.of_nat (length L1 + 1))%N as Hcn by lia.
  rewrite Hcn. eexists. split; [done|]. split.
  - eapply (linv_step w H n t P M i g l L (L1 ++ [(a, d)]) o' g' M'); try done.
    + by rewrite Hsz'.
    + by rewrite Hlg'.
    + by rewrite (li_total _ _ _ _ J).
    + intros b. rewrite Hlv', EL, !fmap_app, !fmap_cons, !elem_of_app, !elem_of_cons. cbn [fst]. rewrite fmap_nil, elem_of_nil.
      split.
      * intros [Hb HbL2]. destruct (decide (b ∈ L1.*1)); [by right; left|]. destruct (decide (b = a)); [by right; right; left|].
        left. split; [done|]. tauto.
      * intros [[Hb Hnb]|Hb]; [split; [done|tauto]|]. split.
        -- apply HLl. rewrite EL, fmap_app, fmap_cons, elem_of_app, elem_of_cons. cbn [fst]. tauto.
        -- intros HbL2. destruct Hb as [Hb|[->|[]]]; [|done]. apply (Hnd12 b Hb). by right.
    + rewrite Hb', Hb1. apply lseg_app. cbn [hp lseg]. rewrite lookup_insert. split; [|done].
      eapply lseg_frame; [|exact Hs1]. intros b Hb. rewrite lookup_insert_ne; [done|]. intros <-. apply (Hnd12 a Hb). left.
    + rewrite fmap_app. cbn. apply NoDup_app. split; [done|]. split; [|apply NoDup_singleton].
      intros b Hb ->%elem_of_list_singleton. apply (Hnd12 a Hb). left.
    + intros b. rewrite fmap_app, elem_of_app. cbn. rewrite elem_of_list_singleton. intros Hb. left.
      rewrite EL, fmap_app, fmap_cons, elem_of_app, elem_of_cons. cbn [fst]. tauto.
    + intros b Hb Hnb. rewrite Hb', Hb1, lookup_insert_ne; [done|]. intros <-. apply Hnb. rewrite EL, fmap_app. apply elem_of_app. right. left.
    + f_equal. rewrite tp_snoc, app_length, EL. f_equal. by destruct L1 as [|[? ?] ?].
  - exists o1, o'. do 2 (split; [done|]). split; [rewrite E, Hc, Hcn by lia; done|done].
Qed.
Lemma clear_spec :
  exists o', free_nodes al (lmem w) (node_fuel w) (lobj w) (hp L None) (N.of_nat (length L)) = Ret (o', 0%N) /\
    linv (LW (lmem w) o' (<[l := LH None None 0]> (lhs w)) (ltotal w)) (LG (<[l := []]> H) n t).
Proof.
  pose proof (li_segment w _ I l L Hl) as Hseg. pose proof (li_uniq w _ I l L Hl) as Hnd.
  pose proof (li_len w _ I l L Hl) as Hlen. pose proof (li_fuel w _ I l L Hl) as Hfuel.
  destruct (li_pool w (LG H n t) I l L Hl) as (i & g & P & M & J & Hm & HP & Hsz & Hlog & Hlive & Hll).
  pose proof (li_obj _ _ _ _ J) as Io. rewrite HP in Io. pose proof (li_gets _ _ _ _ J). cbn [g_gets g_lists] in *.
  assert (HLl : forall b, b ∈ L.*1 -> b ∈ p_live g) by (intros b Hb; apply Hlive; eauto).
  destruct (free_nodes_spec al i (node_fuel w) Hal Hn (lobj w) g M L (N.of_nat (length L)) Io)
    as (o' & M' & g' & cnt & E & Hb' & Io' & Hsz' & Hlg' & Hlv' & Hc); try done; [lia|].
  rewrite Hm, E, Hc by lia. rewrite N.sub_diag. exists o'. split; [done|].
  eapply (linv_step w H n t P M i g l L [] o' g' M'); try done.
  - by rewrite Hsz'.
  - by rewrite Hlg'.
  - by rewrite (li_total _ _ _ _ J).
  - intros b. rewrite Hlv', fmap_nil, elem_of_nil. tauto.
  - constructor.
  - intros b Hb. by apply elem_of_nil in Hb.
  - intros b _ _. by rewrite Hb'.
Qed.
Lemma truncate_position_null :
  exists w', lst_truncate_position al w (Some l) None = Ret w' /\ linv w' (LG (<[l := []]> H) n t).
Proof.
  unfold lst_truncate_position. rewrite (li_get w (LG H n t) I l L Hl). rb. cbn [lhead lcount].
  destruct clear_spec as (o' & E & I'). rewrite E. rb. eauto.
Qed.
Lemma destroy_list_spec :
  exists w', lst_destroy al w (Some l) = Ret w' /\ linv w' (LG (delete l H) n t).
Proof.
  unfold lst_destroy. rewrite (li_get w (LG H n t) I l L Hl). rb. cbn [lhead].
  pose proof (li_segment w _ I l L Hl) as Hseg. pose proof (li_uniq w _ I l L Hl) as Hnd.
  pose proof (li_len w _ I l L Hl) as Hlen. pose proof (li_fuel w _ I l L Hl) as Hfuel.
  destruct (li_pool w (LG H n t) I l L Hl) as (i & g & P & M & J & Hm & HP & Hsz & Hlog & Hlive & Hll).
  pose proof (li_obj _ _ _ _ J) as Io. rewrite HP in Io. pose proof (li_gets _ _ _ _ J). cbn [g_gets g_lists] in *.
  assert (HLl : forall b, b ∈ L.*1 -> b ∈ p_live g) by (intros b Hb; apply Hlive; eauto).
  destruct (free_nodes_spec al i (node_fuel w) Hal Hn (lobj w) g M L 0 Io)
    as (o' & M' & g' & cnt & E & Hb' & Io' & Hsz' & Hlg' & Hlv' & _); try done; [lia|].
  rewrite Hm, E. rb. erewrite hfree_Some; [|rewrite (li_hdr _ _ _ _ J l); cbn [g_lists]; rewrite Hl; done]. rb.
  eexists. split; [done|]. exists {[i := g']}, M'.
  constructor; cbn [lobj lmem lhs ltotal g_lists g_gets g_total]; try done.
  - intros j [= <-]. exists g'. split; [done|]. split; [by rewrite Hsz'|]. split; [by rewrite Hlg'|].
    intros b. rewrite Hlv', Hlive. split.
    + intros [(l2 & L2 & H2 & Hb) Hnb]. exists l2, L2. rewrite lookup_delete_ne by congruence. done.
    + intros (l2 & L2 & [Hne H2]%lookup_delete_Some & Hb). split; [eauto|]. intros HbL. apply Hne.
      by apply (li_disj _ _ _ _ J l l2 L L2 b).
  - intros l2. destruct (decide (l2 = l)) as [->|Hne]; [by rewrite !lookup_delete|].
    rewrite !lookup_delete_ne by done. apply (li_hdr _ _ _ _ J).
  - intros l2 L2 [Hne H2]%lookup_delete_Some. rewrite Hb'. by apply (li_seg _ _ _ _ J l2).
  - intros l2 L2 [Hne H2]%lookup_delete_Some. by apply (li_nodup _ _ _ _ J l2).
  - intros l2 l3 L2 L3 a [_ H2]%lookup_delete_Some [_ H3]%lookup_delete_Some. by apply (li_disj _ _ _ _ J).
  - by rewrite (li_total _ _ _ _ J).
Qed.

Lemma trunc_loop_stop o fuel : forall L2 k, lseg (oblk o) L2 None -> (length L2 < fuel)%nat -> (1 < k)%N ->
  trunc_loop o fuel 1 k (hp L2 None) = Ret None.
Proof.
  induction fuel as [|fuel IH]; intros L2 k Hs Hf Hk; [lia|]. cbn [trunc_loop].
  destruct L2 as [|[a d] L2]; cbn [hp lseg length] in *; [done|]. destruct Hs as [Ha Hs].
  rewrite (proj2 (N.ltb_lt 1 k)) by done. unfold nget. rewrite (hget_Some _ _ _ Ha). rb. cbn [next]. apply IH; [done|lia|done].
Qed.
Lemma truncate_spec k :
  if decide (N.of_nat (length L) <= k)%N then lst_truncate al w (Some l) k = Ret w
  else if decide (k <= 1)%N then
    exists w', lst_truncate al w (Some l) k = Ret w' /\ linv w' (LG (<[l := take (N.to_nat k) L]> H) n t)
  else lst_truncate al w (Some l) k = UB.
Proof.
  unfold lst_truncate. rewrite (li_get w (LG H n t) I l L Hl). rb. cbn [lhead lcount].
  destruct (decide (N.of_nat (length L) <= k)%N) as [Hk|Hk].
  - rewrite (proj2 (N.leb_le _ _)) by done. done.
  - rewrite (proj2 (N.leb_gt (N.of_nat (length L)) k)) by lia. destruct (decide (k <= 1)%N) as [Hk1|Hk1].
    + destruct (N.eqb_spec k 0) as [->|Hk0].
      * rb. destruct clear_spec as (o' & E & I'). rewrite E. rb. change (0 =? 0)%N with true. cbn [negb]. eauto.
      * assert (k = 1)%N as -> by lia.
        assert (exists a d L2, L = (a, d) :: L2) as (a & d & L2 & EL).
        { destruct L as [|[a d] L2]; [cbn in Hk; lia|eauto]. }
        destruct (cut_spec [] a d L2 EL) as (w' & E & I' & o & o' & E1 & E2 & E3 & ->).
        replace (hp L None) with (Some a) in * by (by rewrite EL). replace (take (N.to_nat 1) L) with [(a, d)] by (by rewrite EL).
        cbn [node_fuel trunc_loop]. change (1 <? 1)%N with false. cbv iota. rb. rewrite E1. rb. cbn [datum next].
        rewrite E2. rb. rewrite E3. rb. change (N.of_nat (length [] + 1) =? 1)%N with true. cbn [negb].
        eexists. split; [done|]. exact I'.
    + rewrite (proj2 (N.eqb_neq k 0)) by lia. 
      rewrite (trunc_loop_stop _ _ L k (li_segment w _ I l L Hl) (li_fuel w _ I l L Hl)) by lia. done.
Qed.
End ops2.

Lemma shutdown_spec w n t : linv w (LG ∅ n t) ->
  exists w', lst_shutdown w = Ret w' /\ linv w' (LG ∅ 0 t) /\ lmem w' = None /\ oblk (lobj w') = ∅ /\ lhs w' = ∅.
Proof.
  intros (P & M & J). unfold lst_shutdown.
  assert (Hh : lhs w = ∅).
  { apply map_empty. intros l. rewrite (li_hdr _ _ _ _ J l). cbn [g_lists]. by rewrite lookup_empty. }
  destruct (lmem w) as [i|] eqn:Em.
  - destruct (li_mem _ _ _ _ J i Em) as (g & HP & Hsz & Hlog & Hlive). pose proof (li_obj _ _ _ _ J) as Io. rewrite HP in Io.
    destruct (destroy_obj_spec anyb (lobj w) _ M i g Io (lookup_singleton _ _)) as (o' & M' & E & Io' & Hb & _).
    rewrite E. rb. rewrite delete_singleton in Io'. eexists. split; [done|]. split.
    + exists ∅, M'. constructor; cbn [lobj lmem lhs ltotal g_lists g_gets g_total]; try done.
      * intros l. rewrite Hh, !lookup_empty. done.
      * by rewrite (li_total _ _ _ _ J).
    + split; [done|]. split; [|done]. apply map_empty. intros a. cbn [lobj]. apply eq_None_not_Some. intros Ha.
      destruct (oi_blkall _ _ _ _ Io' a Ha) as (j & g2 & Hj & _). by rewrite lookup_empty in Hj.
  - destruct (li_none _ _ _ _ J Em) as (HP & _ & Hn). cbn in Hn. subst n. eexists. split; [done|]. split; [by exists P, M|].
    split; [done|]. split; [|done]. apply map_empty. intros a. apply eq_None_not_Some. intros Ha.
    destruct (oi_blkall _ _ _ _ (li_obj _ _ _ _ J) a Ha) as (j & g2 & Hj & _). by rewrite HP, lookup_empty in Hj.
Qed.
