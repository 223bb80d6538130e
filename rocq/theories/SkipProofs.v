(** Proofs about sl.c: one skip list in a heap of entries. *)
From Verif Require Import Base StackModel StackProofs ObjModel ObjProofs SkipModel.
Local Open Scope Z_scope.

(** one datum of a list: address of its entry, datum, height of its entry *)
Record item := Item { ia : positive; idt : ptr; ih : nat }.
Implicit Types (h : gmap positive entry) (E A B L : list item) (hd a p : positive).

(** the value of a->forward[i] if it is initialised *)
Definition fw h a (i : nat) : option ptr := e ← h !! a; mjoin (forward e !! i).
Definition dat h a : option ptr := edatum <$> h !! a.
Definition slot h a (i : nat) : Prop := exists e, h !! a = Some e /\ (i < length (forward e))%nat.

Definition hpi L : ptr := match L with [] => None | x :: _ => Some (ia x) end.
Fixpoint links h (i : nat) p L : Prop :=
  match L with
  | [] => fw h p i = Some None
  | x :: L' => fw h p i = Some (Some (ia x)) /\ links h i (ia x) L'
  end.
Definition lastp p L : positive := List.fold_left (fun _ x => ia x) L p.
Definition at_level (i : nat) E : list item := filter (fun x => (i <= ih x)%nat) E.

Lemma lastp_app p L1 L2 : lastp p (L1 ++ L2) = lastp (lastp p L1) L2.
Proof. unfold lastp. apply fold_left_app. Qed.
Lemma lastp_cons p x L : lastp p (x :: L) = lastp (ia x) L.
Proof. done. Qed.
Lemma lastp_snoc p L x : lastp p (L ++ [x]) = ia x.
Proof. by rewrite lastp_app. Qed.
Lemma lastp_in p L : lastp p L = p \/ lastp p L ∈ ia <$> L.
Proof.
  destruct L as [|x L] using rev_ind; [by left|]. right. rewrite lastp_snoc, fmap_app. apply elem_of_app. right.
  cbn. by left.
Qed.
Lemma lastp_in' p L : lastp p L ∈ p :: (ia <$> L).
Proof. destruct (lastp_in p L) as [-> | H]; [by left|by right]. Qed.

Lemma links_next h i p L : links h i p L -> fw h p i = Some (hpi L).
Proof. destruct L as [|x L]; simpl; [done|by intros [? _]]. Qed.
Lemma links_last h i p L1 L2 : links h i p (L1 ++ L2) -> links h i (lastp p L1) L2.
Proof.
  revert p. induction L1 as [|x L1 IH]; intros p; cbn [app links]; [done|]. intros [_ H]. rewrite lastp_cons. by apply IH.
Qed.
Lemma links_frame h h' i p L : (forall a, a ∈ p :: (ia <$> L) -> fw h' a i = fw h a i) -> links h i p L -> links h' i p L.
Proof.
  revert p. induction L as [|x L IH]; intros p Hf; cbn [links].
  - intros H. rewrite Hf by left. done.
  - intros [H1 H2]. rewrite Hf by left. split; [done|]. apply IH; [|done]. intros a Ha. apply Hf. right. done.
Qed.
(** replacing the link out of the last node of the first half *)
Lemma links_relink h h' i p L1 L2 L3 : NoDup (p :: (ia <$> L1)) ->
  links h i p (L1 ++ L2) ->
  (forall a, a ∈ p :: (ia <$> L1) -> a <> lastp p L1 -> fw h' a i = fw h a i) ->
  links h' i (lastp p L1) L3 -> links h' i p (L1 ++ L3).
Proof.
  revert p. induction L1 as [|x L1 IH]; intros p Hnd H Hf H3; cbn [app links] in *; [done|].
  destruct H as [H1 H2]. rewrite fmap_cons in *. apply NoDup_cons in Hnd as [Hp Hnd]. split.
  - rewrite Hf; [done|by left|]. rewrite lastp_cons. intros ->. apply Hp. apply lastp_in'.
  - apply IH; [done|done| |done]. intros a Ha Hne. apply Hf; [by right|done].
Qed.
Lemma links_slot h i p L a : links h i p L -> a ∈ p :: (ia <$> L) -> is_Some (fw h a i).
Proof.
  revert p. induction L as [|x L IH]; intros p; cbn [links]; rewrite ?fmap_nil, ?fmap_cons.
  - intros H ->%elem_of_list_singleton. rewrite H. eauto.
  - intros [H1 H2] [-> | Ha]%elem_of_cons; [rewrite H1; eauto|]. eapply IH; done.
Qed.
Lemma fw_live h a i : is_Some (fw h a i) -> is_Some (h !! a).
Proof. unfold fw. destruct (h !! a); [eauto|]. intros [? H]. done. Qed.
Lemma fw_slot h a i : is_Some (fw h a i) -> slot h a i.
Proof.
  unfold fw, slot. destruct (h !! a) as [e|]; [|intros [? H]; done]. intros [q H]. exists e. split; [done|].
  apply lookup_lt_is_Some. cbn in H. destruct (forward e !! i); [eauto|done].
Qed.

Lemma fget_ok h a i q : fw h a i = Some q -> fget h a i = Ret q.
Proof.
  unfold fw, fget. intros H. destruct (h !! a) as [e|] eqn:E; [|done]. rewrite (hget_Some _ _ _ E). rb. cbn in H.
  destruct (forward e !! i) as [s|] eqn:Es; [|done]. rewrite (aget_Some _ _ _ Es). rb. cbn in H. by rewrite H.
Qed.
Lemma fset_ok h a i q : slot h a i -> exists h', fset h a i q = Ret h' /\
  fw h' a i = Some q /\ (forall b j, (b, j) <> (a, i) -> fw h' b j = fw h b j) /\
  (forall b, dat h' b = dat h b) /\ (forall b j, slot h' b j <-> slot h b j) /\
  (forall b, b <> a -> h' !! b = h !! b) /\ (forall b, is_Some (h' !! b) <-> is_Some (h !! b)).
Proof.
  intros (e & He & Hi). apply lookup_lt_is_Some in Hi as [s Hs].
  exists (<[a := Entry (edatum e) (<[i := Some q]> (forward e))]> h). unfold fset.
  rewrite (hget_Some _ _ _ He). rb. rewrite (aset_Some _ _ _ _ Hs). rb. rewrite (hset_Some _ _ _ _ He). rb.
  split; [done|]. split.
  { unfold fw. rewrite lookup_insert. cbn. rewrite list_lookup_insert; [done|by eapply lookup_lt_Some]. }
  split.
  { intros b j Hne. unfold fw. destruct (decide (b = a)) as [-> | Hb].
    - rewrite lookup_insert, He. cbn. rewrite list_lookup_insert_ne by congruence. done.
    - by rewrite lookup_insert_ne by done. }
  split.
  { intros b. unfold dat. destruct (decide (b = a)) as [-> | Hb]; [by rewrite lookup_insert, He|by rewrite lookup_insert_ne]. }
  split.
  { intros b j. unfold slot. destruct (decide (b = a)) as [-> | Hb].
    - rewrite lookup_insert, He. split; intros (e' & [= <-] & Hj); (eexists; split; [done|]); cbn in *;
        rewrite insert_length in *; done.
    - by rewrite lookup_insert_ne. }
  split; [intros b Hb; by rewrite lookup_insert_ne|]. intros b.
  destruct (decide (b = a)) as [-> | Hb]; [rewrite lookup_insert, He; split; eauto|by rewrite lookup_insert_ne].
Qed.

(** ** A represented list *)
Record rep h hd E (lev : nat) : Prop := {
  rp_nd : NoDup (hd :: (ia <$> E));
  rp_links : forall i, (i <= MaxLevel)%nat -> links h i hd (at_level i E);
  rp_dat : forall x, x ∈ E -> dat h (ia x) = Some (idt x);
  rp_lev : (lev <= MaxLevel)%nat;
  rp_height : forall x, x ∈ E -> (ih x <= lev)%nat }.

Lemma at_level_0 E : at_level 0 E = E.
Proof. induction E as [|x E IH]; [done|]. unfold at_level in *. rewrite filter_cons_True by lia. by rewrite IH. Qed.
Lemma at_level_app i A B : at_level i (A ++ B) = at_level i A ++ at_level i B.
Proof. apply filter_app. Qed.
Lemma at_level_cons i y B : at_level i (y :: B) = if decide (i <= ih y)%nat then y :: at_level i B else at_level i B.
Proof. unfold at_level. rewrite filter_cons. done. Qed.
Lemma at_level_none i E : (forall x, x ∈ E -> (ih x < i)%nat) -> at_level i E = [].
Proof.
  intros H. induction E as [|x E IH]; [done|]. unfold at_level. rewrite filter_cons_False.
  - apply IH. intros y Hy. apply H. by right.
  - specialize (H x ltac:(left)). lia.
Qed.
Lemma at_level_sub i E a : a ∈ ia <$> at_level i E -> a ∈ ia <$> E.
Proof. rewrite !elem_of_list_fmap. intros (x & -> & Hx). apply elem_of_list_filter in Hx as [_ Hx]. eauto. Qed.
Lemma at_level_submseteq i E : at_level i E `sublist_of` E.
Proof.
  induction E as [|x E IH]; [done|]. unfold at_level in *. rewrite filter_cons. destruct (decide _); by constructor.
Qed.
Lemma at_level_nodup hd i E : NoDup (hd :: (ia <$> E)) -> NoDup (hd :: (ia <$> at_level i E)).
Proof.
  rewrite !NoDup_cons. intros [H1 H2]. split; [by intros H%at_level_sub|].
  induction E as [|x E IH]; [done|]. rewrite fmap_cons in H2. apply NoDup_cons in H2 as [Hx H2].
  rewrite fmap_cons in H1. apply not_elem_of_cons in H1 as [_ H1].
  unfold at_level in *. rewrite filter_cons. destruct (decide _); [|by apply IH].
  rewrite fmap_cons. apply NoDup_cons. split; [by intros H%(at_level_sub i)|by apply IH].
Qed.

Lemma rep_frame h h' hd E lev : (forall a, a ∈ hd :: (ia <$> E) -> h' !! a = h !! a) -> rep h hd E lev -> rep h' hd E lev.
Proof.
  intros Hf [H1 H2 H3 H4 H5]. constructor; try done.
  - intros i Hi. eapply links_frame; [|by apply H2]. intros a Ha. unfold fw. rewrite Hf; [done|].
    apply elem_of_cons in Ha as [-> | Ha]; [by left|right]. by eapply at_level_sub.
  - intros x Hx. unfold dat. rewrite Hf; [by apply H3|]. right. by apply elem_of_list_fmap_1.
Qed.
Lemma rep_live h hd E lev a : rep h hd E lev -> a ∈ hd :: (ia <$> E) -> is_Some (h !! a).
Proof.
  intros R Ha. apply (fw_live h a 0). eapply links_slot; [apply (rp_links _ _ _ _ R 0); lia|]. by rewrite at_level_0.
Qed.
Lemma rep_bound h hd E lev : rep h hd E lev -> (S (length E) <= size h)%nat.
Proof.
  intros R. replace (S (length E)) with (length (hd :: (ia <$> E))) by (cbn; by rewrite fmap_length).
  apply nodup_bound; [apply R|]. intros a. by eapply rep_live.
Qed.
Lemma at_level_len i E : (length (at_level i E) <= length E)%nat.
Proof. apply sublist_length, at_level_submseteq. Qed.

Section Key.
Context {K : Type} (cmp : K -> K -> Z) (key : ptr -> K).

Lemma walk_spec h (k : K) i L2 L1 : forall fuel p, links h i p (L1 ++ L2) ->
  (forall x, x ∈ L1 -> dat h (ia x) = Some (idt x) /\ cmp (key (idt x)) k < 0) ->
  (forall x, x ∈ L2 -> dat h (ia x) = Some (idt x) /\ ~ cmp (key (idt x)) k < 0) ->
  (length L1 < fuel)%nat -> walk cmp key h k i fuel p = Ret (lastp p L1).
Proof.
  induction L1 as [|x L1 IH]; intros [|fuel] p HL H1 H2 Hf; cbn [length] in *; try lia; cbn [walk app] in *.
  - destruct L2 as [|x L2]; cbn [links] in HL.
    + rewrite (fget_ok _ _ _ _ HL). rb. done.
    + destruct HL as [HL _]. rewrite (fget_ok _ _ _ _ HL). rb. destruct (H2 x ltac:(left)) as [Hd Hc].
      unfold dat in Hd. destruct (h !! ia x) as [e|] eqn:He; [|done]. rewrite (hget_Some _ _ _ He). rb.
      cbn in Hd. injection Hd as ->. destruct (Z.ltb_spec (cmp (key (idt x)) k) 0); [done|]. done.
  - cbn [links] in HL. destruct HL as [HL HL']. rewrite (fget_ok _ _ _ _ HL). rb. destruct (H1 x ltac:(left)) as [Hd Hc].
    unfold dat in Hd. destruct (h !! ia x) as [e|] eqn:He; [|done]. rewrite (hget_Some _ _ _ He). rb.
    cbn in Hd. injection Hd as ->. destruct (Z.ltb_spec (cmp (key (idt x)) k) 0); [|lia].
    rewrite lastp_cons. apply IH; [done| |done|lia]. intros y Hy. apply H1. by right.
Qed.

(** the predecessor of [B] at level [i] *)
Definition pre hd (i : nat) A : positive := lastp hd (at_level i A).

Lemma pre_split hd i A : exists A1 A2, A = A1 ++ A2 /\ pre hd (S i) A = lastp hd A1 /\
  (A1 = [] \/ exists A0 x, A1 = A0 ++ [x] /\ (S i <= ih x)%nat) /\ (forall x, x ∈ A2 -> (ih x < S i)%nat).
Proof.
  induction A as [|x A IH] using rev_ind.
  - exists [], []. split; [done|]. split; [done|]. split; [by left|]. intros x Hx. by apply elem_of_nil in Hx.
  - destruct (decide (S i <= ih x)%nat) as [Hx|Hx].
    + exists (A ++ [x]), []. rewrite app_nil_r. split; [done|]. split.
      * unfold pre. rewrite at_level_app. unfold at_level at 2. rewrite filter_cons_True, filter_nil by done. by rewrite !lastp_snoc.
      * split; [right; eauto|]. intros y Hy. by apply elem_of_nil in Hy.
    + destruct IH as (A1 & A2 & -> & Hp & H1 & H2). exists A1, (A2 ++ [x]). rewrite <- app_assoc. split; [done|]. split.
      * rewrite app_assoc. unfold pre in *. rewrite at_level_app. rewrite (at_level_none (S i) [x]), app_nil_r; [done|].
        intros y ->%elem_of_list_singleton. lia.
      * split; [done|]. intros y [Hy|Hy]%elem_of_app; [by apply H2|]. apply elem_of_list_singleton in Hy as ->. lia.
Qed.

Definition below (k : K) (x : item) : Prop := cmp (key (idt x)) k < 0.

Lemma locate_loop_spec h hd A B lev k : rep h hd (A ++ B) lev ->
  (forall x, x ∈ A -> below k x) -> (forall x, x ∈ B -> ~ below k x) ->
  forall i u, (i <= lev)%nat -> length u = S MaxLevel ->
  exists u', locate_loop cmp key h k i (pre hd (S i) A) u = Ret (pre hd 0 A, u') /\ length u' = S MaxLevel /\
    (forall j, (j <= i)%nat -> u' !! j = Some (Some (pre hd j A))) /\
    (forall j, (i < j)%nat -> u' !! j = u !! j).
Proof.
  intros R HA HB. pose proof (rp_lev _ _ _ _ R) as Hlev.
  assert (Hw : forall i, (i <= lev)%nat -> walk cmp key h k i (entry_fuel h) (pre hd (S i) A) = Ret (pre hd i A)).
  { intros i Hi. destruct (pre_split hd i A) as (A1 & A2 & EA & Hp & H1 & H2).
    pose proof (rp_links _ _ _ _ R i ltac:(lia)) as HL. rewrite EA in HL. rewrite !at_level_app, <- !app_assoc in HL.
    pose proof (links_last _ _ _ _ _ HL) as HL2.
    assert (pre hd (S i) A = lastp hd (at_level i A1)) as ->.
    { rewrite Hp. destruct H1 as [-> | (A0 & x & -> & Hx)]; [done|]. rewrite at_level_app. unfold at_level at 2.
      rewrite filter_cons_True, filter_nil by lia. by rewrite !lastp_snoc. }
    replace (pre hd i A) with (lastp (lastp hd (at_level i A1)) (at_level i A2)).
    2:{ unfold pre. rewrite EA at 1. rewrite at_level_app, lastp_app. done. }
    apply walk_spec with (at_level i B); [done|..].
    - intros x Hx. apply elem_of_list_filter in Hx as [_ Hx]. split.
      + apply (rp_dat _ _ _ _ R). rewrite EA. apply elem_of_app. left. apply elem_of_app. by right.
      + apply HA. rewrite EA. apply elem_of_app. by right.
    - intros x Hx. apply elem_of_list_filter in Hx as [_ Hx]. split.
      + apply (rp_dat _ _ _ _ R). apply elem_of_app. by right.
      + by apply HB.
    - pose proof (at_level_len i A2). pose proof (rep_bound _ _ _ _ R) as Hb. rewrite EA, !app_length in Hb.
      unfold entry_fuel. lia. }
  induction i as [|i IH]; intros u Hi Hu; cbn [locate_loop]; rewrite Hw by done; rb.
  - destruct u as [|u0 u]; [done|]. cbn [aset lookup list_lookup]. rb. eexists. split; [done|].
    split; [by rewrite insert_length|]. split.
    + intros j Hj. assert (j = 0)%nat as -> by lia. done.
    + intros [|j] Hj; [lia|]. done.
  - destruct (lookup_lt_is_Some_2 u (S i)) as [s Hs]; [lia|]. rewrite (aset_Some _ _ _ _ Hs). rb.
    destruct (IH (<[S i := Some (pre hd (S i) A)]> u)) as (u' & E & Hl & H1 & H2); [lia|by rewrite insert_length|].
    exists u'. split; [exact E|]. split; [done|]. split.
    + intros j Hj. destruct (decide (j = S i)) as [-> | Hne]; [|apply H1; lia].
      rewrite H2 by lia. rewrite list_lookup_insert; [done|]. lia.
    + intros j Hj. rewrite H2 by lia. rewrite list_lookup_insert_ne; [done|lia].
Qed.

Lemma locate_spec h hd A B lev c k : rep h hd (A ++ B) lev ->
  (forall x, x ∈ A -> below k x) -> (forall x, x ∈ B -> ~ below k x) ->
  exists u, locate (SL lev c hd cmp key) h k update0 = Ret (hpi B, u) /\ length u = S MaxLevel /\
    (forall j, (j <= lev)%nat -> u !! j = Some (Some (pre hd j A))).
Proof.
  intros R HA HB. unfold locate. cbn [scmp skey slevel shead].
  destruct (locate_loop_spec h hd A B lev k R HA HB lev update0) as (u & E & Hl & H1 & _); [done|done|].
  replace (pre hd (S lev) A) with hd in E.
  2:{ unfold pre. rewrite at_level_none; [done|]. intros x Hx. pose proof (rp_height _ _ _ _ R x). rewrite elem_of_app in *.
      apply Nat.lt_succ_r. auto. }
  rewrite E. rb. exists u. split; [|done].
  pose proof (rp_links _ _ _ _ R 0 ltac:(lia)) as HL. rewrite at_level_app in HL. apply links_last in HL.
  fold (pre hd 0 A) in HL. rewrite at_level_0 in HL. rewrite (fget_ok _ _ _ _ (links_next _ _ _ _ HL)). rb. done.
Qed.
Lemma is_at_spec h hd A B lev c k : rep h hd (A ++ B) lev ->
  is_at (SL lev c hd cmp key) h (hpi B) k =
  Ret (match B with [] => false | x :: _ => cmp (key (idt x)) k =? 0 end).
Proof.
  intros R. unfold is_at. destruct B as [|x B]; [done|]. cbn [hpi].
  pose proof (rp_dat _ _ _ _ R x ltac:(apply elem_of_app; right; left)) as Hd. unfold dat in Hd.
  destruct (h !! ia x) as [e|] eqn:He; [|done]. rewrite (hget_Some _ _ _ He). rb. cbn in Hd. injection Hd as ->. done.
Qed.
End Key.

(** ** sl_insert's loop *)
Lemma uget_ok u i p : u !! i = Some (Some p) -> uget u i = Ret p.
Proof. intros H. unfold uget. rewrite (aget_Some _ _ _ H). rb. done. Qed.

Lemma splice_in_spec h0 hd A B lev e d level u : rep h0 hd (A ++ B) lev ->
  h0 !! e = None -> (level <= MaxLevel)%nat ->
  (forall j, (j <= level)%nat -> u !! j = Some (Some (pre hd j A))) ->
  exists h, for_up (S level) 0 (splice_in u e) (<[e := Entry d (replicate (level + 2) None)]> h0) = Ret h /\
    rep h hd (A ++ Item e d level :: B) (Nat.max lev level) /\
    (forall b, b <> e -> b ∉ hd :: (ia <$> A ++ B) -> h !! b = h0 !! b) /\
    (forall b, is_Some (h !! b) <-> b = e \/ is_Some (h0 !! b)).
Proof.
  intros R He Hlv Hu. set (h1 := <[e := Entry d (replicate (level + 2) None)]> h0).
  set (x := Item e d level). set (E := A ++ B).
  assert (Hne : forall b, b ∈ hd :: (ia <$> E) -> b <> e).
  { intros b Hb ->. destruct (rep_live _ _ _ _ _ R Hb) as [? ?]. congruence. }
  assert (R1 : rep h1 hd E lev).
  { eapply rep_frame; [|exact R]. intros b Hb. unfold h1. rewrite lookup_insert_ne; [done|]. intros <-. by apply (Hne e Hb). }
  (* after n iterations *)
  set (J := fun (n : nat) (h : gmap positive entry) =>
    (forall i, (i < n)%nat -> links h i hd (at_level i A ++ x :: at_level i B)) /\
    (forall i, (n <= i <= MaxLevel)%nat -> links h i hd (at_level i E)) /\
    (forall i, (i <= level)%nat -> slot h e i) /\
    (forall b, dat h b = dat h1 b) /\
    (forall b, b <> e -> b ∉ hd :: (ia <$> E) -> h !! b = h1 !! b) /\
    (forall b, is_Some (h !! b) <-> is_Some (h1 !! b))).
  assert (Hstep : forall n h, (n <= level)%nat -> J n h -> exists h', splice_in u e n h = Ret h' /\ J (S n) h').
  { intros n h Hn (J1 & J2 & J3 & J4 & J5 & J6). unfold splice_in. rewrite (uget_ok _ _ _ (Hu n Hn)). rb.
    pose proof (J2 n ltac:(lia)) as HL. unfold E in HL. rewrite at_level_app in HL.
    pose proof (links_last _ _ _ _ _ HL) as HL2. fold (pre hd n A) in HL2.
    rewrite (fget_ok _ _ _ _ (links_next _ _ _ _ HL2)). rb.
    assert (Hpin : pre hd n A ∈ hd :: (ia <$> E)).
    { destruct (lastp_in hd (at_level n A)) as [Hq|Hq]; unfold pre; [rewrite Hq; by left|right].
      unfold E. rewrite fmap_app. apply elem_of_app. left. by eapply at_level_sub. }
    destruct (fset_ok h e n (hpi (at_level n B)) (J3 n Hn)) as (h2 & E2 & F1 & F2 & F3 & F4 & F5 & F6).
    rewrite E2. rb.
    assert (Hs : slot h2 (pre hd n A) n).
    { apply F4. apply fw_slot. rewrite (links_next _ _ _ _ HL2). eauto. }
    destruct (fset_ok h2 (pre hd n A) n (Some e) Hs) as (h3 & E3 & G1 & G2 & G3 & G4 & G5 & G6).
    exists h3. split; [done|].
    assert (Hfw : forall b j, j <> n -> fw h3 b j = fw h b j).
    { intros b j Hj. rewrite G2, F2; [done|congruence|congruence]. }
    assert (Hfn : forall b, b <> e -> b <> pre hd n A -> fw h3 b n = fw h b n).
    { intros b Hb1 Hb2. rewrite G2, F2; [done|congruence|congruence]. }
    split; [|split; [|split; [|split; [|split]]]].
    - intros i Hi. destruct (decide (i = n)) as [-> | Hin].
      + pose proof (at_level_nodup hd n E (rp_nd _ _ _ _ R)) as Hnd. unfold E in Hnd. rewrite at_level_app, fmap_app in Hnd.
        apply (links_relink h h3 n hd (at_level n A) (at_level n B)).
        * apply NoDup_cons in Hnd as [N1 N2]. rewrite elem_of_app in N1. apply NoDup_app in N2 as (N2 & _ & _).
          apply NoDup_cons. tauto.
        * done.
        * intros b Hb Hb2. apply Hfn; [|done]. apply Hne. apply elem_of_cons in Hb as [-> | Hb]; [by left|right].
          unfold E. rewrite fmap_app. apply elem_of_app. left. by eapply at_level_sub.
        * fold (pre hd n A). cbn [links]. split; [exact G1|]. cbn [ia x].
          assert (He3 : fw h3 e n = Some (hpi (at_level n B))).
          { rewrite G2; [exact F1|]. intros [= Heq]. by apply (Hne (pre hd n A)). }
          destruct (at_level n B) as [|y B'] eqn:EB; cbn [links hpi] in *; [done|]. split; [done|].
          destruct HL2 as [_ HL2]. eapply links_frame; [|exact HL2]. intros b Hb. apply Hfn.
          -- apply Hne. right. unfold E. rewrite fmap_app. apply elem_of_app. right. apply (at_level_sub n). rewrite EB. exact Hb.
          -- intros ->. apply NoDup_cons in Hnd as [N1 N2]. rewrite elem_of_app in N1.
             apply NoDup_app in N2 as (_ & N2 & _).
             destruct (lastp_in hd (at_level n A)) as [Hq|Hq]; fold (pre hd n A) in Hq.
             ++ apply N1. right. rewrite Hq in Hb. exact Hb.
             ++ by apply (N2 _ Hq).
      + eapply links_frame; [|apply (J1 i); lia]. intros b _. by apply Hfw.
    - intros i Hi. eapply links_frame; [|apply (J2 i); lia]. intros b _. apply Hfw. lia.
    - intros i Hi. apply G4, F4, J3. done.
    - intros b. by rewrite G3, F3, J4.
    - intros b Hb1 Hb2. rewrite G5, F5; [by apply J5|done|]. intros ->. done.
    - intros b. by rewrite G6, F6, J6. }
  assert (Hloop : forall n h k, (k + n = S level)%nat -> J k h ->
     exists h', for_up n k (splice_in u e) h = Ret h' /\ J (S level) h').
  { induction n as [|n IH]; intros h k Hk HJ; cbn [for_up].
    - exists h. split; [done|]. by replace (S level) with k by lia.
    - destruct (Hstep k h ltac:(lia) HJ) as (h' & Eh & HJ'). rewrite Eh. rb. apply IH; [lia|done]. }
  assert (J0 : J 0%nat h1).
  { split; [intros i Hi; lia|]. split; [intros i Hi; apply (rp_links _ _ _ _ R1); lia|]. split; [|done].
    intros i Hi. unfold slot, h1. rewrite lookup_insert. eexists. split; [done|]. cbn. rewrite replicate_length. lia. }
  destruct (Hloop (S level) h1 0%nat ltac:(lia) J0) as (h & Eh & J1 & J2 & J3 & J4 & J5 & J6).
  exists h. split; [exact Eh|]. split; [constructor|split].
  - rewrite fmap_app, fmap_cons. cbn [ia x]. pose proof (rp_nd _ _ _ _ R) as Hnd. fold E in Hnd.
    assert (He' : e ∉ hd :: (ia <$> E)) by (intros H; by apply (Hne e H)).
    apply not_elem_of_cons in He' as [He1 He2]. unfold E in He2. rewrite fmap_app in He2. apply not_elem_of_app in He2 as [He2 He3].
    unfold E in Hnd. rewrite fmap_app in Hnd. apply NoDup_cons in Hnd as [N1 N2]. apply not_elem_of_app in N1 as [N1 N1'].
    apply NoDup_app in N2 as (N2 & N3 & N4). apply NoDup_cons. split.
    + rewrite elem_of_app, elem_of_cons. intros [H|[H|H]]; try done.
    + apply NoDup_app. split; [done|]. split; [|apply NoDup_cons; by split].
      intros b Hb [-> | Hb2]%elem_of_cons; [done|]. by apply (N3 b).
  - intros i Hi. rewrite at_level_app, at_level_cons. change (ih x) with level.
    destruct (decide (i <= level)%nat) as [Hil|Hil].
    + apply (J1 i). lia.
    + rewrite <- at_level_app. apply (J2 i). lia.
  - intros y Hy. rewrite J4. apply elem_of_app in Hy as [Hy|[-> | Hy]%elem_of_cons].
    + apply (rp_dat _ _ _ _ R1). apply elem_of_app. by left.
    + unfold dat, h1. cbn [ia idt x]. by rewrite lookup_insert.
    + apply (rp_dat _ _ _ _ R1). apply elem_of_app. by right.
  - pose proof (rp_lev _ _ _ _ R). lia.
  - intros y Hy. apply elem_of_app in Hy as [Hy|[-> | Hy]%elem_of_cons].
    + pose proof (rp_height _ _ _ _ R y ltac:(apply elem_of_app; by left)). lia.
    + cbn [ih x]. lia.
    + pose proof (rp_height _ _ _ _ R y ltac:(apply elem_of_app; by right)). lia.
  - intros b Hb1 Hb2. rewrite J5 by done. unfold h1. by rewrite lookup_insert_ne.
  - intros b. rewrite J6. unfold h1. destruct (decide (b = e)) as [-> | Hb].
    + rewrite lookup_insert. split; eauto.
    + rewrite lookup_insert_ne by done. split; [by right|]. intros [?|?]; done.
Qed.

(** ** sl_delete's loops *)

Lemma splice_out_spec h0 hd A y B lev u : rep h0 hd (A ++ y :: B) lev ->
  (forall j, (j <= lev)%nat -> u !! j = Some (Some (pre hd j A))) ->
  exists h, for_up (S lev) 0 (splice_out u (ia y)) h0 = Ret h /\
    rep (delete (ia y) h) hd (A ++ B) lev /\
    (forall b, b ∉ hd :: (ia <$> A ++ y :: B) -> h !! b = h0 !! b) /\
    (forall b, is_Some (h !! b) <-> is_Some (h0 !! b)).
Proof.
  intros R Hu. set (E := A ++ y :: B). pose proof (rp_lev _ _ _ _ R) as Hlm.
  assert (Hnd : NoDup (hd :: (ia <$> E))) by apply R.
  assert (Hy : ia y ∉ hd :: (ia <$> A ++ B)).
  { unfold E in Hnd. rewrite fmap_app, fmap_cons in Hnd. apply NoDup_cons in Hnd as [N1 N2].
    apply NoDup_app in N2 as (N2 & N3 & N4). apply NoDup_cons in N4 as [N4 N5]. rewrite fmap_app, elem_of_cons, elem_of_app.
    intros [H|[H|H]]; [|by apply (N3 _ H); left|done]. apply N1. rewrite elem_of_app, <- H. right. left. }
  set (J := fun (n : nat) (h : gmap positive entry) =>
    (forall i, (i < n)%nat -> links h i hd (at_level i (A ++ B))) /\
    (forall i, (n <= i <= MaxLevel)%nat -> links h i hd (at_level i E)) /\
    (forall b, dat h b = dat h0 b) /\
    (forall b, b ∉ hd :: (ia <$> E) -> h !! b = h0 !! b) /\
    (forall b, is_Some (h !! b) <-> is_Some (h0 !! b))).
  assert (Hstep : forall n h, (n <= lev)%nat -> J n h -> exists h', splice_out u (ia y) n h = Ret h' /\ J (S n) h').
  { intros n h Hn (J1 & J2 & J3 & J4 & J5). unfold splice_out. rewrite (uget_ok _ _ _ (Hu n Hn)). rb.
    pose proof (J2 n ltac:(lia)) as HL. unfold E in HL. rewrite at_level_app in HL.
    pose proof (links_last _ _ _ _ _ HL) as HL2. fold (pre hd n A) in HL2.
    rewrite (fget_ok _ _ _ _ (links_next _ _ _ _ HL2)). rb.
    rewrite at_level_cons in HL, HL2 |- *. destruct (decide (n <= ih y)%nat) as [Hh|Hh].
    - cbn [hpi]. rewrite decide_True by done. cbn [links] in HL2. destruct HL2 as [HLa HLb].
      rewrite (fget_ok _ _ _ _ (links_next _ _ _ _ HLb)). rb.
      assert (Hs : slot h (pre hd n A) n) by (apply fw_slot; rewrite HLa; eauto).
      destruct (fset_ok h (pre hd n A) n (hpi (at_level n B)) Hs) as (h2 & E2 & F1 & F2 & F3 & F4 & F5 & F6).
      exists h2. split; [done|].
      assert (Hpin : pre hd n A ∈ hd :: (ia <$> E)).
      { destruct (lastp_in hd (at_level n A)) as [Hq|Hq]; unfold pre; [rewrite Hq; by left|right].
        unfold E. rewrite fmap_app. apply elem_of_app. left. by eapply at_level_sub. }
      split; [|split; [|split; [|split]]].
      + intros i Hi. destruct (decide (i = n)) as [-> | Hin].
        * pose proof (at_level_nodup hd n _ Hnd) as Hn2. unfold E in Hn2. rewrite at_level_app, fmap_app in Hn2.
          apply NoDup_cons in Hn2 as [N1 N2]. apply not_elem_of_app in N1 as [N1 N1']. apply NoDup_app in N2 as (N2 & N3 & N4).
          rewrite at_level_app. eapply links_relink.
          -- apply NoDup_cons. by split.
          -- exact HL.
          -- intros b Hb Hb2. apply F2. intros [= Heq]. by apply Hb2.
          -- fold (pre hd n A).
             assert (Hdis : forall b, b ∈ ia <$> at_level n B -> b <> pre hd n A).
             { intros b Hb ->. rewrite at_level_cons in N1', N3. rewrite decide_True in N1', N3 by done. rewrite fmap_cons in N1', N3.
               destruct (lastp_in hd (at_level n A)) as [Hq|Hq]; fold (pre hd n A) in Hq.
               - apply N1'. right. rewrite Hq in Hb. done.
               - apply (N3 _ Hq). by right. }
             destruct (at_level n B) as [|z B'] eqn:EB; cbn [links hpi] in *; [exact F1|]. split; [exact F1|].
             destruct HLb as [_ HLb]. eapply links_frame; [|exact HLb]. intros b Hb. apply F2.
             intros [= Heq]. by apply (Hdis b).
        * eapply links_frame; [|apply (J1 i); lia]. intros b _. apply F2. congruence.
      + intros i Hi. eapply links_frame; [|apply (J2 i); lia]. intros b _. apply F2. intros [= _ Heq]. lia.
      + intros b. by rewrite F3, J3.
      + intros b Hb. rewrite F5; [by apply J4|]. intros ->. done.
      + intros b. by rewrite F6, J5.
    - assert (Hno : hpi (at_level n B) <> Some (ia y)).
      { destruct (at_level n B) as [|z B'] eqn:EB; [done|]. cbn [hpi]. intros [= Hz]. apply Hy. right.
        rewrite fmap_app. apply elem_of_app. right. apply (at_level_sub n). rewrite EB, <- Hz. cbn. left. }
      rewrite decide_False by done. exists h. split; [done|].
      split; [|split; [|split; [|split]]]; try done.
      + intros i Hi. destruct (decide (i = n)) as [-> | Hin]; [by rewrite at_level_app|]. apply (J1 i). lia.
      + intros i Hi. apply (J2 i). lia. }
  assert (Hloop : forall n h k, (k + n = S lev)%nat -> J k h ->
     exists h', for_up n k (splice_out u (ia y)) h = Ret h' /\ J (S lev) h').
  { induction n as [|n IH]; intros h k Hk HJ; cbn [for_up].
    - exists h. split; [done|]. by replace (S lev) with k by lia.
    - destruct (Hstep k h ltac:(lia) HJ) as (h' & Eh & HJ'). rewrite Eh. rb. apply IH; [lia|done]. }
  assert (J0 : J 0%nat h0).
  { split; [intros i Hi; lia|]. split; [intros i Hi; apply (rp_links _ _ _ _ R); lia|]. done. }
  destruct (Hloop (S lev) h0 0%nat ltac:(lia) J0) as (h & Eh & J1 & J2 & J3 & J4 & J5).
  exists h. split; [exact Eh|]. split; [|split; done].
  assert (Hlinks : forall i, (i <= MaxLevel)%nat -> links h i hd (at_level i (A ++ B))).
  { intros i Hi. destruct (decide (i <= lev)%nat) as [Hil|Hil]; [apply J1; lia|].
    pose proof (J2 i ltac:(lia)) as HL. unfold E in HL. rewrite at_level_app, at_level_cons in HL.
    rewrite at_level_app. rewrite decide_False in HL; [done|].
    pose proof (rp_height _ _ _ _ R y ltac:(apply elem_of_app; right; left)). lia. }
  apply rep_frame with h.
  { intros b Hb. rewrite lookup_delete_ne; [done|]. intros <-. done. }
  constructor; try done.
  - unfold E in Hnd. rewrite fmap_app, fmap_cons in Hnd. rewrite fmap_app.
    apply NoDup_cons in Hnd as [N1 N2]. apply NoDup_app in N2 as (N2 & N3 & N4).
    apply NoDup_cons in N4 as [N4 N5]. apply NoDup_cons. rewrite elem_of_app, elem_of_cons in N1. rewrite elem_of_app.
    split; [tauto|]. apply NoDup_app. split; [done|]. split; [|done]. intros b Hb Hb2. apply (N3 b Hb). by right.
  - intros x Hx. rewrite J3. apply (rp_dat _ _ _ _ R). rewrite elem_of_app in *. rewrite elem_of_cons. tauto.
  - intros x Hx. apply (rp_height _ _ _ _ R). rewrite elem_of_app in *. rewrite elem_of_cons. tauto.
Qed.

Lemma lower_spec h hd E lev : rep h hd E lev ->
  exists lev', lower h hd lev = Ret lev' /\ rep h hd E lev'.
Proof.
  induction lev as [|lev IH]; intros R; cbn [lower].
  - by exists 0%nat.
  - pose proof (rp_lev _ _ _ _ R) as Hl. pose proof (rp_links _ _ _ _ R (S lev) ltac:(lia)) as HL.
    rewrite (fget_ok _ _ _ _ (links_next _ _ _ _ HL)). rb.
    destruct (at_level (S lev) E) as [|x B] eqn:EB; cbn [hpi]; [|by exists (S lev)].
    apply IH. destruct R as [R1 R2 R3 R4 R5]. constructor; try done; [lia|]. intros x Hx.
    specialize (R5 x Hx). destruct (decide (ih x = S lev)) as [Hxx|]; [|lia].
    assert (x ∈ at_level (S lev) E) as Hin by (apply elem_of_list_filter; split; [lia|done]).
    rewrite EB in Hin. by apply elem_of_nil in Hin.
Qed.

(** ** The loops over level 0 *)
Lemma links0_delete h a p L : links h 0 p L -> a ∉ p :: (ia <$> L) -> links (delete a h) 0 p L.
Proof.
  intros HL Ha. eapply links_frame; [|exact HL]. intros b Hb. unfold fw. rewrite lookup_delete_ne; [done|]. intros <-. done.
Qed.
Lemma free_entries_spec L : forall fuel h p, links h 0 p L -> NoDup (p :: (ia <$> L)) -> (S (length L) < fuel)%nat ->
  exists h', free_entries fuel h (Some p) = Ret h' /\
    forall b, h' !! b = if decide (b ∈ p :: (ia <$> L)) then None else h !! b.
Proof.
  induction L as [|x L IH]; intros [|fuel] h p HL Hnd Hf; cbn [length] in *; try lia; cbn [free_entries].
  - rewrite (fget_ok _ _ _ _ (links_next _ _ _ _ HL)). rb.
    destruct (fw_live h p 0) as [e He]; [rewrite (links_next _ _ _ _ HL); eauto|].
    rewrite (hfree_Some _ _ _ He). rb. cbn [hpi]. destruct fuel as [|fuel]; [lia|]. cbn [free_entries]. eexists. split; [done|].
    intros b. rewrite fmap_nil. destruct (decide (b ∈ [p])) as [Hb|Hb].
    + apply elem_of_list_singleton in Hb as ->. apply lookup_delete.
    + rewrite lookup_delete_ne; [done|]. intros <-. apply Hb. by left.
  - rewrite fmap_cons in *. destruct HL as [HLa HLb]. rewrite (fget_ok _ _ _ _ HLa). rb.
    destruct (fw_live h p 0) as [e He]; [rewrite HLa; eauto|].
    rewrite (hfree_Some _ _ _ He). rb. apply NoDup_cons in Hnd as [Hp Hnd].
    destruct (IH fuel (delete p h) (ia x)) as (h' & E & Hh'); [by apply links0_delete|done|lia|].
    exists h'. split; [done|]. intros b. rewrite Hh'. destruct (decide (b = p)) as [-> | Hb].
    + rewrite decide_False by done. rewrite lookup_delete, decide_True by left. done.
    + rewrite lookup_delete_ne by done. destruct (decide (b ∈ ia x :: (ia <$> L))) as [H|H].
      * rewrite decide_True by (by right). done.
      * rewrite decide_False; [done|]. intros [?|?]%elem_of_cons; done.
Qed.

Lemma copy_loop_spec L2 : forall (D1 : list ptr) fuel h p, links h 0 p L2 ->
  (forall x, x ∈ L2 -> dat h (ia x) = Some (idt x)) -> (length L2 < fuel)%nat ->
  copy_loop h fuel (length D1) (hpi L2) ((Some <$> D1) ++ replicate (length L2) None)
  = Ret (Some <$> (D1 ++ (idt <$> L2))).
Proof.
  induction L2 as [|x L2 IH]; intros D1 [|fuel] h p HL Hd Hf; cbn [length] in *; try lia; cbn [copy_loop hpi].
  - cbn [replicate]. rewrite fmap_nil, !app_nil_r. done.
  - destruct HL as [HLa HLb]. pose proof (Hd x ltac:(left)) as Hx. unfold dat in Hx.
    destruct (h !! ia x) as [e|] eqn:He; [|done]. rewrite (hget_Some _ _ _ He). rb. cbn in Hx. injection Hx as ->.
    erewrite aset_Some.
    2:{ rewrite lookup_app_r; rewrite fmap_length; [|lia]. rewrite Nat.sub_diag. done. }
    rb. rewrite (fget_ok _ _ _ _ (links_next _ _ _ _ HLb)). rb.
    rewrite insert_app_r_alt by (rewrite fmap_length; lia). rewrite fmap_length, Nat.sub_diag. cbn [replicate insert list_insert].
    specialize (IH (D1 ++ [idt x]) fuel h (ia x) HLb). rewrite app_length in IH. cbn [length] in IH.
    replace (length D1 + 1)%nat with (S (length D1)) in IH by lia. rewrite fmap_app, <- app_assoc in IH.
    cbn [fmap list_fmap app] in IH. rewrite <- app_assoc in IH. cbn [app] in IH.
    rewrite fmap_cons. apply IH; [|lia]. intros y Hy. apply Hd. by right.
Qed.

Lemma dump_loop_spec {K} (key : ptr -> K) h L : forall fuel p c, links h 0 p L ->
  (forall x, x ∈ L -> dat h (ia x) = Some (idt x)) -> is_Some (h !! p) -> (S (length L) < fuel)%nat ->
  0 <= c -> c + Z.of_nat (length L) < 2 ^ 31 - 1 ->
  exists r, dump_loop key h fuel (Some p) c = Ret r /\ length r = S (length L).
Proof.
  induction L as [|x L IH]; intros [|fuel] p c HL Hd [e He] Hf Hc Hb; cbn [length] in *; try lia; cbn [dump_loop].
  - rewrite (hget_Some _ _ _ He). rb. unfold sint. replace (int_range (c + 1)) with true by (unfold int_range, INT_MIN, INT_MAX; lia). rb.
    rewrite (fget_ok _ _ _ _ (links_next _ _ _ _ HL)). rb. cbn [hpi]. destruct fuel; [lia|]. cbn [dump_loop]. rb. eexists. done.
  - rewrite (hget_Some _ _ _ He). rb. unfold sint. replace (int_range (c + 1)) with true by (unfold int_range, INT_MIN, INT_MAX; lia). rb.
    destruct HL as [HLa HLb]. rewrite (fget_ok _ _ _ _ HLa). rb.
    destruct (IH fuel (ia x) (c + 1)) as (r & E & Hr); [done| | |lia|lia|lia|].
    + intros z Hz. apply Hd. by right.
    + apply (fw_live h (ia x) 0). rewrite (links_next _ _ _ _ HLb). eauto.
    + rewrite E. rb. eexists. split; [done|]. cbn. by rewrite Hr.
Qed.
