(** Proofs about stack.c. *)
From Verif Require Import Base StackModel.

Implicit Types (h : sheap) (G : gmap positive (list ptr)).

(** [L] lists the (address, datum) of the nodes reachable from [p] *)
Fixpoint chain (nd : gmap positive node) (p : ptr) (L : list (positive * ptr)) : Prop :=
  match L with
  | [] => p = None
  | (a, d) :: L' => p = Some a /\ exists q, nd !! a = Some (Node d q) /\ chain nd q L'
  end.

(** The store holds exactly the stacks of [M], each with its own nodes. *)
Record stk_inv h (M : gmap positive (list (positive * ptr))) : Prop := {
  si_dom : forall s, is_Some (stks h !! s) <-> is_Some (M !! s);
  si_chain : forall s L, M !! s = Some L -> exists p, stks h !! s = Some p /\ chain (nodes h) p L;
  si_nodup : forall s L, M !! s = Some L -> NoDup L.*1;
  si_disj : forall s1 s2 L1 L2 a, M !! s1 = Some L1 -> M !! s2 = Some L2 ->
      a ∈ L1.*1 -> a ∈ L2.*1 -> s1 = s2;
  si_all : forall a, is_Some (nodes h !! a) -> exists s L, M !! s = Some L /\ a ∈ L.*1 }.

Lemma chain_frame nd nd' p L : (forall a, a ∈ L.*1 -> nd' !! a = nd !! a) -> chain nd p L -> chain nd' p L.
Proof.
  revert p. induction L as [|[a d] L IH]; intros p Hf; simpl; [done|].
  intros (-> & q & Ha & Hq). split; [done|]. exists q. rewrite Hf by (simpl; left). split; [done|].
  apply IH; [|done]. intros b Hb. apply Hf. simpl. by right.
Qed.
Lemma chain_live nd p L a : chain nd p L -> a ∈ L.*1 -> is_Some (nd !! a).
Proof.
  revert p. induction L as [|[b d] L IH]; intros p; simpl.
  - intros _ H. by apply elem_of_nil in H.
  - intros (_ & q & Hb & Hq) [->|H]%elem_of_cons; [eauto|]. eauto.
Qed.

Lemma stk_inv_empty : stk_inv sempty ∅.
Proof.
  constructor; unfold sempty; simpl.
  - intros s. rewrite !lookup_empty. by split; intros [? ?].
  - intros s L. by rewrite lookup_empty.
  - intros s L. by rewrite lookup_empty.
  - intros s1 s2 L1 L2 a H. by rewrite lookup_empty in H.
  - intros a. rewrite lookup_empty. by intros [? ?].
Qed.

Lemma create_spec al h M : malloc_ok al -> stk_inv h M ->
  match al (stks h) with
  | None => stk_create al h = Fatal
  | Some s => exists h', stk_create al h = Ret (h', s) /\ M !! s = None /\ stk_inv h' (<[s := []]> M)
              /\ nodes h' = nodes h
  end.
Proof.
  intros Hal I. unfold stk_create. destruct (al (stks h)) as [s|] eqn:E; [|done].
  apply Hal in E. assert (HM : M !! s = None).
  { apply eq_None_not_Some. intros H. apply (si_dom _ _ I) in H. rewrite E in H. by destruct H. }
  eexists. split; [done|]. split; [done|]. split; [|done]. constructor; simpl.
  - intros s'. destruct (decide (s' = s)) as [->|Hne].
    + rewrite !lookup_insert. split; eauto.
    + rewrite !lookup_insert_ne by done. apply I.
  - intros s' L. destruct (decide (s' = s)) as [->|Hne].
    + rewrite !lookup_insert. intros [= <-]. eexists. split; [done|]. done.
    + rewrite !lookup_insert_ne by done. apply I.
  - intros s' L. destruct (decide (s' = s)) as [->|Hne].
    + rewrite lookup_insert. intros [= <-]. simpl. constructor.
    + rewrite lookup_insert_ne by done. apply I.
  - intros s1 s2 L1 L2 a.
    destruct (decide (s1 = s)) as [->|H1]; [rewrite lookup_insert; intros [= <-] _ H; by apply elem_of_nil in H|].
    destruct (decide (s2 = s)) as [->|H2]; [rewrite lookup_insert; intros _ [= <-] _ H; by apply elem_of_nil in H|].
    rewrite !lookup_insert_ne by done. apply I.
  - intros a Ha. destruct (si_all _ _ I a Ha) as (s' & L & HL & HaL).
    exists s', L. rewrite lookup_insert_ne by congruence. done.
Qed.

Lemma push_spec al h M s L d : malloc_ok al -> stk_inv h M -> M !! s = Some L ->
  match al (nodes h) with
  | None => stk_push al h s d = UB
  | Some a => exists h', stk_push al h s d = Ret h' /\ stk_inv h' (<[s := (a, d) :: L]> M)
              /\ nodes h !! a = None /\ dom (stks h') = dom (stks h)
  end.
Proof.
  intros Hal I HL. unfold stk_push. destruct (al (nodes h)) as [a|] eqn:E; [|done].
  apply Hal in E. destruct (si_chain _ _ I _ _ HL) as (p & Hp & Hc).
  rewrite (hget_Some _ _ _ Hp). rb. eexists. split; [done|].
  assert (Hna : forall s' L', M !! s' = Some L' -> a ∉ L'.*1).
  { intros s' L' HL' Ha. destruct (si_chain _ _ I _ _ HL') as (p' & _ & Hc').
    destruct (chain_live _ _ _ _ Hc' Ha). congruence. }
  split; [|split; [done|simpl; rewrite dom_insert_lookup_L by eauto; reflexivity]].
  constructor; simpl.
  - intros s'. destruct (decide (s' = s)) as [->|Hne].
    + rewrite !lookup_insert. split; eauto.
    + rewrite !lookup_insert_ne by done. apply I.
  - intros s' L'. destruct (decide (s' = s)) as [->|Hne].
    + rewrite !lookup_insert. intros [= <-]. eexists. split; [done|]. simpl. split; [done|].
      exists p. rewrite lookup_insert. split; [done|].
      eapply chain_frame; [|done]. intros b Hb. rewrite lookup_insert_ne; [done|].
      intros <-. by apply (Hna _ _ HL).
    + rewrite !lookup_insert_ne by done. intros HL'. destruct (si_chain _ _ I _ _ HL') as (p' & Hp' & Hc').
      exists p'. split; [done|]. eapply chain_frame; [|done]. intros b Hb. rewrite lookup_insert_ne; [done|].
      intros <-. by apply (Hna _ _ HL').
  - intros s' L'. destruct (decide (s' = s)) as [->|Hne].
    + rewrite lookup_insert. intros [= <-]. simpl. constructor; [by apply (Hna _ _ HL)|]. by apply (si_nodup _ _ I s).
    + rewrite lookup_insert_ne by done. apply I.
  - assert (Hone : forall s2 L2 b, s2 <> s -> M !! s2 = Some L2 -> b ∈ a :: L.*1 -> b ∈ L2.*1 -> False).
    { intros s2 L2 b Hne H2 [->|Hb]%elem_of_cons Hb2; [by apply (Hna _ _ H2)|].
      apply Hne. by apply (si_disj _ _ I s2 s L2 L b). }
    intros s1 s2 L1 L2 b.
    destruct (decide (s1 = s)) as [->|H1]; destruct (decide (s2 = s)) as [->|H2]; rewrite ?lookup_insert, ?lookup_insert_ne by done.
    + done.
    + intros [= <-] HL2 Hb1 Hb2. exfalso. by apply (Hone s2 L2 b).
    + intros HL1 [= <-] Hb1 Hb2. exfalso. by apply (Hone s1 L1 b).
    + apply I.
  - intros b Hb. destruct (decide (b = a)) as [->|Hne].
    + exists s, ((a, d) :: L). rewrite lookup_insert. split; [done|]. simpl. left.
    + rewrite lookup_insert_ne in Hb by done. destruct (si_all _ _ I b Hb) as (s' & L' & HL' & HbL).
      destruct (decide (s' = s)) as [->|Hs].
      * exists s, ((a, d) :: L). rewrite lookup_insert. split; [done|]. simplify_eq. simpl. by right.
      * exists s', L'. rewrite lookup_insert_ne by done. done.
Qed.

Lemma isempty_spec h M s L : stk_inv h M -> M !! s = Some L ->
  stk_isempty h s = Ret (match L with [] => 1%Z | _ => 0%Z end).
Proof.
  intros I HL. destruct (si_chain _ _ I _ _ HL) as (p & Hp & Hc).
  unfold stk_isempty. rewrite (hget_Some _ _ _ Hp). rb. destruct L as [|[a d] L]; simpl in Hc.
  - by rewrite Hc.
  - destruct Hc as [-> _]. done.
Qed.
Lemma top_spec h M s L : stk_inv h M -> M !! s = Some L ->
  stk_top h s = Ret (match L with [] => None | x :: _ => snd x end).
Proof.
  intros I HL. destruct (si_chain _ _ I _ _ HL) as (p & Hp & Hc).
  unfold stk_top. rewrite (hget_Some _ _ _ Hp). rb. destruct L as [|[a d] L]; simpl in Hc.
  - by rewrite Hc.
  - destruct Hc as (-> & q & Ha & _). rewrite (hget_Some _ _ _ Ha). done.
Qed.

Lemma pop_spec h M s L : stk_inv h M -> M !! s = Some L ->
  exists h', stk_pop h s = Ret (h', match L with [] => None | x :: _ => snd x end) /\
    stk_inv h' (<[s := tail L]> M) /\
    nodes h' = (match L with [] => nodes h | x :: _ => delete (fst x) (nodes h) end) /\
    dom (stks h') = dom (stks h).
Proof.
  intros I HL. destruct (si_chain _ _ I _ _ HL) as (p & Hp & Hc).
  unfold stk_pop. rewrite (hget_Some _ _ _ Hp). rb. destruct L as [|[a d] L]; simpl in Hc.
  - subst p. exists h. split; [done|]. split; [|done]. simpl. by rewrite insert_id.
  - destruct Hc as (-> & q & Ha & Hq). rewrite (hget_Some _ _ _ Ha). rb. cbn [prev datum].
    rewrite (hfree_Some _ _ _ Ha). rb. eexists. split; [done|].
    split; [|split; [done|simpl; rewrite dom_insert_lookup_L by eauto; reflexivity]].
    assert (Hnd := si_nodup _ _ I _ _ HL). simpl in Hnd. apply NoDup_cons in Hnd as [Hna Hnd].
    constructor; simpl.
    + intros s'. destruct (decide (s' = s)) as [->|Hne].
      * rewrite !lookup_insert. split; eauto.
      * rewrite !lookup_insert_ne by done. apply I.
    + intros s' L'. destruct (decide (s' = s)) as [->|Hne].
      * rewrite !lookup_insert. intros [= <-]. eexists. split; [done|].
        eapply chain_frame; [|done]. intros b Hb. rewrite lookup_delete_ne; [done|]. by intros <-.
      * rewrite !lookup_insert_ne by done. intros HL'. destruct (si_chain _ _ I _ _ HL') as (p' & Hp' & Hc').
        exists p'. split; [done|]. eapply chain_frame; [|done]. intros b Hb. rewrite lookup_delete_ne; [done|].
        intros <-. apply Hne. apply (si_disj _ _ I s' s L' ((a, d) :: L) a); try done. simpl. left.
    + intros s' L'. destruct (decide (s' = s)) as [->|Hne].
      * rewrite lookup_insert. by intros [= <-].
      * rewrite lookup_insert_ne by done. apply I.
    + assert (Hone : forall s2 L2 b, s2 <> s -> M !! s2 = Some L2 -> b ∈ L.*1 -> b ∈ L2.*1 -> False).
      { intros s2 L2 b Hne H2 Hb Hb2. apply Hne. apply (si_disj _ _ I s2 s L2 ((a, d) :: L) b); try done. simpl. by right. }
      intros s1 s2 L1 L2 b.
      destruct (decide (s1 = s)) as [->|H1]; destruct (decide (s2 = s)) as [->|H2]; rewrite ?lookup_insert, ?lookup_insert_ne by done.
      * done.
      * intros [= <-] HL2 Hb1 Hb2. exfalso. by apply (Hone s2 L2 b).
      * intros HL1 [= <-] Hb1 Hb2. exfalso. by apply (Hone s1 L1 b).
      * apply I.
    + intros b Hb. assert (b <> a) as Hne by (intros ->; rewrite lookup_delete in Hb; by destruct Hb).
      rewrite lookup_delete_ne in Hb by done. destruct (si_all _ _ I b Hb) as (s' & L' & HL' & HbL).
      destruct (decide (s' = s)) as [->|Hs].
      * exists s, L. rewrite lookup_insert. split; [done|]. rewrite HL in HL'. injection HL' as <-.
        simpl in HbL. by apply elem_of_cons in HbL as [->|].
      * exists s', L'. rewrite lookup_insert_ne by done. done.
Qed.

Lemma nodup_bound {A} (nd : gmap positive A) (l : list positive) :
  NoDup l -> (forall a, a ∈ l -> is_Some (nd !! a)) -> length l <= size nd.
Proof.
  intros Hnd Hl. rewrite <- size_dom. rewrite <- (size_list_to_set (C := gset positive) l) by done.
  apply subseteq_size. intros a Ha. apply elem_of_list_to_set, Hl in Ha. by apply elem_of_dom.
Qed.

Lemma destroy_loop_spec fuel L : forall h M s, stk_inv h M -> M !! s = Some L -> length L < fuel ->
  exists h', stk_destroy_loop fuel h s = Ret h' /\ stk_inv h' (<[s := []]> M) /\ stks h' !! s = Some None /\
    (forall a, nodes h' !! a = if decide (a ∈ L.*1) then None else nodes h !! a) /\ dom (stks h') = dom (stks h).
Proof.
  revert L. induction fuel as [|fuel IH]; intros L h M s I HL Hf; [lia|]. cbn [stk_destroy_loop].
  rewrite (isempty_spec h M s L I HL). rb. destruct L as [|[a d] L]; cbn [Z.eqb].
  - exists h. split; [done|]. rewrite insert_id by done. split; [done|].
    destruct (si_chain _ _ I _ _ HL) as (p & Hp & ->). split; [done|]. split; [|done].
    intros b. destruct (decide _) as [H|]; [by apply elem_of_nil in H|done].
  - destruct (pop_spec h M s _ I HL) as (h1 & E & I1 & Hn & Hd). rewrite E. rb. cbn [fst].
    destruct (IH L h1 (<[s := L]> M) s) as (h2 & E2 & I2 & Hs & Hn2 & Hd2); [done|by rewrite lookup_insert|simpl in Hf; lia|].
    change (0 =? 0)%Z with true. cbn beta iota. exists h2. split; [done|]. rewrite insert_insert in I2. split; [done|]. split; [done|].
    split; [|congruence]. intros b. rewrite Hn2, Hn. cbn [fst].
    rewrite (decide_ext (b ∈ ((a, d) :: L).*1) (b = a \/ b ∈ L.*1)) by (rewrite fmap_cons, elem_of_cons; done).
    destruct (decide (b ∈ L.*1)) as [Hb|Hb]; destruct (decide (b = a \/ b ∈ L.*1)) as [Hb'|Hb']; try done.
    + exfalso. apply Hb'. by right.
    + destruct Hb' as [->|]; [|done]. by rewrite lookup_delete.
    + rewrite lookup_delete_ne; [done|]. intros <-. apply Hb'. by left.
Qed.

Lemma stk_inv_delete h M s : stk_inv h M -> M !! s = Some [] ->
  stk_inv (SHeap (delete s (stks h)) (nodes h)) (delete s M).
Proof.
  intros I HL. constructor; simpl.
  - intros s'. destruct (decide (s' = s)) as [->|Hne].
    + rewrite !lookup_delete. by split; intros [? ?].
    + rewrite !lookup_delete_ne by done. apply I.
  - intros s' L [Hne H]%lookup_delete_Some. rewrite lookup_delete_ne by done. by apply I.
  - intros s' L [Hne H]%lookup_delete_Some. by apply I with (s := s').
  - intros s1 s2 L1 L2 a [_ H1]%lookup_delete_Some [_ H2]%lookup_delete_Some. by apply I.
  - intros a Ha. destruct (si_all _ _ I a Ha) as (s' & L & HL' & HaL). exists s', L.
    split; [|done]. rewrite lookup_delete_ne; [done|]. intros <-. simplify_eq. by apply elem_of_nil in HaL.
Qed.

Lemma destroy_spec h M s L : stk_inv h M -> M !! s = Some L ->
  exists h', stk_destroy h s = Ret h' /\ stk_inv h' (delete s M) /\
    (forall a, nodes h' !! a = if decide (a ∈ L.*1) then None else nodes h !! a) /\
    stks h' !! s = None.
Proof.
  intros I HL. unfold stk_destroy.
  destruct (destroy_loop_spec (S (size (nodes h))) L h M s I HL) as (h1 & E & I1 & Hs & Hn & _).
  { apply Nat.lt_succ_r. destruct (si_chain _ _ I _ _ HL) as (p & _ & Hc).
    rewrite <- (fmap_length fst L). apply nodup_bound; [by apply (si_nodup _ _ I s)|].
    intros a Ha. by eapply chain_live. }
  rewrite E. rb. rewrite (hfree_Some _ _ _ Hs). rb. eexists. split; [done|].
  split; [|split; [done|simpl; by rewrite lookup_delete]].
  replace (delete s M) with (delete s (<[s := []]> M)) by apply delete_insert_delete.
  apply stk_inv_delete; [done|by rewrite lookup_insert].
Qed.

(** ** Histories.  [G] maps every live stack to its contents, top first, as the
    calls alone imply. *)
Inductive stk_history : sheap -> gmap positive (list ptr) -> Prop :=
| sk_init : stk_history sempty ∅
| sk_create al h G h' s : stk_history h G -> malloc_ok al ->
    stk_create al h = Ret (h', s) -> stk_history h' (<[s := []]> G)
| sk_push al h G h' s l d : stk_history h G -> malloc_ok al -> G !! s = Some l ->
    stk_push al h s d = Ret h' -> stk_history h' (<[s := d :: l]> G)
| sk_pop h G h' s l x : stk_history h G -> G !! s = Some l ->
    stk_pop h s = Ret (h', x) -> stk_history h' (<[s := tail l]> G)
| sk_destroy h G h' s l : stk_history h G -> G !! s = Some l ->
    stk_destroy h s = Ret h' -> stk_history h' (delete s G).

Lemma fmap_tail {A B} (f : A -> B) l : f <$> tail l = tail (f <$> l).
Proof. by destruct l. Qed.

Lemma stk_history_inv h G : stk_history h G ->
  exists M, stk_inv h M /\ G = (fun L => L.*2) <$> M.
Proof.
  induction 1 as [|al h G h' s _ (M & I & ->) Hal E|al h G h' s l d _ (M & I & ->) Hal Hl E
    |h G h' s l x _ (M & I & ->) Hl E|h G h' s l _ (M & I & ->) Hl E].
  - exists ∅. split; [apply stk_inv_empty|]. by rewrite fmap_empty.
  - pose proof (create_spec al h M Hal I) as Hc. unfold stk_create in E. destruct (al (stks h)) as [s0|] eqn:Es; [|done].
    destruct Hc as (h1 & E1 & HM & I1 & _). unfold stk_create in E1. rewrite Es in E1. simplify_eq.
    eexists. split; [done|]. by rewrite fmap_insert.
  - rewrite lookup_fmap in Hl. destruct (M !! s) as [L|] eqn:HL; [|done]. simpl in Hl. simplify_eq.
    pose proof (push_spec al h M s L d Hal I HL) as Hc. destruct (al (nodes h)) as [a|] eqn:Ea.
    + destruct Hc as (h1 & E1 & I1 & _). rewrite E1 in E. simplify_eq. eexists. split; [done|]. by rewrite fmap_insert.
    + rewrite Hc in E. done.
  - rewrite lookup_fmap in Hl. destruct (M !! s) as [L|] eqn:HL; [|done]. simpl in Hl. simplify_eq.
    destruct (pop_spec h M s L I HL) as (h1 & E1 & I1 & _). rewrite E1 in E. simplify_eq.
    eexists. split; [done|]. rewrite fmap_insert. by rewrite fmap_tail.
  - rewrite lookup_fmap in Hl. destruct (M !! s) as [L|] eqn:HL; [|done]. simpl in Hl. simplify_eq.
    destruct (destroy_spec h M s L I HL) as (h1 & E1 & I1 & _). rewrite E1 in E. simplify_eq.
    eexists. split; [done|]. by rewrite fmap_delete.
Qed.

Section any.
  Context (h : sheap) (G : gmap positive (list ptr)) (H : stk_history h G).
  Lemma h_top s l : G !! s = Some l -> stk_top h s = Ret (hd None l).
  Proof.
    destruct (stk_history_inv h G H) as (M & I & ->). rewrite lookup_fmap.
    destruct (M !! s) as [L|] eqn:HL; [|done]. intros [= <-]. rewrite (top_spec h M s L I HL). by destruct L.
  Qed.
  Lemma h_isempty s l : G !! s = Some l -> stk_isempty h s = Ret (if decide (l = []) then 1%Z else 0%Z).
  Proof.
    destruct (stk_history_inv h G H) as (M & I & ->). rewrite lookup_fmap.
    destruct (M !! s) as [L|] eqn:HL; [|done]. intros [= <-]. rewrite (isempty_spec h M s L I HL). by destruct L.
  Qed.
  Lemma h_pop s l : G !! s = Some l -> exists h', stk_pop h s = Ret (h', hd None l).
  Proof.
    destruct (stk_history_inv h G H) as (M & I & ->). rewrite lookup_fmap.
    destruct (M !! s) as [L|] eqn:HL; [|done]. intros [= <-].
    destruct (pop_spec h M s L I HL) as (h1 & E1 & I1 & _). exists h1. rewrite E1. by destruct L.
  Qed.
  Lemma h_push al s l d : malloc_ok al -> G !! s = Some l ->
    match al (nodes h) with None => stk_push al h s d = UB | Some _ => exists h', stk_push al h s d = Ret h' end.
  Proof.
    intros Hal. destruct (stk_history_inv h G H) as (M & I & ->). rewrite lookup_fmap.
    destruct (M !! s) as [L|] eqn:HL; [|done]. intros _.
    pose proof (push_spec al h M s L d Hal I HL) as Hc. destruct (al (nodes h)); [|done].
    destruct Hc as (h' & E & _). eauto.
  Qed.
  Lemma h_create al : malloc_ok al ->
    match al (stks h) with None => stk_create al h = Fatal
    | Some s => G !! s = None /\ exists h', stk_create al h = Ret (h', s) end.
  Proof.
    intros Hal. destruct (stk_history_inv h G H) as (M & I & ->).
    pose proof (create_spec al h M Hal I) as Hc. destruct (al (stks h)); [|done].
    destruct Hc as (h' & E & HM & _). rewrite lookup_fmap, HM. eauto.
  Qed.
  (** destroying frees the stack and as many nodes as it has elements *)
  Lemma h_destroy s l : G !! s = Some l -> exists h', stk_destroy h s = Ret h' /\
    stks h' = delete s (stks h) /\ nodes h' ⊆ nodes h /\ size (nodes h) = size (nodes h') + length l.
  Proof.
    destruct (stk_history_inv h G H) as (M & I & ->). rewrite lookup_fmap.
    destruct (M !! s) as [L|] eqn:HL; [|done]. intros [= <-].
    unfold stk_destroy.
    destruct (si_chain _ _ I _ _ HL) as (p & Hp & Hc).
    assert (Hlive : forall a, a ∈ L.*1 -> is_Some (nodes h !! a)) by (intros a Ha; by eapply chain_live).
    assert (Hnd := si_nodup _ _ I _ _ HL).
    assert (Hloop : forall fuel L h M, stk_inv h M -> M !! s = Some L -> length L < fuel ->
       exists h', stk_destroy_loop fuel h s = Ret h' /\ delete s (stks h') = delete s (stks h)).
    { clear. intros fuel. induction fuel as [|fuel IH]; intros L h M I HL Hf; [lia|]. cbn [stk_destroy_loop].
      rewrite (isempty_spec h M s L I HL). rb. destruct L as [|[a d] L].
      - exists h. done.
      - destruct (pop_spec h M s _ I HL) as (h1 & E & I1 & _). rewrite E. rb. cbn [fst].
        destruct (IH L h1 (<[s := L]> M)) as (h2 & E2 & E3); [done|by rewrite lookup_insert|simpl in Hf; lia|].
        change (0 =? 0)%Z with true. cbn beta iota. exists h2. split; [done|]. rewrite E3.
        unfold stk_pop in E. destruct (hget (stks h) s) as [[a0|]| | | |]; try done; [|by simplify_eq/=].
        cbn [mbind res_bind] in E. destruct (hget (nodes h) a0); try done. cbn [mbind res_bind] in E.
        destruct (hfree (nodes h) a0); try done. cbn [mbind res_bind] in E. simplify_eq. simpl.
        by rewrite delete_insert_delete. }
    assert (Hlen : length L < S (size (nodes h))).
    { apply Nat.lt_succ_r. rewrite <- (fmap_length fst L). by apply nodup_bound. }
    destruct (destroy_loop_spec (S (size (nodes h))) L h M s I HL Hlen) as (h1 & E & I1 & Hs & Hn & _).
    destruct (Hloop _ _ _ _ I HL Hlen) as (h1' & E' & Hst). rewrite E in E'. injection E' as <-.
    rewrite E. rb. rewrite (hfree_Some _ _ _ Hs). rb. eexists. split; [done|]. simpl. split; [done|].
    split.
    - apply map_subseteq_spec. intros a x. rewrite Hn. by destruct (decide _).
    - rewrite fmap_length, <- (fmap_length fst L).
      assert (Hnodes : dom (nodes h) = dom (nodes h1) ∪ list_to_set L.*1).
      { apply set_eq. intros a. rewrite elem_of_union, !elem_of_dom, elem_of_list_to_set, Hn.
        destruct (decide (a ∈ L.*1)) as [Ha|Ha].
        - split; [by right|]. intros _. by apply Hlive.
        - split; [by left|]. by intros [?|?]. }
      rewrite <- !size_dom, Hnodes, size_union.
      + by rewrite size_list_to_set.
      + intros a. rewrite elem_of_dom, elem_of_list_to_set, Hn. intros Ha Ha'.
        rewrite decide_True in Ha by done. by destruct Ha.
  Qed.
  (** no node leaks: when no stack holds an element, no node is allocated *)
  Lemma h_no_leak : (forall s l, G !! s = Some l -> l = []) -> nodes h = ∅.
  Proof.
    destruct (stk_history_inv h G H) as (M & I & ->). intros He. apply map_empty. intros a.
    apply eq_None_not_Some. intros Ha. destruct (si_all _ _ I a Ha) as (s & L & HL & HaL).
    assert (L.*2 = []) as Hnil by (apply (He s); by rewrite lookup_fmap, HL).
    destruct L; [by apply elem_of_nil in HaL|done].
  Qed.
End any.
