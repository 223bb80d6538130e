(** Histories of string memory calls. *)
From Verif Require Import Base CStr StackModel StackProofs ObjModel ObjProofs MemModel MemProofs.
Local Open Scope Z_scope.
Implicit Types (w : mworld) (G : gmap positive sgh).

(** the statistics are ints: room for one more string of [n] bytes *)
Definition room (g : sgh) (n : Z) : Prop :=
  Z.of_nat (length (s_done g)) + 1 < 2 ^ 31 /\ s_bytes g + n < 2 ^ 31.
Definition stored (g : sgh) (a : positive) (b : list N) (n : Z) : sgh :=
  SG (s_done g ++ [(a, b)]) [] (s_bytes g + n).
Definition grown (g : sgh) (b : list N) (n : Z) : sgh := SG (s_done g) (s_cur g ++ b) (s_bytes g + n).

(** Any number of string objects, any interleaving of the calls, any allocator
    that never fails for a stack node (stk_push does not check). *)
Inductive str_history : mworld -> gmap positive sgh -> Prop :=
| sh_init : str_history mempty ∅
| sh_create al w G w' i : str_history w G -> malloc_good al ->
    mem_create_strings al w = Ret (w', i) -> str_history w' (<[i := SG [] [] 0]> G)
| sh_strcpy al w G i g s rest w' a : str_history w G -> malloc_good al -> nodes_ok al -> G !! i = Some g ->
    str_ok s -> room g (Z.of_nat (length s) + 1) ->
    mem_strcpy al w i (s ++ 0%N :: rest) = Ret (w', a) ->
    str_history w' (<[i := stored g a (s ++ [0%N]) (Z.of_nat (length s) + 1)]> G)
| sh_strncpy al w G i g src len w' a : str_history w G -> malloc_good al -> nodes_ok al -> G !! i = Some g ->
    0 <= len < Z.of_nat (length src) -> room g (len + 1) ->
    mem_strncpy al w i src len = Ret (w', a) ->
    str_history w' (<[i := stored g a (take (Z.to_nat len + 1) src) (len + 1)]> G)
| sh_grow al w G i g src len w' : str_history w G -> malloc_good al -> nodes_ok al -> G !! i = Some g ->
    0 <= len <= Z.of_nat (length src) -> room g len ->
    mem_grow al w i src len = Ret w' ->
    str_history w' (<[i := grown g (take (Z.to_nat len) src) len]> G)
| sh_finish al w G i g w' a : str_history w G -> malloc_good al -> nodes_ok al -> G !! i = Some g ->
    room g 1 -> mem_finish al w i = Ret (w', Some a) ->
    str_history w' (<[i := stored g a (s_cur g ++ [0%N]) 1]> G)
| sh_destroy w G i g w' : str_history w G -> G !! i = Some g ->
    mem_destroy_strings w i = Ret w' -> str_history w' (delete i G).

Definition sane G : Prop := forall i g, G !! i = Some g -> 0 <= s_bytes g /\ Z.of_nat (length (s_cur g)) <= s_bytes g.
Lemma sane_insert G i g : sane G -> 0 <= s_bytes g /\ Z.of_nat (length (s_cur g)) <= s_bytes g -> sane (<[i := g]> G).
Proof.
  intros H Hg j g2. destruct (decide (j = i)) as [->|Hne].
  - rewrite lookup_insert. by intros [= <-].
  - rewrite lookup_insert_ne by done. apply H.
Qed.

Lemma str_history_inv w G : str_history w G -> (exists M, minv w G M) /\ sane G.
Proof.
  induction 1 as [|al w G w' i _ [[M I] S] Hal E
    |al w G i g s rest w' a _ [[M I] S] Hal Hn Hi Hs [H1 H2] E
    |al w G i g src len w' a _ [[M I] S] Hal Hn Hi Hl [H1 H2] E
    |al w G i g src len w' _ [[M I] S] Hal Hn Hi Hl [H1 H2] E
    |al w G i g w' a _ [[M I] S] Hal Hn Hi [H1 H2] E
    |w G i g w' _ [[M I] S] Hi E].
  - split; [exists ∅; apply minv_empty|]. intros i g. by rewrite lookup_empty.
  - pose proof (create_str_spec al w G M I Hal) as Hc. rewrite E in Hc. simpl in Hc.
    destruct Hc as (M' & _ & I' & _). split; [eauto|]. apply sane_insert; [done|]. simpl. lia.
  - destruct (S i g Hi) as [S1 S2].
    pose proof (strcpy_spec al w G M i g s rest I Hal Hn Hi Hs H1 S1 ltac:(lia)) as Hc. rewrite E in Hc. simpl in Hc.
    destruct Hc as (M' & I' & _). rewrite <- Z.add_assoc in I'. split; [eauto|]. apply sane_insert; [done|]. simpl. lia.
  - destruct (S i g Hi) as [S1 S2].
    pose proof (strncpy_spec al w G M i g src len I Hal Hn Hi ltac:(lia) H1 S1 ltac:(lia) ltac:(lia)) as Hc. rewrite E in Hc. simpl in Hc.
    destruct Hc as (M' & I' & _). rewrite <- Z.add_assoc in I'. split; [eauto|]. apply sane_insert; [done|]. simpl. lia.
  - destruct (S i g Hi) as [S1 S2].
    pose proof (grow_spec al w G M i g src len I Hal Hn Hi Hl S1 H2 S2) as Hc. rewrite E in Hc. simpl in Hc.
    destruct Hc as (M' & x & a & I' & _). split; [eauto|]. apply sane_insert; [done|].
    cbn [grown s_bytes s_cur]. rewrite app_length, take_length. lia.
  - destruct (S i g Hi) as [S1 S2].
    pose proof (finish_spec al w G M i g I Hal Hn Hi H1 S1 H2 S2) as Hc. rewrite E in Hc. simpl in Hc.
    destruct Hc as (M' & a' & [= <-] & I'). split; [eauto|]. apply sane_insert; [done|]. simpl. lia.
  - destruct (destroy_str_spec w G M i g I Hi) as (w1 & M' & E1 & I' & _).
    rewrite E1 in E. injection E as <-. split; [eauto|]. intros j g2 [_ Hj]%lookup_delete_Some. by apply (S j).
Qed.

(** a run of mem_grow calls *)
Fixpoint grow_all (w : mworld) (i : positive) (l : list (malloc * list N * Z)) : res mworld :=
  match l with
  | [] => Ret w
  | (al, src, len) :: l => w1 ← mem_grow al w i src len; grow_all w1 i l
  end.
(** the bytes such a run appends *)
Definition pieces (l : list (malloc * list N * Z)) : list N :=
  concat ((fun '(_, src, len) => take (Z.to_nat len) src) <$> l).
Definition total (l : list (malloc * list N * Z)) : Z := foldr (fun '(_, _, len) acc => len + acc) 0 l.
Definition run_ok (l : list (malloc * list N * Z)) : Prop :=
  Forall (fun '(al, src, len) => malloc_good al /\ nodes_ok al /\ 0 <= len <= Z.of_nat (length src)) l.

Lemma total_nonneg l : run_ok l -> 0 <= total l.
Proof. induction 1 as [|[[al src] len] l (_ & _ & H) _ IH]; simpl; lia. Qed.

Section any.
Context (w : mworld) (G : gmap positive sgh) (H : str_history w G).

Lemma sh_done i g p b : G !! i = Some g -> (p, b) ∈ s_done g -> mblk w !! p = Some b.
Proof.
  destruct (str_history_inv w G H) as [[M I] S]. intros Hi Hp.
  destruct (mi_info _ _ _ I i g Hi) as (x & L & Hx & HL & Hok). by apply Hok.
Qed.
Lemma sh_distinct i j g g2 p b b2 : G !! i = Some g -> G !! j = Some g2 ->
  (p, b) ∈ s_done g -> (p, b2) ∈ s_done g2 -> i = j.
Proof.
  destruct (str_history_inv w G H) as [[M I] S]. intros Hi Hj Hp Hp2.
  destruct (mi_info _ _ _ I i g Hi) as (x & L & Hx & HL & Hok).
  destruct (mi_info _ _ _ I j g2 Hj) as (y & L2 & Hy & HL2 & Hok2).
  apply (mi_stkdisj _ _ _ I i j x y Hx Hy).
  apply (mi_blkdisj _ _ _ I _ _ L L2 p HL HL2); [by eapply Hok|by eapply Hok2].
Qed.
Lemma sh_nodup i g : G !! i = Some g -> NoDup (s_done g).*1.
Proof.
  destruct (str_history_inv w G H) as [[M I] S]. intros Hi.
  destruct (mi_info _ _ _ I i g Hi) as (x & L & Hx & HL & Hok). by apply Hok.
Qed.
Lemma sh_stats i g : G !! i = Some g ->
  mem_get_string_stats true w (Some i) = Ret (Z.of_nat (length (s_done g)), s_bytes g).
Proof.
  destruct (str_history_inv w G H) as [[M I] S]. intros Hi.
  destruct (mi_info _ _ _ I i g Hi) as (x & L & Hx & HL & Hok). unfold mem_get_string_stats.
  rewrite (hget_Some _ _ _ Hx). rb. by rewrite (so_count _ _ _ _ Hok), (so_bytes _ _ _ _ Hok).
Qed.

Lemma sh_create_ok al : malloc_good al ->
  ok (fun '(w', i) => G !! i = None /\ str_history w' (<[i := SG [] [] 0]> G))
     (m_info al (minf w) = None \/ m_stk al (stks (msh w)) = None) (mem_create_strings al w).
Proof.
  destruct (str_history_inv w G H) as [[M I] S]. intros Hal.
  pose proof (create_str_spec al w G M I Hal) as Hc.
  destruct (mem_create_strings al w) as [[w' i]| | | |] eqn:E; simpl in *; try done.
  destruct Hc as (M' & HG & _). split; [done|]. by eapply sh_create.
Qed.

Lemma sh_strcpy_ok al i g s rest : malloc_good al -> nodes_ok al -> G !! i = Some g -> str_ok s ->
  room g (Z.of_nat (length s) + 1) ->
  ok (fun '(w', a) => str_history w' (<[i := stored g a (s ++ [0%N]) (Z.of_nat (length s) + 1)]> G) /\
        mblk w !! a = None /\ mblk w' = <[a := s ++ [0%N]]> (mblk w))
     (may_fail al) (mem_strcpy al w i (s ++ 0%N :: rest)).
Proof.
  destruct (str_history_inv w G H) as [[M I] S]. intros Hal Hn Hi Hs Hr.
  pose proof (strcpy_spec al w G M i g s rest I Hal Hn Hi Hs (proj1 Hr) (proj1 (S i g Hi)) ltac:(destruct Hr; lia)) as Hc.
  destruct (mem_strcpy _ _ _ _) as [[w' a]| | | |] eqn:E; simpl in *; try done.
  destruct Hc as (M' & _ & HG). split; [|done]. by eapply sh_strcpy.
Qed.

Lemma sh_strncpy_ok al i g src len : malloc_good al -> nodes_ok al -> G !! i = Some g ->
  0 <= len < Z.of_nat (length src) -> room g (len + 1) ->
  ok (fun '(w', a) => str_history w' (<[i := stored g a (take (Z.to_nat len + 1) src) (len + 1)]> G) /\
        mblk w !! a = None /\ mblk w' = <[a := take (Z.to_nat len + 1) src]> (mblk w))
     (may_fail al) (mem_strncpy al w i src len).
Proof.
  destruct (str_history_inv w G H) as [[M I] S]. intros Hal Hn Hi Hs Hr.
  pose proof (strncpy_spec al w G M i g src len I Hal Hn Hi ltac:(lia) (proj1 Hr) (proj1 (S i g Hi)) ltac:(destruct Hr; lia) ltac:(lia)) as Hc.
  destruct (mem_strncpy _ _ _ _ _) as [[w' a]| | | |] eqn:E; simpl in *; try done.
  destruct Hc as (M' & _ & HG). split; [|done]. by eapply sh_strncpy.
Qed.
Lemma sh_overread al i g src len : malloc_good al -> G !! i = Some g -> 0 <= len < 2 ^ 31 - 1 ->
  Z.of_nat (length src) <= len -> ~ may_fail al -> mem_strncpy al w i src len = UB.
Proof. destruct (str_history_inv w G H) as [[M I] S]. intros. by eapply strncpy_overread. Qed.

Lemma sh_grow_ok al i g src len : malloc_good al -> nodes_ok al -> G !! i = Some g ->
  0 <= len <= Z.of_nat (length src) -> room g len ->
  ok (fun w' => str_history w' (<[i := grown g (take (Z.to_nat len) src) len]> G))
     (may_fail al) (mem_grow al w i src len).
Proof.
  destruct (str_history_inv w G H) as [[M I] S]. intros Hal Hn Hi Hs Hr. destruct (S i g Hi) as [S1 S2].
  pose proof (grow_spec al w G M i g src len I Hal Hn Hi Hs S1 (proj2 Hr) S2) as Hc.
  destruct (mem_grow _ _ _ _ _) as [w'| | | |] eqn:E; simpl in *; try done. by eapply sh_grow.
Qed.
Lemma sh_finish_ok al i g : malloc_good al -> nodes_ok al -> G !! i = Some g -> room g 1 ->
  ok (fun '(w', p) => exists a, p = Some a /\ str_history w' (<[i := stored g a (s_cur g ++ [0%N]) 1]> G))
     (may_fail al) (mem_finish al w i).
Proof.
  destruct (str_history_inv w G H) as [[M I] S]. intros Hal Hn Hi Hr. destruct (S i g Hi) as [S1 S2].
  pose proof (finish_spec al w G M i g I Hal Hn Hi (proj1 Hr) S1 (proj2 Hr) S2) as Hc.
  destruct (mem_finish _ _ _) as [[w' p]| | | |] eqn:E; simpl in *; try done.
  destruct Hc as (M' & a & -> & _). exists a. split; [done|]. by eapply sh_finish.
Qed.
Lemma sh_destroy_ok i g : G !! i = Some g ->
  exists w', mem_destroy_strings w i = Ret w' /\ str_history w' (delete i G) /\
    minf w' = delete i (minf w) /\ (forall p b, (p, b) ∈ s_done g -> mblk w' !! p = None) /\
    (forall j g2 p b, j <> i -> G !! j = Some g2 -> (p, b) ∈ s_done g2 -> mblk w' !! p = Some b).
Proof.
  destruct (str_history_inv w G H) as [[M I] S]. intros Hi.
  destruct (destroy_str_spec w G M i g I Hi) as (w1 & M' & E1 & I' & Hb & Hd & _).
  exists w1. split; [done|]. split; [by eapply sh_destroy|]. split; [done|]. split; [done|].
  intros j g2 p b Hj Hg2 Hp. destruct (mi_info _ _ _ I' j g2) as (x & L & Hx & HL & Hok); [by rewrite lookup_delete_ne|].
  by apply Hok.
Qed.
Lemma sh_no_leak : G = ∅ -> mblk w = ∅ /\ minf w = ∅ /\ stks (msh w) = ∅ /\ nodes (msh w) = ∅.
Proof.
  intros HG. destruct (str_history_inv w G H) as [[M I] S]. subst G.
  assert (Hinf : minf w = ∅).
  { apply map_empty. intros i. apply eq_None_not_Some. rewrite (mi_dom _ _ _ I), lookup_empty. by intros [? ?]. }
  assert (HM : forall s, M !! s = None).
  { intros s. apply eq_None_not_Some. intros Hs. destruct (mi_stkall _ _ _ I s Hs) as (i & x & Hx & _).
    by rewrite Hinf, lookup_empty in Hx. }
  repeat split; try done.
  - apply map_empty. intros a. apply eq_None_not_Some. intros Ha.
    destruct (mi_blkall _ _ _ I a Ha) as (s & L & HL & _). by rewrite HM in HL.
  - apply map_empty. intros s. apply eq_None_not_Some. rewrite (si_dom _ _ (mi_stk _ _ _ I)), HM. by intros [? ?].
  - apply map_empty. intros a. apply eq_None_not_Some. intros Ha.
    destruct (si_all _ _ (mi_stk _ _ _ I) a Ha) as (s & L & HL & _). by rewrite HM in HL.
Qed.
End any.

Lemma sh_grow_all l : forall w G i g, str_history w G -> run_ok l -> G !! i = Some g ->
  room g (total l) ->
  ok (fun w' => str_history w' (<[i := SG (s_done g) (s_cur g ++ pieces l) (s_bytes g + total l)]> G))
     (exists al src len, (al, src, len) ∈ l /\ may_fail al) (grow_all w i l).
Proof.
  induction l as [|[[al src] len] l IH]; intros w G i g H Hl Hi Hr.
  - simpl. unfold pieces. simpl. rewrite app_nil_r, Z.add_0_r. destruct g. simpl. by rewrite insert_id.
  - apply Forall_cons in Hl as [(Hal & Hn & Hlen) Hl]. cbn [grow_all]. simpl in Hr.
    pose proof (total_nonneg l Hl). destruct Hr as [Hr1 Hr2].
    eapply ok_bind.
    + eapply ok_mono; [apply (sh_grow_ok w G H al i g src len); try done; split; [done|lia]| |].
      * intros w1 Hw1. exact Hw1.
      * intros Hf. exists al, src, len. split; [left|done].
    + intros w1 H1. cbv beta. eapply ok_mono; [apply (IH w1 _ i _ H1 Hl (lookup_insert _ _ _)); split; cbn [grown s_done s_bytes]; [done|lia]| |].
      * intros w2. rewrite insert_insert. cbn [grown s_done s_cur s_bytes]. unfold pieces. rewrite fmap_cons.
        cbn [concat total foldr]. rewrite app_assoc, Z.add_assoc. done.
      * intros (al2 & src2 & len2 & Hin & Hf). exists al2, src2, len2. split; [by right|done].
Qed.
Lemma sh_grow_finish al l w G i g : str_history w G -> run_ok l -> malloc_good al -> nodes_ok al -> G !! i = Some g ->
  room g (total l + 1) -> s_cur g = [] ->
  ok (fun '(w', p) => exists a, p = Some a /\ mblk w' !! a = Some (pieces l ++ [0%N]) /\
        str_history w' (<[i := stored g a (pieces l ++ [0%N]) (total l + 1)]> G))
     (exists al2, may_fail al2 /\ (al2 = al \/ exists src len, (al2, src, len) ∈ l))
     (w1 ← grow_all w i l; mem_finish al w1 i).
Proof.
  intros H Hl Hal Hn Hi [Hr1 Hr2] Hcur. pose proof (total_nonneg l Hl).
  eapply ok_bind.
  - eapply ok_mono; [apply (sh_grow_all l w G i g H Hl Hi); split; [done|lia]| |].
    + intros w1 Hw1. exact Hw1.
    + intros (al2 & src & len & Hin & Hf). exists al2. split; [done|]. right. eauto.
  - intros w1 H1. cbv beta. eapply ok_mono; [apply (sh_finish_ok w1 _ H1 al i _ Hal Hn (lookup_insert _ _ _)); split; cbn [s_done s_bytes]; [done|lia]| |].
    + intros [w2 p] (a & -> & H2). rewrite insert_insert in H2. cbn [s_cur] in H2. rewrite Hcur, app_nil_l in H2.
      unfold stored in *. cbn [s_done s_bytes] in H2. rewrite <- Z.add_assoc in H2.
      exists a. split; [done|]. split; [|done]. eapply (sh_done w2 _ H2 i _ a); [apply lookup_insert|].
      cbn [s_done]. apply elem_of_app. right. left.
    + intros Hf. exists al. auto.
Qed.
