(** Proofs about the string memory of memory.c. *)
From Verif Require Import Base CStr StackModel StackProofs ObjModel ObjProofs MemModel.
Local Open Scope Z_scope.

(** What the calls made imply: the strings handed out (address, bytes), oldest
    first; the bytes grown since the last finished or copied string; the bytes
    requested. *)
Record sgh := SG { s_done : list (positive * list N); s_cur : list N; s_bytes : Z }.

Implicit Types (w : mworld) (G : gmap positive sgh) (M : gmap positive (list (positive * ptr))).

Record malloc_good (al : malloc) : Prop := {
  mg_info : malloc_ok (m_info al);
  mg_stk : malloc_ok (m_stk al);
  mg_node : malloc_ok (m_node al);
  mg_blk : forall n h a b, m_blk al n h = Some (a, b) -> h !! a = None /\ length b = N.to_nat n }.
(** stk_push does not check malloc *)
Definition nodes_ok (al : malloc) : Prop := forall h, m_node al h <> None.
Definition may_fail (al : malloc) : Prop := exists n h, m_blk al n h = None.

Record sinfo_ok (x : sinfo) (g : sgh) (L : list (positive * ptr)) (bl : gmap positive (list N)) : Prop := {
  so_all : exists A, L.*2 = Some <$> A /\ NoDup A /\ (forall a, a ∈ A -> is_Some (bl !! a));
  so_cur : s_cur g <> [] -> exists n a L', L = (n, Some a) :: L' /\ bl !! a = Some (s_cur g) /\
              forall p b, (p, b) ∈ s_done g -> Some p ∈ L'.*2;
  so_done : forall p b, (p, b) ∈ s_done g -> Some p ∈ L.*2 /\ bl !! p = Some b;
  so_nodup : NoDup (s_done g).*1;
  so_count : count x = Z.of_nat (length (s_done g));
  so_bytes : bytes x = s_bytes g;
  so_growing : growing x = Z.of_nat (length (s_cur g)) }.

Record minv w G M : Prop := {
  mi_stk : stk_inv (msh w) M;
  mi_dom : forall i, is_Some (minf w !! i) <-> is_Some (G !! i);
  mi_info : forall i g, G !! i = Some g -> exists x L, minf w !! i = Some x /\
      M !! sallocated x = Some L /\ sinfo_ok x g L (mblk w);
  mi_stkdisj : forall i j x y, minf w !! i = Some x -> minf w !! j = Some y ->
      sallocated x = sallocated y -> i = j;
  mi_stkall : forall s, is_Some (M !! s) -> exists i x, minf w !! i = Some x /\ s = sallocated x;
  mi_blkdisj : forall s s' L L' a, M !! s = Some L -> M !! s' = Some L' ->
      Some a ∈ L.*2 -> Some a ∈ L'.*2 -> s = s';
  mi_blkall : forall a, is_Some (mblk w !! a) -> exists s L, M !! s = Some L /\ Some a ∈ L.*2;
  mi_blklive : forall s L a, M !! s = Some L -> Some a ∈ L.*2 -> is_Some (mblk w !! a) }.

Lemma minv_empty : minv mempty ∅ ∅.
Proof.
  constructor; unfold mempty; simpl.
  - apply stk_inv_empty.
  - intros i. rewrite !lookup_empty. by split; intros [? ?].
  - intros i g. by rewrite lookup_empty.
  - intros i j x y H. by rewrite lookup_empty in H.
  - intros s. rewrite lookup_empty. by intros [? ?].
  - intros s s' L L' a H. by rewrite lookup_empty in H.
  - intros a. rewrite lookup_empty. by intros [? ?].
  - intros s L a H. by rewrite lookup_empty in H.
Qed.

Lemma sinfo_ok_frame x g L bl bl' : (forall a, Some a ∈ L.*2 -> bl' !! a = bl !! a) ->
  sinfo_ok x g L bl -> sinfo_ok x g L bl'.
Proof.
  intros Hf [(A & HA & Hnd & Hl) Hc Hd H1 H2 H3 H4]. constructor; try done.
  - exists A. split; [done|]. split; [done|]. intros a Ha. rewrite Hf; [auto|]. rewrite HA. apply elem_of_list_fmap. eauto.
  - intros Hne. destruct (Hc Hne) as (n & a & L' & -> & Ha & Hp). exists n, a, L'. split; [done|].
    rewrite Hf by (left). done.
  - intros p b Hp. destruct (Hd p b Hp) as [Hp1 Hp2]. split; [done|]. by rewrite Hf.
Qed.

(** replacing the top of the stack of one info object, or adding to it *)
Lemma minv_update w G M i g x L w' M' g' x' L' :
  minv w G M -> G !! i = Some g -> minf w !! i = Some x -> M !! sallocated x = Some L ->
  sallocated x' = sallocated x -> minf w' = <[i := x']> (minf w) ->
  stk_inv (msh w') M' ->
  M' = <[sallocated x := L']> M ->
  sinfo_ok x' g' L' (mblk w') ->
  (forall a, Some a ∈ L'.*2 -> Some a ∈ L.*2 \/ mblk w !! a = None) ->
  (forall a, Some a ∉ L.*2 -> Some a ∉ L'.*2 -> mblk w' !! a = mblk w !! a) ->
  (forall a, Some a ∉ L'.*2 -> Some a ∈ L.*2 -> mblk w' !! a = None) ->
  minv w' (<[i := g']> G) M'.
Proof.
  intros I Hi Hx HL Hs Hinf Hstk -> Hok Hnew Hsame Hgone.
  assert (Hout : forall s L2 a, s <> sallocated x -> M !! s = Some L2 -> Some a ∈ L2.*2 ->
     Some a ∉ L.*2 /\ Some a ∉ L'.*2).
  { intros s L2 a Hne HL2 Ha. assert (Some a ∉ L.*2) as Hn.
    { intros Ha'. apply Hne. by apply (mi_blkdisj _ _ _ I s (sallocated x) L2 L a). }
    split; [done|]. intros Ha'. destruct (Hnew a Ha') as [|Hnone]; [done|].
    destruct (mi_blklive _ _ _ I s L2 a HL2 Ha). congruence. }
  assert (Hstkne : forall j y, j <> i -> minf w !! j = Some y -> sallocated y <> sallocated x).
  { intros j y Hj Hy Heq. apply Hj. by apply (mi_stkdisj _ _ _ I j i y x). }
  constructor.
  - done.
  - intros j. rewrite Hinf. destruct (decide (j = i)) as [->|Hne].
    + rewrite !lookup_insert. split; eauto.
    + rewrite !lookup_insert_ne by done. apply I.
  - intros j g2. rewrite Hinf. destruct (decide (j = i)) as [->|Hne].
    + rewrite !lookup_insert. intros [= <-]. exists x', L'. rewrite Hs, lookup_insert. done.
    + rewrite !lookup_insert_ne by done. intros Hj. destruct (mi_info _ _ _ I j g2 Hj) as (y & L2 & Hy & HL2 & Hok2).
      exists y, L2. split; [done|]. assert (sallocated y <> sallocated x) as Hd by eauto.
      rewrite lookup_insert_ne by done. split; [done|].
      eapply sinfo_ok_frame; [|exact Hok2]. intros a Ha. destruct (Hout _ _ a Hd HL2 Ha). auto.
  - assert (Hget : forall j y, minf w' !! j = Some y -> exists y0, minf w !! j = Some y0 /\ sallocated y = sallocated y0).
    { intros j y. rewrite Hinf. destruct (decide (j = i)) as [->|Hne].
      - rewrite lookup_insert. intros [= <-]. eauto.
      - rewrite lookup_insert_ne by done. eauto. }
    intros j k y z Hy Hz. apply Hget in Hy as (y0 & Hy & ->). apply Hget in Hz as (z0 & Hz & ->). by apply I.
  - intros s HsM. destruct (decide (s = sallocated x)) as [->|Hd].
    + exists i, x'. rewrite Hinf, lookup_insert. done.
    + rewrite lookup_insert_ne in HsM by done. destruct (mi_stkall _ _ _ I s HsM) as (j & y & Hy & ->).
      exists j, y. rewrite Hinf, lookup_insert_ne by congruence. done.
  - intros s s' L1 L2 a. destruct (decide (s = sallocated x)) as [->|H1]; destruct (decide (s' = sallocated x)) as [->|H2];
      rewrite ?lookup_insert, ?lookup_insert_ne by done.
    + done.
    + intros [= <-] HL2 Ha Ha2. destruct (Hout _ _ a H2 HL2 Ha2). done.
    + intros HL1 [= <-] Ha Ha2. destruct (Hout _ _ a H1 HL1 Ha). done.
    + apply I.
  - intros a Ha. destruct (decide (Some a ∈ L'.*2)) as [H|H].
    + exists (sallocated x), L'. by rewrite lookup_insert.
    + destruct (decide (Some a ∈ L.*2)) as [H2|H2]; [rewrite Hgone in Ha by done; by destruct Ha|].
      rewrite Hsame in Ha by done. destruct (mi_blkall _ _ _ I a Ha) as (s & L2 & HL2 & Ha2).
      exists s, L2. rewrite lookup_insert_ne; [done|]. intros <-. congruence.
  - intros s L2 a. destruct (decide (s = sallocated x)) as [->|Hne].
    + rewrite lookup_insert. intros [= <-] Ha. destruct (so_all _ _ _ _ Hok) as (A & HA & _ & Hl).
      apply Hl. rewrite HA in Ha. apply elem_of_list_fmap in Ha as (b & [= ->] & Hb). done.
    + rewrite lookup_insert_ne by done. intros HL2 Ha. destruct (Hout _ _ a Hne HL2 Ha). rewrite Hsame by done.
      by apply (mi_blklive _ _ _ I s L2).
Qed.

Lemma sint_ok z : 0 <= z < 2 ^ 31 -> sint z = Ret z.
Proof.
  intros Hz. unfold sint, int_range, INT_MIN, INT_MAX.
  rewrite (proj2 (Bool.andb_true_iff (- 2 ^ 31 <=? z) _)) by (split; apply Z.leb_le; lia). done.
Qed.
Lemma size_t_ok z : 0 <= z < 2 ^ 64 -> N.to_nat (size_t z) = Z.to_nat z.
Proof. intros Hz. unfold size_t. rewrite Z.mod_small by lia. lia. Qed.

Lemma c_string_full s rest : str_ok s -> c_string (s ++ 0%N :: rest) = Ret s.
Proof. apply c_string_spec. Qed.

Lemma memcpy_whole dst src n : length dst = n -> (n <= length src)%nat ->
  c_memcpy dst 0 src n = Ret (take n src).
Proof.
  intros Hd Hs. unfold c_memcpy. rewrite (proj2 (Nat.leb_le n (length src))) by done.
  rewrite (proj2 (Nat.leb_le (0 + n) (length dst))) by lia. cbn [andb].
  rewrite take_0, app_nil_l, drop_ge, app_nil_r by lia. done.
Qed.

Lemma to_int_small z : - 2 ^ 31 <= z < 2 ^ 31 -> to_int z = z.
Proof. intros Hz. unfold to_int. rewrite Z.mod_small; lia. Qed.

(** a new block on top *)
Lemma add_top al w G M i g x L a b g' x' bl :
  minv w G M -> malloc_good al -> nodes_ok al ->
  G !! i = Some g -> minf w !! i = Some x -> M !! sallocated x = Some L ->
  mblk w !! a = None -> bl = <[a := b]> (mblk w) ->
  sallocated x' = sallocated x ->
  (forall n, sinfo_ok x' g' ((n, Some a) :: L) bl) ->
  exists h M', stk_push (m_node al) (msh w) (sallocated x) (Some a) = Ret h /\
    minv (MW h bl (<[i := x']> (minf w))) (<[i := g']> G) M' /\
    stk_top h (sallocated x) = Ret (Some a).
Proof.
  intros I Hal Hnodes Hi Hx HL Ha -> Hs Hok.
  pose proof (push_spec (m_node al) (msh w) M (sallocated x) L (Some a) (mg_node _ Hal) (mi_stk _ _ _ I) HL) as Hp.
  destruct (m_node al (nodes (msh w))) as [nd|] eqn:En; [|by apply Hnodes in En].
  destruct Hp as (h & E & I2 & _ & _). exists h, (<[sallocated x := (nd, Some a) :: L]> M).
  split; [done|]. split; [|rewrite (top_spec _ _ _ _ I2 (lookup_insert _ _ _)); done].
  assert (Hna : Some a ∉ L.*2).
  { intros H. destruct (mi_blklive _ _ _ I _ _ _ HL H). congruence. }
  eapply minv_update with (x' := x') (L' := (nd, Some a) :: L); try done; simpl.
  - intros c. rewrite elem_of_cons. intros [[= ->]|H]; auto.
  - intros c H1 H2. rewrite lookup_insert_ne; [done|]. intros <-. apply H2. left.
  - intros c H1 H2. exfalso. apply H1. by right.
Qed.

Lemma live_of_list (L : list (positive * ptr)) A a : L.*2 = Some <$> A -> Some a ∈ L.*2 <-> a ∈ A.
Proof.
  intros ->. rewrite elem_of_list_fmap. split; [intros (b & [= ->] & H); done|eauto].
Qed.

(** a finished string [b] in a new block on top *)
Lemma sinfo_ok_push x g L bl a b n c by' : sinfo_ok x g L bl -> bl !! a = None ->
  (forall a, Some a ∈ L.*2 -> is_Some (bl !! a)) ->
  c = count x + 1 -> 
  sinfo_ok (SInfo c by' 0 (sallocated x)) (SG (s_done g ++ [(a, b)]) [] by') ((n, Some a) :: L) (<[a := b]> bl).
Proof.
  intros [(A & HA & Hnd & Hl) Hc Hd H1 H2 H3 H4] Ha Hlive ->.
  assert (Hna : Some a ∉ L.*2) by (intros H; destruct (Hlive a H); congruence).
  constructor; cbn [s_done s_cur s_bytes count bytes growing]; try done.
  - exists (a :: A). split; [rewrite !fmap_cons, HA; done|]. split.
    + constructor; [|done]. intros H. apply Hna. by apply (live_of_list L A).
    + intros c Hc'. destruct (decide (c = a)) as [->|Hne]; [rewrite lookup_insert; eauto|].
      rewrite lookup_insert_ne by done. apply elem_of_cons in Hc' as [?|?]; [done|auto].
  - intros p b'. rewrite elem_of_app, elem_of_list_singleton. intros [Hp|[= -> ->]].
    + destruct (Hd p b' Hp) as [Hp1 Hp2]. split; [right; done|]. rewrite lookup_insert_ne; [done|]. by intros ->.
    + rewrite lookup_insert. split; [left|done].
  - rewrite fmap_app. apply NoDup_app. split; [done|]. split; [|apply NoDup_singleton].
    intros p Hp Hp2. cbn in Hp2. apply elem_of_list_singleton in Hp2. subst p.
    apply elem_of_list_fmap in Hp as ([p b'] & -> & Hp). destruct (Hd p b' Hp). done.
  - rewrite app_length. simpl. lia.
Qed.

Lemma info_live w G M i g x L : minv w G M -> G !! i = Some g -> minf w !! i = Some x ->
  M !! sallocated x = Some L -> sinfo_ok x g L (mblk w).
Proof.
  intros I Hi Hx HL. destruct (mi_info _ _ _ I i g Hi) as (x0 & L0 & Hx0 & HL0 & Hok).
  rewrite Hx in Hx0. injection Hx0 as <-. rewrite HL in HL0. injection HL0 as <-. done.
Qed.

Lemma strcpy_spec al w G M i g s rest : minv w G M -> malloc_good al -> nodes_ok al ->
  G !! i = Some g -> str_ok s -> Z.of_nat (length (s_done g)) + 1 < 2 ^ 31 ->
  0 <= s_bytes g -> s_bytes g + Z.of_nat (length s) + 1 < 2 ^ 31 ->
  ok (fun '(w', a) => exists M', minv w' (<[i := SG (s_done g ++ [(a, s ++ [0%N])]) [] (s_bytes g + Z.of_nat (length s) + 1)]> G) M'
       /\ mblk w !! a = None /\ mblk w' = <[a := s ++ [0%N]]> (mblk w))
     (may_fail al) (mem_strcpy al w i (s ++ 0%N :: rest)).
Proof.
  intros I Hal Hn Hi Hs Hc Hb0 Hb. unfold mem_strcpy. rewrite c_string_spec by done. rb.
  destruct (mi_info _ _ _ I i g Hi) as (x & L & Hx & HL & Hok). rewrite (hget_Some _ _ _ Hx). rb.
  rewrite (so_count _ _ _ _ Hok), (so_bytes _ _ _ _ Hok).
  assert (Hti : to_int (Z.of_nat (length s)) = Z.of_nat (length s)) by (apply to_int_small; lia).
  rewrite Hti. rewrite sint_ok by lia. rb. rewrite sint_ok by lia. rb. rewrite sint_ok by lia. rb.
  unfold xstrdup, xmalloc. rewrite c_string_spec by done. rb.
  destruct (m_blk al (N.of_nat (length s + 1)) (mblk w)) as [[a junk]|] eqn:Ea; [|do 2 eexists; exact Ea].
  apply (mg_blk _ Hal) in Ea as [Ha Hlen]. rb.
  rewrite (hget_Some _ _ junk) by apply lookup_insert. rb.
  rewrite memcpy_whole; [|rewrite Hlen; lia|rewrite app_length; simpl; lia]. rb.
  rewrite insert_insert.
  replace (take (length s + 1) (s ++ 0%N :: rest)) with (s ++ [0%N])
    by (rewrite firstn_app_2; done).
  destruct (add_top al w G M i g x L a (s ++ [0%N]) (SG (s_done g ++ [(a, s ++ [0%N])]) [] (s_bytes g + (Z.of_nat (length s) + 1)))
     (SInfo (Z.of_nat (length (s_done g)) + 1) (s_bytes g + (Z.of_nat (length s) + 1)) 0 (sallocated x)) _
     I Hal Hn Hi Hx HL Ha eq_refl eq_refl) as (h & M' & E & I' & _).
  { intros n. apply (sinfo_ok_push x g L (mblk w)); try done.
    - intros c Hcc. by apply (mi_blklive _ _ _ I (sallocated x) L).
    - by rewrite (so_count _ _ _ _ Hok). }
  rewrite E. rb. simpl. exists M'. split; [|done].
  replace (s_bytes g + (Z.of_nat (length s) + 1)) with (s_bytes g + Z.of_nat (length s) + 1) in * by lia. exact I'.
Qed.

Lemma strncpy_spec al w G M i g src len : minv w G M -> malloc_good al -> nodes_ok al ->
  G !! i = Some g -> 0 <= len -> Z.of_nat (length (s_done g)) + 1 < 2 ^ 31 ->
  0 <= s_bytes g -> s_bytes g + len + 1 < 2 ^ 31 -> len < Z.of_nat (length src) ->
  ok (fun '(w', a) => exists M', minv w' (<[i := SG (s_done g ++ [(a, take (Z.to_nat len + 1) src)]) [] (s_bytes g + len + 1)]> G) M'
       /\ mblk w !! a = None /\ mblk w' = <[a := take (Z.to_nat len + 1) src]> (mblk w))
     (may_fail al) (mem_strncpy al w i src len).
Proof.
  intros I Hal Hn Hi Hlen Hc Hb0 Hb Hsrc. unfold mem_strncpy.
  destruct (mi_info _ _ _ I i g Hi) as (x & L & Hx & HL & Hok). rewrite (hget_Some _ _ _ Hx). rb.
  rewrite (so_count _ _ _ _ Hok), (so_bytes _ _ _ _ Hok). rewrite sint_ok by lia. rb.
  rewrite sint_ok by lia. rb. rewrite sint_ok by lia. rb. unfold xmalloc.
  destruct (m_blk al (size_t (len + 1)) (mblk w)) as [[a junk]|] eqn:Ea; [|do 2 eexists; exact Ea].
  apply (mg_blk _ Hal) in Ea as [Ha Hjl]. rb.
  rewrite (hget_Some _ _ junk) by apply lookup_insert. rb.
  rewrite size_t_ok in * by lia. replace (Z.to_nat (len + 1)) with (Z.to_nat len + 1)%nat in * by lia.
  rewrite memcpy_whole by lia. rb. rewrite insert_insert.
  destruct (add_top al w G M i g x L a (take (Z.to_nat len + 1) src) (SG (s_done g ++ [(a, take (Z.to_nat len + 1) src)]) [] (s_bytes g + (len + 1)))
     (SInfo (Z.of_nat (length (s_done g)) + 1) (s_bytes g + (len + 1)) 0 (sallocated x)) _
     I Hal Hn Hi Hx HL Ha eq_refl eq_refl) as (h & M' & E & I' & _).
  { intros n. apply (sinfo_ok_push x g L (mblk w)); try done.
    - intros c Hcc. by apply (mi_blklive _ _ _ I (sallocated x) L).
    - by rewrite (so_count _ _ _ _ Hok). }
  rewrite E. rb. simpl. exists M'. split; [|done].
  replace (s_bytes g + (len + 1)) with (s_bytes g + len + 1) in * by lia. exact I'.
Qed.

(** s has exactly [len] readable bytes: out of bounds *)
Lemma strncpy_overread al w G M i g src len : minv w G M -> malloc_good al ->
  G !! i = Some g -> 0 <= len < 2 ^ 31 - 1 -> Z.of_nat (length src) <= len -> ~ may_fail al ->
  mem_strncpy al w i src len = UB.
Proof.
  intros I Hal Hi Hlen Hsrc Hnf. unfold mem_strncpy.
  destruct (mi_info _ _ _ I i g Hi) as (x & L & Hx & HL & Hok). rewrite (hget_Some _ _ _ Hx). rb.
  destruct (sint (count x + 1)) as [c| | | |] eqn:Ec; try (unfold sint in Ec; case_match; congruence); [|done]. rb.
  rewrite sint_ok by lia. rb.
  destruct (sint (bytes x + (len + 1))) as [b| | | |] eqn:Eb; try (unfold sint in Eb; case_match; congruence); [|done]. rb.
  unfold xmalloc. destruct (m_blk al (size_t (len + 1)) (mblk w)) as [[a junk]|] eqn:Ea; [|exfalso; apply Hnf; do 2 eexists; exact Ea].
  rb. rewrite (hget_Some _ _ junk) by apply lookup_insert. rb.
  rewrite size_t_ok by lia. unfold c_memcpy.
  rewrite (proj2 (Nat.leb_gt (Z.to_nat (len + 1)) (length src))) by lia. done.
Qed.

Lemma grow_spec al w G M i g src len : minv w G M -> malloc_good al -> nodes_ok al ->
  G !! i = Some g -> 0 <= len <= Z.of_nat (length src) ->
  0 <= s_bytes g -> s_bytes g + len < 2 ^ 31 -> Z.of_nat (length (s_cur g)) <= s_bytes g ->
  ok (fun w' => exists M' x' a, minv w' (<[i := SG (s_done g) (s_cur g ++ take (Z.to_nat len) src) (s_bytes g + len)]> G) M' /\
        minf w' !! i = Some x' /\ stk_top (msh w') (sallocated x') = Ret (Some a) /\
        (forall p b, (p, b) ∈ s_done g -> p <> a) /\
        mblk w' !! a = Some (s_cur g ++ take (Z.to_nat len) src) /\
        (forall s L, M' !! s = Some L -> Some a ∈ L.*2 -> s = sallocated x'))
     (may_fail al) (mem_grow al w i src len).
Proof.
  intros I Hal Hn Hi Hlen Hb0 Hb Hcl. unfold mem_grow.
  destruct (mi_info _ _ _ I i g Hi) as (x & L & Hx & HL & Hok). rewrite (hget_Some _ _ _ Hx). rb.
  rewrite (so_bytes _ _ _ _ Hok), (so_growing _ _ _ _ Hok). rewrite (sint_ok (s_bytes g + len)) by lia. rb.
  set (cur := s_cur g) in *. set (piece := take (Z.to_nat len) src).
  assert (Hpl : length piece = Z.to_nat len) by (unfold piece; rewrite take_length; lia).
  destruct (Z.eqb_spec (Z.of_nat (length cur)) 0) as [Hz|Hz]; cbn [negb].
  - (* a new block *)
    assert (cur = []) as Hcur by (destruct cur; simpl in Hz; [done|lia]).
    unfold xmalloc. destruct (m_blk al (size_t len) (mblk w)) as [[a junk]|] eqn:Ea; [|do 2 eexists; exact Ea].
    apply (mg_blk _ Hal) in Ea as [Ha Hjl]. rb.
    rewrite (hget_Some _ _ junk) by apply lookup_insert. rb.
    rewrite size_t_ok in * by lia. rewrite Hcur. cbn [length]. change (Z.to_nat (Z.of_nat 0)) with 0%nat.
    rewrite memcpy_whole by lia. rb. rewrite insert_insert.
    rewrite sint_ok by lia. rb. fold piece.
    assert (Hlive : forall a, Some a ∈ L.*2 -> is_Some (mblk w !! a)) by (intros c; by apply (mi_blklive _ _ _ I (sallocated x) L)).
    assert (Hna : Some a ∉ L.*2) by (intros H; destruct (Hlive a H); congruence).
    assert (Hok2 : forall n, sinfo_ok (SInfo (count x) (s_bytes g + len) (Z.of_nat 0 + len) (sallocated x))
        (SG (s_done g) ([] ++ piece) (s_bytes g + len)) ((n, Some a) :: L) (<[a := piece]> (mblk w))).
    { intros n. destruct Hok as [(A & HA & Hnd & Hl) Hc Hd H1 H2 H3 H4].
      constructor; cbn [s_done s_cur s_bytes count bytes growing app]; try done.
      - exists (a :: A). split; [rewrite !fmap_cons, HA; done|]. split.
        + constructor; [|done]. intros H. apply Hna. by apply (live_of_list L A).
        + intros c Hc'. destruct (decide (c = a)) as [->|Hne]; [rewrite lookup_insert; eauto|].
          rewrite lookup_insert_ne by done. apply elem_of_cons in Hc' as [?|?]; [done|auto].
      - intros _. exists n, a, L. split; [done|]. rewrite lookup_insert. split; [done|].
        intros p b Hp. by destruct (Hd p b Hp).
      - intros p b Hp. destruct (Hd p b Hp) as [Hp1 Hp2]. split; [by right|].
        rewrite lookup_insert_ne; [done|]. by intros ->.
      - lia. }
    destruct (add_top al w G M i g x L a piece _ _ _ I Hal Hn Hi Hx HL Ha eq_refl (eq_refl : sallocated (SInfo _ _ _ (sallocated x)) = _) Hok2) as (h & M' & E & I' & Ht).
    rewrite E. rb. simpl. eexists M', _, a. split; [exact I'|]. rewrite lookup_insert. split; [done|].
    split; [done|]. rewrite lookup_insert. split; [|split; [done|]].
    + intros p b Hp ->. apply Hna. by destruct (so_done _ _ _ _ Hok a b Hp).
    + intros s L2 HL2 Ha2. cbn [sallocated].
      destruct (mi_info _ _ _ I' i _ (lookup_insert _ _ _)) as (y & L3 & Hy & HL3 & Hok3). simpl in Hy.
      rewrite lookup_insert in Hy. injection Hy as <-. cbn [sallocated] in HL3.
      apply (mi_blkdisj _ _ _ I' s (sallocated x) L2 L3 a); try done.
      pose proof (top_spec _ _ _ _ (mi_stk _ _ _ I') HL3) as Ht2. cbn [msh] in Ht2. rewrite Ht2 in Ht. destruct L3 as [|[n3 d3] L3]; [done|].
      simpl in Ht. injection Ht as ->. left.
  - (* realloc of the top *)
    destruct (so_cur _ _ _ _ Hok) as (n0 & a0 & L0 & HL0 & Ha0 & Hd0).
    { fold cur. intros H. rewrite H in Hz. by apply Hz. }
    fold cur in Ha0.
    destruct (pop_spec (msh w) M (sallocated x) L (mi_stk _ _ _ I) HL) as (h1 & E1 & I1 & _ & _). rewrite E1. rb.
    rewrite HL0. cbn [snd]. rewrite sint_ok by lia. rb. cbn [xrealloc]. rewrite (hget_Some _ _ _ Ha0). rb.
    destruct (m_blk al (size_t (Z.of_nat (length cur) + len)) (delete a0 (mblk w))) as [[a junk]|] eqn:Ea; [|do 2 eexists; exact Ea].
    apply (mg_blk _ Hal) in Ea as [Ha Hjl]. rb.
    rewrite size_t_ok in Hjl by lia. rewrite (size_t_ok (Z.of_nat (length cur) + len)) by lia. rewrite (size_t_ok len) by lia.
    rewrite (hget_Some _ _ _ (lookup_insert _ _ _)). rb.
    rewrite (take_ge cur) by lia. rewrite Nat2Z.id.
    unfold c_memcpy. rewrite (proj2 (Nat.leb_le (Z.to_nat len) (length src))) by lia.
    rewrite (proj2 (Nat.leb_le (length cur + Z.to_nat len) _)) by (rewrite app_length, drop_length; lia).
    cbn [andb]. rb. rewrite take_app, (drop_ge (cur ++ _)) by (rewrite app_length, drop_length; lia).
    rewrite app_nil_r. fold piece. try (rewrite sint_ok by lia; rb).
    rewrite HL0 in I1. cbn [tail] in I1.
    pose proof (push_spec (m_node al) h1 _ (sallocated x) L0 (Some a) (mg_node _ Hal) I1 (lookup_insert _ _ _)) as Hp.
    destruct (m_node al (nodes h1)) as [nd|] eqn:En; [|by apply Hn in En].
    destruct Hp as (h2 & E2 & I2 & _ & _). rewrite E2. rb. rewrite insert_insert in I2.
    assert (Hlive : forall a, Some a ∈ L.*2 -> is_Some (mblk w !! a)) by (intros c; by apply (mi_blklive _ _ _ I (sallocated x) L)).
    destruct Hok as [(A & HA & Hnd & Hl) Hc Hd H1 H2 H3 H4].
    rewrite HL0 in HA. destruct A as [|a1 A]; [done|]. rewrite !fmap_cons in HA. injection HA as -> HA.
    apply NoDup_cons in Hnd as [HnA Hnd].
    assert (Hna : Some a ∉ L0.*2).
    { intros H. assert (a ∈ A) as HaA by (by apply (live_of_list L0 A)).
      assert (a <> a1) by congruence. rewrite lookup_delete_ne in Ha by done.
      destruct (Hlive a); [rewrite HL0; right; done|]. congruence. }
    assert (Hdone1 : forall p b, (p, b) ∈ s_done g -> p <> a /\ p <> a1).
    { intros p b Hp. pose proof (Hd0 p b Hp) as Hp0. split; intros ->; [done|].
      apply HnA. by apply (live_of_list L0 A). }
    assert (I' : minv (MW h2 (<[a := cur ++ piece]> (delete a1 (mblk w)))
       (<[i := SInfo (count x) (s_bytes g + len) (Z.of_nat (length cur) + len) (sallocated x)]> (minf w)))
       (<[i := SG (s_done g) (cur ++ piece) (s_bytes g + len)]> G) (<[sallocated x := (nd, Some a) :: L0]> M)).
    { eapply (minv_update w G M i g x L (MW h2 _ _) _ _ (SInfo _ _ _ (sallocated x)) ((nd, Some a) :: L0) I Hi Hx HL); [reflexivity|reflexivity|exact I2|reflexivity| | | |]; simpl.
      - constructor; cbn [s_done s_cur s_bytes count bytes growing app]; try done.
        + exists (a :: A). split; [rewrite !fmap_cons, HA; done|]. split.
          * constructor; [|done]. intros H. apply Hna. by apply (live_of_list L0 A).
          * intros c Hc'. destruct (decide (c = a)) as [->|Hne]; [rewrite lookup_insert; eauto|].
            rewrite lookup_insert_ne by done. apply elem_of_cons in Hc' as [?|Hc']; [done|].
            rewrite lookup_delete_ne by congruence. apply Hl. by right.
        + intros _. exists nd, a, L0. split; [done|]. rewrite lookup_insert. done.
        + intros p b Hp. destruct (Hd p b Hp) as [Hp1 Hp2]. destruct (Hdone1 p b Hp) as [Hpa Hpa1].
          split; [right; by apply (Hd0 p b)|]. rewrite lookup_insert_ne by done. by rewrite lookup_delete_ne.
        + rewrite app_length. lia.
      - intros c [[= ->]|Hc']%elem_of_cons.
        + destruct (decide (a = a1)) as [->|Hne]; [left; rewrite HL0; left|right]. by rewrite lookup_delete_ne in Ha.
        + left. rewrite HL0. by right.
      - intros c Hc1 Hc2. rewrite lookup_insert_ne by (intros ->; apply Hc2; left).
        rewrite lookup_delete_ne; [done|]. intros ->. apply Hc1. rewrite HL0. left.
      - intros c Hc1 Hc2. rewrite lookup_insert_ne by (intros ->; apply Hc1; left).
        rewrite HL0 in Hc2. apply elem_of_cons in Hc2 as [[= ->]|Hc2]; [by rewrite lookup_delete|].
        exfalso. apply Hc1. by right. }
    rewrite insert_insert. simpl. eexists _, _, a. split; [exact I'|]. rewrite lookup_insert. split; [done|]. cbn [sallocated].
    split; [rewrite (top_spec _ _ _ _ I2 (lookup_insert _ _ _)); done|]. rewrite lookup_insert.
    split; [intros p b Hp; by destruct (Hdone1 p b Hp)|]. split; [done|].
    intros s L2 HL2 Ha2. apply (mi_blkdisj _ _ _ I' s (sallocated x) L2 ((nd, Some a) :: L0) a); try done.
    + apply lookup_insert.
    + left.
Qed.

Lemma finish_spec al w G M i g : minv w G M -> malloc_good al -> nodes_ok al ->
  G !! i = Some g -> Z.of_nat (length (s_done g)) + 1 < 2 ^ 31 ->
  0 <= s_bytes g -> s_bytes g + 1 < 2 ^ 31 -> Z.of_nat (length (s_cur g)) <= s_bytes g ->
  ok (fun '(w', p) => exists M' a, p = Some a /\
        minv w' (<[i := SG (s_done g ++ [(a, s_cur g ++ [0%N])]) [] (s_bytes g + 1)]> G) M')
     (may_fail al) (mem_finish al w i).
Proof.
  intros I Hal Hn Hi Hc Hb0 Hb Hcl. unfold mem_finish.
  eapply ok_bind; [apply (grow_spec al w G M i g [0%N] 1 I Hal Hn Hi); simpl; lia|].
  intros w1 (M1 & x & a & I1 & Hx & Ht & Hfresh & Ha & Howner). cbv beta.
  rewrite (hget_Some _ _ _ Hx). rb.
  change (take (Z.to_nat 1) [0%N]) with [0%N] in *.
  destruct (mi_info _ _ _ I1 i _ (lookup_insert _ _ _)) as (x0 & L & Hx0 & HL & Hok). 
  rewrite Hx in Hx0. injection Hx0 as <-.
  rewrite (so_count _ _ _ _ Hok). cbn [s_done]. rewrite sint_ok by lia. rb. cbn [msh]. rewrite Ht. rb.
  simpl. exists M1, a. split; [done|].
  destruct (so_cur _ _ _ _ Hok) as (n0 & a0 & L0 & HL0 & Ha0 & Hd0).
  { cbn [s_cur]. by destruct (s_cur g). }
  assert (a0 = a) as ->.
  { rewrite (top_spec _ _ _ _ (mi_stk _ _ _ I1) HL), HL0 in Ht. simpl in Ht. congruence. }
  rewrite <- (insert_insert G i (SG (s_done g ++ [(a, s_cur g ++ [0%N])]) [] (s_bytes g + 1)) (SG (s_done g) (s_cur g ++ [0%N]) (s_bytes g + 1))).
  destruct Hok as [(A & HA & Hnd & Hl) Hc1 Hd H1 H2 H3 H4]. cbn [s_done s_cur s_bytes] in *.
  eapply (minv_update w1 _ M1 i _ x L _ _ _ _ L); [exact I1|apply lookup_insert|exact Hx|exact HL| |simpl; reflexivity|apply I1|by rewrite insert_id| | | |]; simpl; try done.
  - constructor; cbn [s_done s_cur s_bytes count bytes growing]; try done.
    + exists A. done.
    + intros p b. rewrite elem_of_app, elem_of_list_singleton. intros [Hp|[= -> ->]]; [by apply Hd|].
      split; [|done]. rewrite HL0. left.
    + rewrite fmap_app. apply NoDup_app. split; [done|]. split; [|apply NoDup_singleton].
      intros p Hp Hp2. cbn in Hp2. apply elem_of_list_singleton in Hp2. subst p.
      apply elem_of_list_fmap in Hp as ([p b] & -> & Hp). by apply (Hfresh p b).
    + rewrite app_length. simpl. lia.
  - auto.
Qed.

Lemma create_str_spec al w G M : minv w G M -> malloc_good al ->
  ok (fun '(w', i) => exists M', G !! i = None /\ minv w' (<[i := SG [] [] 0]> G) M' /\ mblk w' = mblk w)
     (m_info al (minf w) = None \/ m_stk al (stks (msh w)) = None) (mem_create_strings al w).
Proof.
  intros I Hal. unfold mem_create_strings. destruct (m_info al (minf w)) as [i|] eqn:Ei; [|by left].
  apply (mg_info _ Hal) in Ei.
  pose proof (create_spec (m_stk al) (msh w) M (mg_stk _ Hal) (mi_stk _ _ _ I)) as H1.
  destruct (m_stk al (stks (msh w))) as [s|] eqn:Es1; [|rewrite H1; by right].
  destruct H1 as (h1 & -> & HM1 & I1 & _). rb. simpl.
  assert (HG : G !! i = None).
  { apply eq_None_not_Some. intros H. apply (mi_dom _ _ _ I) in H. rewrite Ei in H. by destruct H. }
  assert (Hnew : forall j x, minf w !! j = Some x -> sallocated x <> s).
  { intros j x Hx Hxs. assert (is_Some (G !! j)) as [g Hg] by (apply (mi_dom _ _ _ I); eauto).
    destruct (mi_info _ _ _ I j g Hg) as (x0 & L & Hx0 & H1 & _). congruence. }
  exists (<[s := []]> M). split; [done|]. split; [|done]. constructor; simpl.
  - done.
  - intros j. destruct (decide (j = i)) as [->|Hj].
    + rewrite !lookup_insert. split; eauto.
    + rewrite !lookup_insert_ne by done. apply I.
  - intros j g. destruct (decide (j = i)) as [->|Hj].
    + rewrite !lookup_insert. intros [= <-]. exists (SInfo 0 0 0 s), []. cbn [sallocated].
      rewrite lookup_insert. split; [done|]. split; [done|]. constructor; cbn; try done.
      * exists []. split; [done|]. split; [constructor|]. intros a Ha. by apply elem_of_nil in Ha.
      * intros p b H. by apply elem_of_nil in H.
      * constructor.
    + rewrite !lookup_insert_ne by done. intros Hg.
      destruct (mi_info _ _ _ I j g Hg) as (x & L & Hx & H1 & H2). exists x, L.
      rewrite lookup_insert_ne; [done|]. apply not_eq_sym. eauto.
  - intros j k x y. destruct (decide (j = i)) as [->|Hj]; destruct (decide (k = i)) as [->|Hk];
      rewrite ?lookup_insert, ?lookup_insert_ne by done.
    + done.
    + intros [= <-] Hy Hs. simpl in Hs. by destruct (Hnew k y Hy).
    + intros Hy [= <-] Hs. simpl in Hs. by destruct (Hnew j x Hy).
    + apply I.
  - intros s' Hs. destruct (decide (s' = s)) as [->|Hd].
    + exists i. eexists. rewrite lookup_insert. done.
    + rewrite lookup_insert_ne in Hs by done.
      destruct (mi_stkall _ _ _ I s' Hs) as (j & y & Hy & ->). exists j, y. rewrite lookup_insert_ne by congruence. done.
  - intros s1 s2 L1 L2 a. destruct (decide (s1 = s)) as [->|H1];
      [rewrite lookup_insert; intros [= <-] _ H; by apply elem_of_nil in H|].
    destruct (decide (s2 = s)) as [->|H2]; [rewrite lookup_insert; intros _ [= <-] _ H; by apply elem_of_nil in H|].
    rewrite !lookup_insert_ne by done. apply I.
  - intros a Ha. destruct (mi_blkall _ _ _ I a Ha) as (s' & L & HL & Hja). exists s', L.
    rewrite lookup_insert_ne by congruence. done.
  - intros s' L a. destruct (decide (s' = s)) as [->|Hj];
      [rewrite lookup_insert; intros [= <-] H; by apply elem_of_nil in H|].
    rewrite lookup_insert_ne by done. apply I.
Qed.

Lemma destroy_str_spec w G M i g : minv w G M -> G !! i = Some g ->
  exists w' M', mem_destroy_strings w i = Ret w' /\ minv w' (delete i G) M' /\
    minf w' = delete i (minf w) /\
    (forall p b, (p, b) ∈ s_done g -> mblk w' !! p = None) /\
    (forall a b, mblk w' !! a = Some b -> mblk w !! a = Some b).
Proof.
  intros I Hi. unfold mem_destroy_strings.
  destruct (mi_info _ _ _ I i g Hi) as (x & L & Hx & HL & Hok). rewrite (hget_Some _ _ _ Hx). rb.
  assert (Hok2 := Hok). destruct Hok2 as [(A & HA & Hnd & Hl) _ Hd _ _ _ _].
  destruct (free_all_spec (fun _ _ => True) (S (size (nodes (msh w)))) (msh w) M (sallocated x) L A (mblk w))
    as (h1 & bl & E & I1 & Hbl); try done.
  { apply I. }
  { destruct (si_chain _ _ (mi_stk _ _ _ I) _ _ HL) as (p & _ & Hc).
    rewrite <- (fmap_length fst L). apply Nat.lt_succ_r. apply nodup_bound; [by apply (si_nodup _ _ (mi_stk _ _ _ I) (sallocated x))|].
    intros a Ha. by eapply chain_live. }
  rewrite E. rb.
  destruct (destroy_spec h1 _ (sallocated x) [] I1) as (h2 & E2 & I2 & _ & _); [by rewrite lookup_insert|].
  rewrite E2. rb. rewrite delete_insert_delete in I2.
  rewrite (hfree_Some _ _ _ Hx). rb. eexists _, _. split; [done|]. simpl.
  assert (HLA : forall a, Some a ∈ L.*2 <-> a ∈ A) by (intros a; by apply live_of_list).
  split; [|split; [done|split]].
  2:{ intros p b Hp. destruct (Hd p b Hp) as [Hp1 _]. rewrite Hbl, decide_True; [done|]. by apply HLA. }
  2:{ intros a b. rewrite Hbl. by destruct (decide _). }
  constructor; simpl.
  - exact I2.
  - intros j. destruct (decide (j = i)) as [->|Hne].
    + rewrite !lookup_delete. by split; intros [? ?].
    + rewrite !lookup_delete_ne by done. apply I.
  - intros j g2 [Hne Hj]%lookup_delete_Some.
    destruct (mi_info _ _ _ I j g2 Hj) as (y & L2 & Hy & HL2 & Hok2). exists y, L2.
    rewrite lookup_delete_ne by done. split; [done|].
    assert (Hsne : sallocated x <> sallocated y) by (intros Heq; apply Hne; by apply (mi_stkdisj _ _ _ I i j x y)).
    rewrite lookup_delete_ne by done. split; [done|]. eapply sinfo_ok_frame; [|done].
    intros a Ha. rewrite Hbl, decide_False; [done|]. intros Ha2. apply Hsne.
    apply (mi_blkdisj _ _ _ I _ _ L L2 a); try done. by apply HLA.
  - intros j k y z [_ Hy]%lookup_delete_Some [_ Hz]%lookup_delete_Some. by apply I.
  - intros s [L2 [H1 Hs]%lookup_delete_Some]. destruct (mi_stkall _ _ _ I s) as (j & y & Hy & ->); [eauto|].
    exists j, y. rewrite lookup_delete_ne; [done|]. intros <-. congruence.
  - intros s s' L1 L2 a [_ Hs]%lookup_delete_Some [_ Hs']%lookup_delete_Some. by apply I.
  - intros a. rewrite Hbl. destruct (decide (a ∈ A)) as [H|H]; [by intros [? ?]|].
    intros Ha. destruct (mi_blkall _ _ _ I a Ha) as (s & L2 & HL2 & Ha2). exists s, L2.
    rewrite lookup_delete_ne; [done|]. intros <-. apply H, HLA. congruence.
  - intros s L2 a [Hne Hs]%lookup_delete_Some Ha. rewrite Hbl, decide_False; [by apply (mi_blklive _ _ _ I s L2)|].
    intros Ha2. apply Hne. apply (mi_blkdisj _ _ _ I _ _ L L2 a); try done. by apply HLA.
Qed.
