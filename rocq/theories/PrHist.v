(** Histories of calls of pr.c and of the user's own opens and closes. *)
From Verif Require Import Base Alloc ListLemmas CStr StackModel StackProofs ObjModel ObjProofs MemModel MemProofs MemHist.
From Verif Require Import ArgModel ArgProofs ArgSpec ArgHist PrModel PrSpec PrProofs.
Local Open Scope Z_scope.

Definition pipe_of (e : endp) : option positive := match e with REnd k | WEnd k => Some k | _ => None end.
Definition opposite (e : endp) : endp := match e with REnd k => WEnd k | WEnd k => REnd k | e => e end.
Definition holds (t : ftab) (e : endp) : Prop := exists fd, t !! fd = Some e.
(** the callback of pr_open2 makes no copies of ends of pipes *)
Definition no_copies (cb : option (ftab -> ftab)) : Prop :=
  forall T fd e, call_back cb T !! fd = Some e -> pipe_of e <> None -> T !! fd = Some e.

(** what the user knows: [ps_reg] the registered descriptors with their pids, [ps_kids] the
    children started by pr_open, as they were when they executed their command *)
Record pst := PS { ps_w : prw; ps_reg : gmap Z Z; ps_kids : list (Z * image) }.
Inductive pcall : pst -> pst -> Prop :=
| pc_open o w R C s rest ws cb flags infd outfd errfd w' p :
    os_ok o (limit o w) -> proper (p_tab w) (limit o w) flags (arg3 infd outfd errfd) ->
    polite cb (p_tab w) flags (arg3 infd outfd errfd) -> no_copies cb ->
    str_ok s -> Z.of_nat (length s) + 3 < 2 ^ 30 -> line true true s ws ->
    pr_open2 o w (s ++ 0%N :: rest) cb flags infd outfd errfd = Ret (w', p) ->
    pcall (PS w R C) (PS w' (reg_after flags (arg3 infd outfd errfd) p R) ((op_pid p, op_child p) :: C))
| pc_close w R C fd pid w' pid' :
    R !! fd = Some pid -> pr_close_nowait w fd = Ret (w', pid') -> pcall (PS w R C) (PS w' (delete fd R) C)
| pc_spawn o w R C s rest ws ans w' r c :
    aalloc_ok (o_arg o) -> str_ok s -> Z.of_nat (length s) + 3 < 2 ^ 30 -> line true true s ws ->
    pr_spawn o w (s ++ 0%N :: rest) ans = Ret (w', r, c) -> pcall (PS w R C) (PS w' R C)
(* the user opens a file, or dup2s one onto a descriptor; closes a descriptor; uses arg.c *)
| pc_user_open w R C fd n : 0 <= fd -> R !! fd = None ->
    pcall (PS w R C) (PS (PW (p_objs w) (p_max w) (<[fd := File n]> (p_tab w)) (p_next w) (p_arg w)) R C)
| pc_user_close w R C fd : 3 <= fd -> R !! fd = None -> pcall (PS w R C) (PS (tab_close w fd) R C)
| pc_user_arg w R C a G : arg_history a G -> pcall (PS w R C) (PS (set_arg w a) R C)
(* the end of a session, when every registered descriptor has been closed *)
| pc_shutdown w C ans w' l : pr_shutdown w ans = Ret (w', l) -> pcall (PS w ∅ C) (PS w' ∅ C).
Definition started (t : ftab) : prw := PW None 0 t 1 aempty.
(** every process starts with some files open, the three standard ones among them *)
Definition files (t : ftab) : Prop :=
  (forall s, stream s -> is_Some (t !! s)) /\ (forall fd e, t !! fd = Some e -> 0 <= fd /\ exists n, e = File n).
Inductive pr_history : pst -> Prop :=
| ph_start t : files t -> pr_history (PS (started t) ∅ [])
| ph_step s s' : pr_history s -> pcall s s' -> pr_history s'.

Record pinv (w : prw) (R : gmap Z Z) (C : list (Z * image)) : Prop := {
  i_base : base w R;
  i_nonneg : forall fd e, p_tab w !! fd = Some e -> 0 <= fd;
  i_ends : forall fd e k, p_tab w !! fd = Some e -> pipe_of e = Some k -> (k < p_next w)%positive /\ is_Some (R !! fd);
  i_reg : forall fd pid, R !! fd = Some pid -> exists e k img, p_tab w !! fd = Some e /\ pipe_of e = Some k /\
            (pid, img) ∈ C /\ holds (c_tab img) (opposite e);
  i_inj : forall fd fd' e, p_tab w !! fd = Some e -> p_tab w !! fd' = Some e -> pipe_of e <> None -> fd = fd';
  i_kid : forall pid img e k, (pid, img) ∈ C -> holds (c_tab img) e -> pipe_of e = Some k ->
            (k < p_next w)%positive /\ ~ holds (p_tab w) e;
  i_kids : forall i j c d e, C !! i = Some c -> C !! j = Some d -> i <> j -> holds (c_tab c.2) e -> holds (c_tab d.2) e ->
            pipe_of e = None;
  i_std : forall pid img fd e, (pid, img) ∈ C -> c_tab img !! fd = Some e -> pipe_of e <> None -> stream fd }.

Lemma pinv_start t : files t -> pinv (started t) ∅ [].
Proof.
  intros [H1 H2]. constructor; cbn [started p_tab p_next p_objs p_max p_arg].
  - constructor; cbn; try done.
    + intros s Hs. split; [by apply H1|]. apply lookup_empty.
    + exists ∅. apply rtc_refl.
  - intros fd e H. by apply (H2 fd e).
  - intros fd e k H Hk. destruct (H2 fd e H) as [_ [n ->]]. done.
  - intros fd pid H. by rewrite lookup_empty in H.
  - intros fd fd' e H _ Hk. destruct (H2 fd e H) as [_ [n ->]]. done.
  - intros pid img e k H. by apply elem_of_nil in H.
  - intros i j c d e H. done.
  - intros pid img fd e H. by apply elem_of_nil in H.
Qed.

(** ** pr_open *)
Section reg.
Context (flags : Z) (fds res : Z -> option Z) (pid : Z).
Lemma reg1_new s R f : creates flags s = true -> res s = Some f -> reg1 flags fds res pid s R !! f = Some pid.
Proof. intros Hc Hr. unfold reg1. rewrite Hc, Hr. apply lookup_insert. Qed.
Lemma reg1_given s R f : creates flags s = false -> given flags fds s f -> reg1 flags fds res pid s R !! f = None.
Proof.
  intros Hc (Hu & Hf & Hn). unfold reg1. rewrite Hc, Hu, Hf. rewrite decide_False by done. apply lookup_delete.
Qed.
Lemma reg1_other s R f : (creates flags s = true -> res s <> Some f) -> ~ given flags fds s f ->
  reg1 flags fds res pid s R !! f = R !! f.
Proof.
  intros H1 H2. unfold reg1. destruct (creates flags s) eqn:Hc.
  - destruct (res s) as [x|] eqn:Hr; [|done]. rewrite lookup_insert_ne; [done|]. intros ->. by apply H1.
  - destruct (uses flags s) eqn:Hu; [|done]. destruct (fds s) as [x|] eqn:Hf; [|done]. case_decide; [done|].
    rewrite lookup_delete_ne; [done|]. intros ->. by apply H2.
Qed.
End reg.
Section opening.
Context (o : os) (cb : option (ftab -> ftab)) (w : prw) (R : gmap Z Z) (C : list (Z * image)) (flags : Z) (fds : Z -> option Z)
  (ws : list (list N)) (w' : prw) (p : opened) (K : Z -> positive) (T : ftab).
Hypothesis I : pinv w R C.
Hypothesis E : open_effect o cb (p_tab w) R flags fds ws (p_tab w') p K T.
Hypothesis B : base w' (reg_after flags fds p R).
Hypothesis Hn : (p_next w <= p_next w')%positive.
Hypothesis HK : forall s, stream s -> creates flags s = true -> (p_next w <= K s < p_next w')%positive.
Hypothesis Hp : proper (p_tab w) (limit o w) flags fds.
Hypothesis Hcb : no_copies cb.

Lemma given_create s f : stream s -> given flags fds s f -> creates flags s = false.
Proof using Hp.
  intros Hs (Hu & _). destruct (creates flags s) eqn:Hc; [|done]. exfalso.
  destruct (pr_legal _ _ _ _ Hp) as (_ & H & _). by eapply H.
Qed.
Lemma given_not_new s s' f : stream s -> stream s' -> given flags fds s f -> creates flags s' = true -> results p s' <> Some f.
Proof using E Hp.
  intros Hs Hs' Hg Hc Hr. destruct (oe_new _ _ _ _ _ _ _ _ _ _ _ E s' Hs' Hc) as (f' & Hf' & H1 & _).
  destruct (pr_given _ _ _ _ Hp s f Hs Hg) as [_ [x Hx]]. congruence.
Qed.
Lemma after_new s f : stream s -> creates flags s = true -> results p s = Some f -> reg_after flags fds p R !! f = Some (op_pid p).
Proof using E Hp.
  clear HK Hn B. intros Hs Hc Hr. unfold reg_after.
  assert (O : forall s' R0, stream s' -> s' <> s -> reg1 flags fds (results p) (op_pid p) s' R0 !! f = R0 !! f).
  { intros s' R0 Hs' Hne. apply reg1_other.
    - intros Hc' Hr'. destruct (oe_distinct _ _ _ _ _ _ _ _ _ _ _ E s' s) as [H _]; try done. congruence.
    - intros Hg. by apply (given_not_new s' s f Hs' Hs Hg Hc). }
  assert (S0 : stream 0) by (unfold stream; lia). assert (S1 : stream 1) by (unfold stream; lia).
  assert (S2 : stream 2) by (unfold stream; lia).
  destruct Hs as [->|[->| ->]].
  - rewrite O, O by done. by apply reg1_new.
  - rewrite O by done. by apply reg1_new.
  - by apply reg1_new.
Qed.
Lemma after_given s f : stream s -> given flags fds s f -> reg_after flags fds p R !! f = None.
Proof using E Hp.
  clear HK Hn B. intros Hs Hg. unfold reg_after. pose proof (given_create s f Hs Hg) as Hc.
  assert (O : forall s' R0, stream s' -> s' <> s -> reg1 flags fds (results p) (op_pid p) s' R0 !! f = R0 !! f).
  { intros s' R0 Hs' Hne. apply reg1_other.
    - intros Hc' Hr'. by apply (given_not_new s s' f Hs Hs' Hg Hc').
    - intros Hg'. apply Hne. by eapply (pr_twice _ _ _ _ Hp). }
  assert (S0 : stream 0) by (unfold stream; lia). assert (S1 : stream 1) by (unfold stream; lia).
  assert (S2 : stream 2) by (unfold stream; lia).
  destruct Hs as [->|[->| ->]].
  - rewrite O, O by done. by apply reg1_given.
  - rewrite O by done. by apply reg1_given.
  - by apply reg1_given.
Qed.
Lemma after_other f : (forall s, stream s -> creates flags s = true -> results p s <> Some f) ->
  (forall s, stream s -> ~ given flags fds s f) -> reg_after flags fds p R !! f = R !! f.
Proof using Type.
  clear HK Hn B. intros H1 H2. unfold reg_after.
  assert (S0 : stream 0) by (unfold stream; lia). assert (S1 : stream 1) by (unfold stream; lia).
  assert (S2 : stream 2) by (unfold stream; lia). rewrite !reg1_other; auto.
Qed.
(** where a descriptor of the parent comes from *)
Lemma fd_cases fd : (exists s, stream s /\ creates flags s = true /\ results p s = Some fd) \/
  (exists s, stream s /\ given flags fds s fd) \/
  ((forall s, stream s -> creates flags s = true -> results p s <> Some fd) /\ (forall s, stream s -> ~ given flags fds s fd)).
Proof.
  assert (S0 : stream 0) by (unfold stream; lia). assert (S1 : stream 1) by (unfold stream; lia).
  assert (S2 : stream 2) by (unfold stream; lia).
  assert (D1 : forall s, Decision (creates flags s = true /\ results p s = Some fd)) by (intros; apply _).
  assert (D2 : forall s, Decision (given flags fds s fd)) by (intros; unfold given; apply _).
  destruct (D1 0) as [?|N0]; [left; eauto|]. destruct (D1 1) as [?|N1]; [left; eauto|]. destruct (D1 2) as [?|N2]; [left; eauto|].
  destruct (D2 0) as [?|M0]; [right; left; eauto|]. destruct (D2 1) as [?|M1]; [right; left; eauto|]. destruct (D2 2) as [?|M2]; [right; left; eauto|].
  right. right. split; intros s [->|[->| ->]]; auto.
Qed.
Lemma parent_tab fd e k : p_tab w' !! fd = Some e -> pipe_of e = Some k ->
  (exists s, stream s /\ creates flags s = true /\ results p s = Some fd /\ e = parent_end s (K s) /\ k = K s) \/
  (p_tab w !! fd = Some e /\ reg_after flags fds p R !! fd = R !! fd /\ (forall s, stream s -> ~ given flags fds s fd)).
Proof.
  intros He Hk. destruct (fd_cases fd) as [(s & Hs & Hc & Hr)|[(s & Hs & Hg)|[H1 H2]]].
  - left. exists s. destruct (oe_new _ _ _ _ _ _ _ _ _ _ _ E s Hs Hc) as (f & Hf & _ & _ & Ht). rewrite Hr in Hf. injection Hf as <-.
    rewrite He in Ht. injection Ht as ->. unfold parent_end in *. case_decide; cbn in Hk; injection Hk as <-; done.
  - exfalso. rewrite (oe_given _ _ _ _ _ _ _ _ _ _ _ E s fd Hs Hg) in He. done.
  - right. rewrite (oe_rest _ _ _ _ _ _ _ _ _ _ _ E fd H1 H2) in He. split; [done|]. split; [by apply after_other|done].
Qed.
Lemma kid_stream fd e k : c_tab (op_child p) !! fd = Some e -> pipe_of e = Some k -> stream fd.
Proof.
  intros He Hk. destruct (decide (0 <= fd < 3)) as [Hfd|Hfd]; [by apply stream_range|].
  exfalso. assert (Hns : ~ stream fd) by (by rewrite stream_range).
  destruct (R !! fd) as [x|] eqn:HR.
  { rewrite (oe_closed _ _ _ _ _ _ _ _ _ _ _ E fd Hns) in He; [done|]. left. eauto. }
  destruct (decide (T !! fd = p_tab w !! fd)) as [HT|HT].
  2: { rewrite (oe_closed _ _ _ _ _ _ _ _ _ _ _ E fd Hns) in He; [done|]. auto. }
  destruct (fd_cases fd) as [(s & Hs & Hc & Hr)|[(s & Hs & Hg)|[H1 H2]]].
  + destruct (oe_new _ _ _ _ _ _ _ _ _ _ _ E s Hs Hc) as (f & Hf & Hno & _). rewrite Hr in Hf. injection Hf as <-.
    rewrite (oe_inherit _ _ _ _ _ _ _ _ _ _ _ E fd Hns HR HT) in He.
    * assert (He' : T !! fd = Some e) by (eapply Hcb; [exact He|by rewrite Hk]). congruence.
    * intros s' Hs' Hg'. by apply (given_not_new s' s fd).
  + rewrite (oe_closed _ _ _ _ _ _ _ _ _ _ _ E fd Hns) in He; [done|]. eauto.
  + rewrite (oe_inherit _ _ _ _ _ _ _ _ _ _ _ E fd Hns HR HT H2) in He.
    assert (He' : T !! fd = Some e) by (eapply Hcb; [exact He|by rewrite Hk]). clear He. rename He' into He. rewrite HT in He. destruct (i_ends _ _ _ I fd e k He Hk) as [_ [x Hx]]. congruence.
Qed.
Lemma kid_ends e k : holds (c_tab (op_child p)) e -> pipe_of e = Some k ->
  (exists s, stream s /\ creates flags s = true /\ e = child_end s (K s) /\ k = K s) \/
  (exists s f, stream s /\ given flags fds s f /\ p_tab w !! f = Some e).
Proof.
  intros [fd He] Hk.
  assert (Std : forall s, stream s -> child_gets o (p_tab w) flags fds s (K s) (Some e) ->
     (exists s, stream s /\ creates flags s = true /\ e = child_end s (K s) /\ k = K s) \/
     (exists s f, stream s /\ given flags fds s f /\ p_tab w !! f = Some e)).
  { intros s Hs (H1 & H2 & H3 & H4).
    assert (No : Some e = p_tab w !! s -> False).
    { intros Ht. destruct (i_ends _ _ _ I s e k (eq_sym Ht) Hk) as [_ [x Hx]].
      destruct (b_std _ _ (i_base _ _ _ I) s Hs) as [_ Hr]. congruence. }
    destruct (creates flags s) eqn:Hc.
    - left. exists s. specialize (H1 eq_refl). injection H1 as ->. split; [done|]. split; [done|]. split; [done|].
      unfold child_end in Hk. case_decide; cbn in Hk; by injection Hk.
    - destruct (uses flags s) eqn:Hu; [|exfalso; by apply No, H4].
      assert (Hnull : wants_null flags fds s -> False).
      { intros Hw. destruct (H3 Hw) as [[= ->]|[Ht _]]; [done|by apply No]. }
      destruct (fds s) as [f|] eqn:Hf; [|exfalso; apply Hnull; split; auto].
      destruct (decide (f = 0)) as [->|Hf0]; [exfalso; apply Hnull; split; auto|].
      right. exists s, f. split; [done|]. split; [done|]. symmetry. apply H2. done. }
  pose proof (kid_stream fd e k He Hk) as Hfd. destruct (merges flags) eqn:Hm.
  - destruct (decide (fd = 2)) as [->|Hne].
    + rewrite (oe_merge _ _ _ _ _ _ _ _ _ _ _ E Hm) in He. assert (S1 : stream 1) by (unfold stream; lia).
        apply (Std 1 S1). rewrite <- He. apply (oe_std _ _ _ _ _ _ _ _ _ _ _ E); [done|lia].
    + apply (Std fd Hfd). rewrite <- He. apply (oe_std _ _ _ _ _ _ _ _ _ _ _ E); [done|lia].
  - apply (Std fd Hfd). rewrite <- He. apply (oe_std _ _ _ _ _ _ _ _ _ _ _ E); done.
Qed.
Lemma kid_has s : stream s -> creates flags s = true -> holds (c_tab (op_child p)) (child_end s (K s)).
Proof.
  intros Hs Hc. exists s. apply (oe_std _ _ _ _ _ _ _ _ _ _ _ E s Hs); [|done].
  intros ->. destruct (merges flags) eqn:Hm; [|done]. destruct (pr_legal _ _ _ _ Hp) as (_ & _ & H). destruct (H Hm). congruence.
Qed.
Lemma open_inv : pinv w' (reg_after flags fds p R) ((op_pid p, op_child p) :: C).
Proof.
  constructor.
  - exact B.
  - intros fd e He. destruct (fd_cases fd) as [(s & Hs & Hc & Hr)|[(s & Hs & Hg)|[H1 H2]]].
    + destruct (oe_new _ _ _ _ _ _ _ _ _ _ _ E s Hs Hc) as (f & Hf & _ & ? & _). rewrite Hr in Hf. injection Hf as <-. lia.
    + by rewrite (oe_given _ _ _ _ _ _ _ _ _ _ _ E s fd Hs Hg) in He.
    + rewrite (oe_rest _ _ _ _ _ _ _ _ _ _ _ E fd H1 H2) in He. by eapply (i_nonneg _ _ _ I).
  - intros fd e k He Hk. destruct (parent_tab fd e k He Hk) as [(s & Hs & Hc & Hr & -> & ->)|(Ht & Hr & _)].
    + split; [apply HK; done|]. rewrite (after_new s fd Hs Hc Hr). eauto.
    + destruct (i_ends _ _ _ I fd e k Ht Hk). rewrite Hr. split; [lia|done].
  - intros fd pid Hr. destruct (fd_cases fd) as [(s & Hs & Hc & Hf)|[(s & Hs & Hg)|[H1 H2]]].
    + rewrite (after_new s fd Hs Hc Hf) in Hr. injection Hr as <-.
      destruct (oe_new _ _ _ _ _ _ _ _ _ _ _ E s Hs Hc) as (f & Hf' & _ & _ & Ht). rewrite Hf in Hf'. injection Hf' as <-.
      exists (parent_end s (K s)), (K s), (op_child p). split; [done|]. split; [unfold parent_end; by case_decide|].
      split; [left|]. replace (opposite (parent_end s (K s))) with (child_end s (K s)); [by apply kid_has|].
      unfold child_end, parent_end. by case_decide.
    + by rewrite (after_given s fd Hs Hg) in Hr.
    + rewrite (after_other fd H1 H2) in Hr. destruct (i_reg _ _ _ I fd pid Hr) as (e & k & img & He & Hk & Hin & Hh).
      exists e, k, img. rewrite (oe_rest _ _ _ _ _ _ _ _ _ _ _ E fd H1 H2). split; [done|]. split; [done|]. split; [by right|done].
  - intros fd fd' e He He' Hk. destruct (pipe_of e) as [k|] eqn:Ek; [|done].
    destruct (parent_tab fd e k He Ek) as [(s & Hs & Hc & Hr & Hee & Hkk)|(Ht & _)],
      (parent_tab fd' e k He' Ek) as [(s' & Hs' & Hc' & Hr' & Hee' & Hkk')|(Ht' & _)].
    + destruct (decide (s = s')) as [<-|Hne]; [congruence|].
      destruct (oe_distinct _ _ _ _ _ _ _ _ _ _ _ E s s') as [_ HKK]; try done. congruence.
    + exfalso. destruct (i_ends _ _ _ I fd' e k Ht' Ek) as [H _]. destruct (HK s Hs Hc). lia.
    + exfalso. destruct (i_ends _ _ _ I fd e k Ht Ek) as [H _]. destruct (HK s' Hs' Hc'). lia.
    + by eapply (i_inj _ _ _ I fd fd' e); [..|rewrite Ek].
  - intros pid img e k Hin Hh Hk. apply elem_of_cons in Hin as [[= -> ->]|Hin].
    + destruct (kid_ends e k Hh Hk) as [(s & Hs & Hc & -> & ->)|(s & f & Hs & Hg & Hf)].
      * split; [apply HK; done|]. intros [fd Hfd]. destruct (parent_tab fd _ _ Hfd Hk) as [(s' & Hs' & Hc' & Hr' & Hee & Hkk)|(Ht & _)].
        -- destruct (decide (s = s')) as [<-|Hne].
           ++ unfold child_end, parent_end in Hee. by case_decide.
           ++ destruct (oe_distinct _ _ _ _ _ _ _ _ _ _ _ E s s') as [_ HKK]; try done.
        -- destruct (i_ends _ _ _ I fd _ _ Ht Hk) as [H _]. destruct (HK s Hs Hc). lia.
      * destruct (i_ends _ _ _ I f e k Hf Hk) as [Hlt _]. split; [lia|]. intros [fd Hfd].
        destruct (parent_tab fd e k Hfd Hk) as [(s' & Hs' & Hc' & Hr' & Hee & ->)|(Ht & _ & Hng)].
        -- destruct (HK s' Hs' Hc'). lia.
        -- assert (fd = f) as -> by (eapply (i_inj _ _ _ I); [done..|by rewrite Hk]). by eapply Hng.
    + destruct (i_kid _ _ _ I pid img e k Hin Hh Hk) as [Hlt Hnot]. split; [lia|]. intros [fd Hfd].
      destruct (parent_tab fd e k Hfd Hk) as [(s' & Hs' & Hc' & Hr' & Hee & ->)|(Ht & _ & Hng)].
      * destruct (HK s' Hs' Hc'). lia.
      * apply Hnot. by exists fd.
  - assert (Main : forall j d e, C !! j = Some d -> holds (c_tab (op_child p)) e -> holds (c_tab d.2) e -> pipe_of e = None).
    { intros j [pid img] e Hj Hh Hh'. cbn in Hh'. destruct (pipe_of e) as [k|] eqn:Ek; [|done]. exfalso.
      apply elem_of_list_lookup_2 in Hj. destruct (i_kid _ _ _ I pid img e k Hj Hh' Ek) as [Hlt Hnot].
      destruct (kid_ends e k Hh Ek) as [(s & Hs & Hc & -> & ->)|(s & f & Hs & Hg & Hf)].
      - destruct (HK s Hs Hc). lia.
      - apply Hnot. by exists f. }
    intros i j c d e Hi Hj Hij Hc Hd. destruct i as [|i], j as [|j]; cbn in Hi, Hj; [done|..].
    + injection Hi as <-. by eapply Main.
    + injection Hj as <-. by eapply Main.
    + eapply (i_kids _ _ _ I i j); try done. congruence.
  - intros pid img fd e Hin He Hk. apply elem_of_cons in Hin as [[= -> ->]|Hin]; [|by eapply (i_std _ _ _ I)].
    destruct (pipe_of e) as [k|] eqn:Ek; [|done]. by eapply kid_stream.
Qed.
End opening.

(** ** pr_close_nowait *)
Lemma reg_range w R fd pid : base w R -> R !! fd = Some pid ->
  exists objs, p_objs w = Some objs /\ regm objs R /\ 0 <= fd < Z.of_nat (length objs) /\ objs !! Z.to_nat fd = Some pid /\ 0 < pid.
Proof.
  intros B Hr. pose proof (b_objs _ _ B) as H. pose proof (b_pid _ _ B fd pid Hr) as Hp. destruct (p_objs w) as [objs|].
  - destruct H as (_ & _ & HR). exists objs. split; [done|]. split; [done|]. specialize (HR fd). rewrite Hr in HR. cbn in HR.
    unfold pid_at in HR. case_decide; [|lia]. destruct (objs !! Z.to_nat fd) as [x|] eqn:Ex; [|lia]. subst x.
    split; [apply lookup_lt_Some in Ex; lia|done].
  - subst R. by rewrite lookup_empty in Hr.
Qed.
Definition after_close (w : prw) (fd : Z) : prw :=
  PW ((fun l => <[Z.to_nat fd := 0]> l) <$> p_objs w) (p_max w) (delete fd (p_tab w)) (p_next w) (p_arg w).
Lemma close_nowait_ok w R fd pid : base w R -> R !! fd = Some pid -> pr_close_nowait w fd = Ret (after_close w fd, pid).
Proof.
  intros B Hr. destruct (reg_range w R fd pid B Hr) as (objs & Eo & HR & Hfd & Hx & Hp).
  unfold pr_close_nowait, after_close. rewrite Eo. destruct (Z.ltb_spec fd 0); [lia|]. unfold aget. rewrite Hx. rb.
  destruct (Z.eqb_spec pid 0); [lia|]. rewrite (obj_set_ok w objs) by done. done.
Qed.
Lemma base_close w R fd pid : base w R -> R !! fd = Some pid -> base (after_close w fd) (delete fd R).
Proof.
  intros B Hr. destruct (reg_range w R fd pid B Hr) as (objs & Eo & HR & Hfd & Hx & Hp).
  pose proof (b_objs _ _ B) as H. rewrite Eo in H. constructor; cbn [after_close p_max p_objs p_tab p_next p_arg].
  - apply (b_max _ _ B).
  - rewrite Eo. cbn. rewrite insert_length. split; [tauto|]. split; [tauto|]. by apply regm_delete.
  - intros s Hs. destruct (b_std _ _ B s Hs) as [H1 H2]. assert (fd <> s) by congruence.
    rewrite !lookup_delete_ne by done. done.
  - intros x y Hxy. apply lookup_delete_Some in Hxy as [_ Hxy]. by eapply (b_pid _ _ B).
  - apply (b_arg _ _ B).
Qed.
Lemma close_inv w R C fd pid : pinv w R C -> R !! fd = Some pid -> pinv (after_close w fd) (delete fd R) C.
Proof.
  intros I Hr. constructor; cbn [after_close p_max p_objs p_tab p_next p_arg].
  - eapply base_close; [apply I|done].
  - intros x e He. apply lookup_delete_Some in He as [_ He]. by eapply (i_nonneg _ _ _ I).
  - intros x e k He Hk. apply lookup_delete_Some in He as [Hne He]. rewrite lookup_delete_ne by done. by eapply (i_ends _ _ _ I).
  - intros x q Hq. apply lookup_delete_Some in Hq as [Hne Hq]. rewrite lookup_delete_ne by done. by apply (i_reg _ _ _ I).
  - intros x y e Hx Hy. apply lookup_delete_Some in Hx as [_ Hx]. apply lookup_delete_Some in Hy as [_ Hy]. by apply (i_inj _ _ _ I).
  - intros q img e k Hin Hh Hk. destruct (i_kid _ _ _ I q img e k Hin Hh Hk) as [H1 H2]. split; [done|].
    intros [x Hx]. apply lookup_delete_Some in Hx as [_ Hx]. apply H2. by exists x.
  - apply (i_kids _ _ _ I).
  - apply (i_std _ _ _ I).
Qed.
Lemma close_unregistered w R fd : base w R -> R !! fd = None -> (is_Some (p_objs w) -> 0 <= fd < p_max w) ->
  pr_close_nowait w fd = Abort.
Proof.
  intros B Hr Hfd. unfold pr_close_nowait. pose proof (b_objs _ _ B) as H. destruct (p_objs w) as [objs|]; [|done].
  destruct H as (H1 & H2 & H3). destruct (Hfd ltac:(eauto)). destruct (Z.ltb_spec fd 0); [lia|].
  specialize (H3 fd). rewrite Hr in H3. cbn in H3. unfold pid_at in H3. rewrite decide_True in H3 by lia. unfold aget.
  destruct (lookup_lt_is_Some_2 objs (Z.to_nat fd)) as [x Hx]; [lia|]. rewrite Hx in H3 |- *. subst x. done.
Qed.

(** ** pr_spawn *)
Lemma spawn_ok o w R s rest ws ans : base w R -> aalloc_ok (o_arg o) -> str_ok s -> Z.of_nat (length s) + 3 < 2 ^ 30 ->
  line true true s ws ->
  match pr_spawn o w (s ++ 0%N :: rest) ans with
  | Ret (w', r, c) => base w' R /\ p_tab w' = p_tab w /\ p_next w' = p_next w /\ c = Img (p_tab w) ws /\
                      exists l, pr_wait ans = Ret (r, l)
  | Fatal => os_can_fail o
  | Diverge => pr_wait ans = Diverge
  | _ => False
  end.
Proof.
  intros B Hal Hs Hl Hline. unfold pr_spawn.
  pose proof (init_ok o w R B) as H0. destruct (pr_init o w) as [w0| | | |] eqn:E0; try done; [|cbn; by left].
  destruct H0 as (objs & -> & Hlen & HR). rb. cbn [p_arg]. destruct (b_arg _ _ B) as [G HG].
  pose proof (command_ok (o_arg o) (p_arg w) G s rest ws HG Hal Hs Hl Hline) as H1.
  destruct (arg_argify (o_arg o) (p_arg w) (s ++ 0%N :: rest) 0) as [[aw l]| | | |] eqn:E1; try done.
  2: { cbn. right. by left. }
  destruct H1 as (c & v & aw' & Hv & Hex & Hd & HG'). rb. rewrite Hv. rb.
  destruct (Z.ltb_spec (o_fork o) 0); [unfold os_can_fail; tauto|]. rewrite Hex. rb. rewrite Hd. rb.
  assert (Hw : forall x, pr_wait x <> Fatal /\ pr_wait x <> Abort /\ pr_wait x <> UB).
  { induction x as [|a x IH]; [done|]. destruct a; cbn; try done. }
  destruct (pr_wait ans) as [[r rest']| | | |] eqn:Ew; cbn [mbind res_bind]; try (destruct (Hw ans) as (? & ? & ?); congruence); try done.
  cbn [set_arg p_tab p_next p_objs p_max p_arg]. split; [|eauto].
  pose proof (limit_pos o w (b_max _ _ B)). constructor; cbn.
  - lia.
  - done.
  - apply (b_std _ _ B).
  - apply (b_pid _ _ B).
  - eauto.
Qed.

Lemma pinv_frame w R C w' : pinv w R C -> base w' R -> p_tab w' = p_tab w -> p_next w' = p_next w -> pinv w' R C.
Proof.
  intros I B Et En. constructor; rewrite ?Et, ?En; [exact B|apply I..].
Qed.
Lemma pinv_step s s' : pcall s s' -> pinv (ps_w s) (ps_reg s) (ps_kids s) -> pinv (ps_w s') (ps_reg s') (ps_kids s').
Proof.
  destruct 1 as [o w R C s rest ws cb flags infd outfd errfd w' p Ho Hp Hpol Hcb Hs Hl Hline E
    |w R C fd pid w' pid' Hr E|o w R C s rest ws ans w' r c Hal Hs Hl Hline E|w R C fd n Hfd Hr|w R C fd Hfd Hr|w R C a G HG|w C ans w' l E];
    cbn [ps_w ps_reg ps_kids]; intros I.
  - pose proof (open_ok o w R s rest ws cb flags infd outfd errfd (i_base _ _ _ I) Ho Hp Hpol Hs Hl Hline) as H.
    rewrite E in H. cbn [ok] in H. destruct H as (HB & _ & _ & K & T & HE & Hn & HK). by eapply open_inv.
  - rewrite (close_nowait_ok w R fd pid (i_base _ _ _ I) Hr) in E. injection E as <- <-. by eapply close_inv.
  - pose proof (spawn_ok o w R s rest ws ans (i_base _ _ _ I) Hal Hs Hl Hline) as H. rewrite E in H.
    destruct H as (HB & Ht & Hn & _). by eapply pinv_frame.
  - assert (Hold : forall e, p_tab w !! fd = Some e -> pipe_of e = None).
    { intros e He. destruct (pipe_of e) as [k|] eqn:Ek; [|done]. destruct (i_ends _ _ _ I fd e k He Ek) as [_ [x Hx]]. congruence. }
    constructor; cbn [p_tab p_next p_objs p_max p_arg].
    + pose proof (i_base _ _ _ I) as B. constructor; cbn [p_tab p_next p_objs p_max p_arg]; try apply B.
      intros s Hs. destruct (b_std _ _ B s Hs) as [H1 H2]. split; [|done]. destruct (decide (fd = s)) as [->|]; [rewrite lookup_insert; eauto|].
      by rewrite lookup_insert_ne.
    + intros x e He. apply lookup_insert_Some in He as [[<- _]|[_ He]]; [done|]. by eapply (i_nonneg _ _ _ I).
    + intros x e k He Hk. apply lookup_insert_Some in He as [[<- <-]|[_ He]]; [done|]. by eapply (i_ends _ _ _ I).
    + intros x pid Hx. destruct (i_reg _ _ _ I x pid Hx) as (e & k & img & He & Hrest). exists e, k, img.
      assert (fd <> x) by congruence. by rewrite lookup_insert_ne.
    + intros x y e Hx Hy Hk. apply lookup_insert_Some in Hx as [[<- <-]|[_ Hx]]; [done|].
      apply lookup_insert_Some in Hy as [[<- <-]|[_ Hy]]; [done|]. by eapply (i_inj _ _ _ I).
    + intros q img e k Hin Hh Hk. destruct (i_kid _ _ _ I q img e k Hin Hh Hk) as [H1 H2]. split; [done|].
      intros [x Hx]. apply lookup_insert_Some in Hx as [[<- <-]|[_ Hx]]; [done|]. apply H2. by exists x.
    + apply (i_kids _ _ _ I).
    + apply (i_std _ _ _ I).
  - unfold tab_close, c_close. constructor; cbn [p_tab p_next p_objs p_max p_arg].
    + pose proof (i_base _ _ _ I) as B. constructor; cbn [p_tab p_next p_objs p_max p_arg]; try apply B.
      intros s Hs. destruct (b_std _ _ B s Hs) as [H1 H2]. split; [|done]. apply stream_range in Hs. by rewrite lookup_delete_ne by lia.
    + intros x e He. apply lookup_delete_Some in He as [_ He]. by eapply (i_nonneg _ _ _ I).
    + intros x e k He Hk. apply lookup_delete_Some in He as [Hne He]. by eapply (i_ends _ _ _ I).
    + intros x q Hq. assert (fd <> x) by congruence. rewrite lookup_delete_ne by done. by apply (i_reg _ _ _ I).
    + intros x y e Hx Hy. apply lookup_delete_Some in Hx as [_ Hx]. apply lookup_delete_Some in Hy as [_ Hy]. by apply (i_inj _ _ _ I).
    + intros q img e k Hin Hh Hk. destruct (i_kid _ _ _ I q img e k Hin Hh Hk) as [H1 H2]. split; [done|].
      intros [x Hx]. apply lookup_delete_Some in Hx as [_ Hx]. apply H2. by exists x.
    + apply (i_kids _ _ _ I).
    + apply (i_std _ _ _ I).
  - eapply pinv_frame; [done| |done|done]. pose proof (i_base _ _ _ I) as B. constructor; try apply B. cbn. eauto.
  - pose proof (i_base _ _ _ I) as B. unfold pr_shutdown in E. destruct (p_objs w) as [objs|] eqn:Eo; [|by injection E as <- <-].
    destruct (shutdown_loop objs ans) as [x| | | |]; cbn [mbind res_bind] in E; try discriminate E. injection E as <- <-.
    eapply pinv_frame; [done| |done|done]. constructor; cbn [p_max p_objs p_tab p_arg]; try apply B. done.
Qed.
Lemma history_pinv s : pr_history s -> pinv (ps_w s) (ps_reg s) (ps_kids s).
Proof.
  induction 1 as [t Ht|s s' _ IH Hc]; [by apply pinv_start|by eapply pinv_step].
Qed.
