(** Proofs about PrModel: flags, one call of each function. *)
From Verif Require Import Base Alloc ListLemmas CStr StackModel StackProofs ObjModel ObjProofs MemModel MemProofs MemHist.
From Verif Require Import ArgModel ArgProofs ArgSpec ArgHist ArgProps PrModel PrSpec.
Local Open Scope Z_scope.

(** ** Flags *)
Lemma has_bit flags i : 0 <= i -> has flags (2 ^ i) = Z.testbit flags i.
Proof.
  intros Hi. unfold has. destruct (Z.testbit flags i) eqn:E.
  - apply negb_true_iff, Z.eqb_neq. intros H. apply (f_equal (fun x => Z.testbit x i)) in H.
    rewrite Z.land_spec, E, Z.pow2_bits_true, Z.bits_0 in H by done. done.
  - apply negb_false_iff, Z.eqb_eq. apply Z.bits_inj. intros j. rewrite Z.land_spec, Z.bits_0.
    destruct (decide (i = j)) as [->|Hne]; [by rewrite E|]. rewrite Z.pow2_bits_false by lia. apply andb_false_r.
Qed.
Lemma has_flags flags :
  has flags PR_USE_STDIN = uses flags 0 /\ has flags PR_USE_STDOUT = uses flags 1 /\ has flags PR_USE_STDERR = uses flags 2 /\
  has flags PR_CREATE_STDIN = creates flags 0 /\ has flags PR_CREATE_STDOUT = creates flags 1 /\
  has flags PR_CREATE_STDERR = creates flags 2 /\ has flags PR_STDERR_TO_STDOUT = merges flags.
Proof.
  unfold uses, creates, merges.
  split; [apply (has_bit _ 0); lia|]. split; [apply (has_bit _ 1); lia|]. split; [apply (has_bit _ 2); lia|].
  split; [apply (has_bit _ 4); lia|]. split; [apply (has_bit _ 5); lia|]. split; [apply (has_bit _ 6); lia|].
  apply (has_bit _ 8); lia.
Qed.
Lemma mask_bit i : Z.testbit 375 i = true <-> stream i \/ stream (i - 4) \/ i = 8.
Proof.
  unfold stream. destruct (decide (i < 0)) as [|Hi]; [rewrite Z.testbit_neg_r by done; split; [done|lia]|].
  destruct (decide (9 <= i)).
  { rewrite Z.bits_above_log2; [split; [done|lia]|lia|]. change (Z.log2 375) with 8. lia. }
  assert (H : i = 0 \/ i = 1 \/ i = 2 \/ i = 3 \/ i = 4 \/ i = 5 \/ i = 6 \/ i = 7 \/ i = 8) by lia.
  destruct H as [->|[->|[->|[->|[->|[->|[->|[->| ->]]]]]]]]; cbn; split; (lia || done).
Qed.
Lemma has_mask flags : has flags (Z.lnot 375) = false <->
  (forall i, Z.testbit flags i = true -> stream i \/ stream (i - 4) \/ i = 8).
Proof.
  unfold has. rewrite negb_false_iff, Z.eqb_eq. split.
  - intros H i Hi. apply mask_bit. destruct (decide (i < 0)); [by rewrite Z.testbit_neg_r in Hi|].
    apply (f_equal (fun x => Z.testbit x i)) in H. rewrite Z.land_spec, Z.bits_0, Hi, Z.lnot_spec in H by lia.
    by destruct (Z.testbit 375 i).
  - intros H. apply Z.bits_inj. intros i. rewrite Z.land_spec, Z.bits_0.
    destruct (decide (i < 0)); [by rewrite Z.testbit_neg_r by done|].
    destruct (Z.testbit flags i) eqn:E; [|done]. apply H, mask_bit in E. rewrite Z.lnot_spec by lia. by rewrite E.
Qed.
Lemma flags_legal flags : pr_flags_bad flags = false <-> legal flags.
Proof.
  unfold pr_flags_bad. destruct (has_flags flags) as (-> & -> & -> & -> & -> & -> & ->).
  rewrite !orb_false_iff. change (Z.lor PR_USE_STDIN _) with 375. rewrite has_mask. unfold legal. split.
  - intros ((((H1 & H2) & H3) & H4) & H5). split; [done|]. split.
    + intros s [->|[->| ->]] Hu Hc; [rewrite Hu, Hc in H2|rewrite Hu, Hc in H3|rewrite Hu, Hc in H4]; done.
    + intros Hm. rewrite Hm in H5. by apply orb_false_iff in H5.
  - intros (H1 & H2 & H3). split; [split; [split; [split; [done|]|]|]|].
    + destruct (uses flags 0) eqn:Hu, (creates flags 0) eqn:Hc; try done. exfalso. apply (H2 0); unfold stream; auto.
    + destruct (uses flags 1) eqn:Hu, (creates flags 1) eqn:Hc; try done. exfalso. apply (H2 1); unfold stream; auto.
    + destruct (uses flags 2) eqn:Hu, (creates flags 2) eqn:Hc; try done. exfalso. apply (H2 2); unfold stream; auto.
    + destruct (merges flags) eqn:Hm; [|done]. destruct (H3 eq_refl) as [-> ->]. done.
Qed.
Lemma max_fd_limit o w : max_fd o w = limit o w.
Proof.
  unfold max_fd, limit. destruct (Z.eqb_spec (p_max w) 0); [rewrite decide_True by done|by rewrite decide_False by done].
  destruct (Z.gtb_spec (o_limit o) 0); case_decide; (done || lia).
Qed.
Lemma limit_pos o w : 0 <= p_max w -> 0 < limit o w.
Proof. intros H. unfold limit. repeat case_decide; lia. Qed.

(** ** The child *)
(** the standard stream [n] becomes [e], the descriptors [gone] are closed *)
Definition rewired (t t' : ftab) (n : Z) (e : option endp) (gone : list Z) : Prop :=
  t' !! n = e /\ forall fd, fd <> n -> t' !! fd = if decide (fd ∈ gone) then None else t !! fd.
Lemma rewired_refl t n : rewired t t n (t !! n) [].
Proof. split; [done|]. intros fd Hfd. by rewrite decide_False by (intros H; by apply elem_of_nil in H). Qed.
Lemma child_create o t shut keep e n use fd wr : t !! keep = Some e -> shut <> keep -> shut <> n -> keep <> n ->
  exists t', child_std o true use (Some (shut, keep)) fd n wr t = Ret t' /\ rewired t t' n (Some e) [shut; keep].
Proof.
  intros Hk H1 H2 H3. eexists. split; [reflexivity|]. unfold c_close, c_dup2.
  rewrite lookup_delete_ne, Hk by done. split.
  - rewrite lookup_delete_ne by done. by rewrite lookup_insert.
  - intros x Hx. destruct (decide (x = keep)) as [->|].
    { rewrite lookup_delete, decide_True; [done|]. set_solver. }
    rewrite lookup_delete_ne by done. rewrite lookup_insert_ne by done.
    destruct (decide (x = shut)) as [->|].
    { rewrite lookup_delete, decide_True; [done|]. set_solver. }
    rewrite lookup_delete_ne by done. rewrite decide_False; [done|]. set_solver.
Qed.
Lemma child_use o t f e n fds wr : t !! f = Some e -> f <> 0 -> f <> n ->
  exists t', child_std o false true fds (Some f) n wr t = Ret t' /\ rewired t t' n (Some e) [f].
Proof.
  intros Hk H1 H2. eexists. cbn [child_std]. rewrite (proj2 (Z.eqb_neq f 0) H1). cbn [negb]. split; [reflexivity|].
  unfold c_close, c_dup2. rewrite Hk. split.
  - rewrite lookup_delete_ne by done. by rewrite lookup_insert.
  - intros x Hx. destruct (decide (x = f)) as [->|].
    { rewrite lookup_delete, decide_True; [done|]. set_solver. }
    rewrite lookup_delete_ne by done. rewrite lookup_insert_ne by done. rewrite decide_False; [done|]. set_solver.
Qed.
(** /dev/null, if it can be opened *)
Definition null_end (o : os) (t : ftab) (n : Z) (wr : bool) : option endp :=
  match o_null o t with Some _ => Some (DevNull wr) | None => t !! n end.
Lemma child_null o m t n fds fd wr : os_ok o m -> is_Some (t !! n) -> fd = None \/ fd = Some 0 ->
  exists t', child_std o false true fds fd n wr t = Ret t' /\ rewired t t' n (null_end o t n wr) [].
Proof.
  intros Ho Hn Hf. unfold null_end.
  assert (E : child_std o false true fds fd n wr t =
    match o_null o t with
    | Some q => Ret (c_close (c_dup2 (<[q := DevNull wr]> t) q n) q)
    | None => Ret t
    end). { destruct Hf as [->| ->]; [done|]. done. }
  rewrite E. destruct (o_null o t) as [q|] eqn:Eq.
  - destruct (os_null _ _ Ho _ _ Eq) as [Hq _]. eexists. split; [reflexivity|].
    assert (n <> q) by (intros ->; rewrite Hq in Hn; by destruct Hn).
    unfold c_close, c_dup2. rewrite lookup_insert. split.
    + rewrite lookup_delete_ne by done. by rewrite lookup_insert.
    + intros x Hx. rewrite decide_False by (intros H'; by apply elem_of_nil in H').
      destruct (decide (x = q)) as [->|]; [by rewrite lookup_delete|].
      rewrite lookup_delete_ne by done. rewrite lookup_insert_ne by done. by rewrite lookup_insert_ne by done.
  - eexists. split; [reflexivity|]. apply rewired_refl.
Qed.

Definition pid_at (objs : list Z) (fd : Z) : Z :=
  if decide (0 <= fd) then match objs !! Z.to_nat fd with Some p => p | None => 0 end else 0.
Lemma close_registered_lookup objs t i fd :
  close_registered i objs t !! fd = if decide (0 < pid_at objs (fd - i)) then None else t !! fd.
Proof.
  revert i t. induction objs as [|pid objs IH]; intros i t; cbn [close_registered].
  { rewrite decide_False; [done|]. unfold pid_at. case_decide; [|lia]. rewrite lookup_nil. lia. }
  rewrite IH. replace (fd - (i + 1)) with (fd - i - 1) by lia. unfold pid_at.
  destruct (decide (fd = i)) as [->|Hne].
  - rewrite (decide_False (P := 0 <= i - i - 1)) by lia. rewrite (decide_False (P := 0 < 0)) by lia.
    rewrite Z.sub_diag. rewrite (decide_True (P := 0 <= 0)) by lia. change ((pid :: objs) !! Z.to_nat 0) with (Some pid). cbv iota.
    destruct (Z.gtb_spec pid 0).
    + rewrite decide_True by lia. unfold c_close. by rewrite lookup_delete.
    + by rewrite decide_False by lia.
  - assert (Et : (if pid >? 0 then c_close t i else t) !! fd = t !! fd).
    { destruct (pid >? 0); [|done]. unfold c_close. by rewrite lookup_delete_ne. }
    rewrite Et. destruct (decide (0 <= fd - i)).
    + rewrite (decide_True (P := 0 <= fd - i - 1)) by lia.
      replace (Z.to_nat (fd - i)) with (S (Z.to_nat (fd - i - 1))) by lia. done.
    + rewrite (decide_False (P := 0 <= fd - i - 1)) by lia. done.
Qed.

(** ** The words handed to execvp *)
Lemma exec_words_ok bl (ws : list (list N)) v :
  (forall i a, ws !! i = Some a -> str_ok a) ->
  v !! length ws = Some (Some None) ->
  (forall i x, ws !! i = Some x -> exists a, v !! i = Some (Some (Some a)) /\ bl !! a = Some (x ++ [0%N])) ->
  exec_words bl v = Ret ws.
Proof.
  revert v. induction ws as [|x ws IH]; intros v Hok Hend Hw.
  - destruct v as [|y v]; [done|]. cbn in Hend. injection Hend as ->. done.
  - destruct (Hw 0%nat x eq_refl) as (a & Ha & Hb). destruct v as [|y v]; [done|]. cbn in Ha. injection Ha as ->.
    cbn [exec_words]. unfold hget. rewrite Hb. rb. rewrite c_string_spec by (by apply (Hok 0%nat)). rb.
    rewrite IH; [done|intros i z Hz; by apply (Hok (S i))|done|].
    intros i z Hz. by apply (Hw (S i)).
Qed.
Lemma piece_ok esc quo t v : piece esc quo t v -> str_ok t -> str_ok v.
Proof.
  unfold str_ok. destruct 1; intros Hs; [done|..].
  - by apply Forall_cons in Hs as [_ Hs].
  - apply Forall_cons in Hs as [_ Hs]. by apply Forall_app in Hs as [Hs _].
  - apply Forall_cons in Hs as [_ Hs]. by apply Forall_app in Hs as [Hs _].
Qed.
Lemma word_ok esc quo t v : word esc quo t v -> str_ok t -> str_ok v.
Proof.
  induction 1 as [t v Hp|t v t' v' Hp _ IH]; intros Hs; [by eapply piece_ok|].
  apply Forall_app in Hs as [H1 H2]. apply Forall_app. split; [by eapply piece_ok|by apply IH].
Qed.
Lemma last_word_ok esc quo t v : last_word esc quo t v -> str_ok t -> str_ok v.
Proof.
  induction 1 as [t v Hp|t v Hp|t v t' v' Hp _ IH]; intros Hs; [by eapply word_ok| |].
  - destruct Hp; [constructor|..]; by apply Forall_cons in Hs as [_ Hs].
  - apply Forall_app in Hs as [H1 H2]. apply Forall_app. split; [by eapply piece_ok|by apply IH].
Qed.
Lemma line_ok esc quo s ws : line esc quo s ws -> str_ok s -> Forall str_ok ws.
Proof.
  induction 1 as [|c s ws Hb _ IH|t v Hl|t v c s ws Hw Hb _ IH]; intros Hs.
  - constructor.
  - apply IH. by apply Forall_cons in Hs as [_ Hs].
  - constructor; [by eapply last_word_ok|constructor].
  - apply Forall_app in Hs as [H1 H2]. apply Forall_cons in H2 as [_ H2]. constructor; [by eapply word_ok|by apply IH].
Qed.
(** parsing the command and freeing it again *)
Lemma command_ok al w G s rest ws : arg_history w G -> aalloc_ok al -> str_ok s -> Z.of_nat (length s) + 3 < 2 ^ 30 ->
  line true true s ws ->
  ok (fun '(w', p) => exists c v w'', arg_get_vector w' (Some p) = Ret (c, v) /\ exec_words (mblk (amem w')) v = Ret ws /\ arg_destroy w' (Some p) = Ret w'' /\ arg_history w'' G)
     (afail al) (arg_argify al w (s ++ 0%N :: rest) 0).
Proof.
  intros H Hal Hs Hl Hline. eapply ok_mono; [apply (C41_argify w G al s rest 0 ws H Hal Hs Hl Hline)| |done].
  intros [w' p] (Hn & (g & H') & Hc & Hw).
  destruct (C40_vector w' _ p g H' (lookup_insert _ _ _)) as (Hc' & v & Hv & Hend & Hvec).
  assert (El : length (s_done g) = length ws) by (rewrite Hc in Hc'; injection Hc'; lia).
  destruct (C40_destroy w' _ p g H' (lookup_insert _ _ _)) as (w'' & Hd & H'' & _).
  rewrite delete_insert in H'' by done. exists (Z.of_nat (length (s_done g))), v, w''. split; [done|]. split; [|done].
  pose proof (line_ok _ _ _ _ Hline Hs) as Hf. apply exec_words_ok.
  - intros i a Hi. rewrite Forall_lookup in Hf. by eapply Hf.
  - by rewrite <- El.
  - intros i x Hi. destruct (Hw i x Hi) as (a & Ha & Hb). exists a. split; [|done].
    assert (Hlt : (i < length (s_done g))%nat) by (rewrite El; by eapply lookup_lt_Some).
    apply lookup_lt_is_Some in Hlt as [[a' b'] Hi']. pose proof (C40_get w' _ p g i H' (lookup_insert _ _ _) _ _ Hi') as E.
    rewrite Ha in E. injection E as ->. by eapply Hvec.
Qed.

(** ** The pipes *)
Definition add_pipe (w : prw) (r q : Z) : prw :=
  PW (p_objs w) (p_max w) (<[q := WEnd (p_next w)]> (<[r := REnd (p_next w)]> (p_tab w))) (Pos.succ (p_next w)) (p_arg w).
Lemma c_pipe_ok o m (b : bool) w : os_ok o m ->
  ok (fun '(w', p) => if b then exists r q, p = Some (r, q) /\ w' = add_pipe w r q /\ p_tab w !! r = None /\
        p_tab w !! q = None /\ r <> q /\ 0 <= r < m /\ 0 <= q < m
      else w' = w /\ p = None) (exists t, o_pipe o t = None) (c_pipe o b w).
Proof.
  intros Ho. unfold c_pipe. destruct b; [|done]. destruct (o_pipe o (p_tab w)) as [[r q]|] eqn:E; [|cbn; eauto].
  cbn. exists r, q. split; [done|]. split; [done|]. by apply (os_pipe _ _ Ho).
Qed.
Record pipes_ok (w w3 : prw) (m flags : Z) (P : Z -> option (Z * Z)) (K : Z -> positive) : Prop := {
  po_some : forall s, stream s -> creates flags s = true -> exists r q, P s = Some (r, q) /\
     p_tab w3 !! r = Some (REnd (K s)) /\ p_tab w3 !! q = Some (WEnd (K s)) /\ p_tab w !! r = None /\ p_tab w !! q = None /\
     r <> q /\ 0 <= r < m /\ 0 <= q < m /\ (p_next w <= K s)%positive /\ (K s < p_next w3)%positive;
  po_none : forall s, stream s -> creates flags s = false -> P s = None;
  po_disj : forall s s' r q r' q', stream s -> stream s' -> s <> s' -> P s = Some (r, q) -> P s' = Some (r', q') ->
     r <> r' /\ r <> q' /\ q <> r' /\ q <> q' /\ K s <> K s';
  po_other : forall fd, (forall s r q, stream s -> P s = Some (r, q) -> fd <> r /\ fd <> q) -> p_tab w3 !! fd = p_tab w !! fd;
  po_next : (p_next w <= p_next w3)%positive;
  po_same : p_objs w3 = p_objs w /\ p_max w3 = p_max w /\ p_arg w3 = p_arg w }.

(** one more pipe *)
Definition upd {A} (f : Z -> A) (s : Z) (x : A) : Z -> A := fun s' => if decide (s' = s) then x else f s'.
Record pipes_upto (w w3 : prw) (m flags n : Z) (P : Z -> option (Z * Z)) (K : Z -> positive) : Prop := {
  pu_some : forall s, 0 <= s < n -> creates flags s = true -> exists r q, P s = Some (r, q) /\
     p_tab w3 !! r = Some (REnd (K s)) /\ p_tab w3 !! q = Some (WEnd (K s)) /\ p_tab w !! r = None /\ p_tab w !! q = None /\
     r <> q /\ 0 <= r < m /\ 0 <= q < m /\ (p_next w <= K s)%positive /\ (K s < p_next w3)%positive;
  pu_none : forall s, 0 <= s < n -> creates flags s = false -> P s = None;
  pu_disj : forall s s' r q r' q', 0 <= s < n -> 0 <= s' < n -> s <> s' -> P s = Some (r, q) -> P s' = Some (r', q') ->
     r <> r' /\ r <> q' /\ q <> r' /\ q <> q' /\ K s <> K s';
  pu_other : forall fd, (forall s r q, 0 <= s < n -> P s = Some (r, q) -> fd <> r /\ fd <> q) -> p_tab w3 !! fd = p_tab w !! fd;
  pu_next : (p_next w <= p_next w3)%positive;
  pu_same : p_objs w3 = p_objs w /\ p_max w3 = p_max w /\ p_arg w3 = p_arg w }.
Lemma pipes_more o m flags w w1 n P K : os_ok o m -> 0 <= n -> pipes_upto w w1 m flags n P K ->
  ok (fun '(w2, p) => exists K', pipes_upto w w2 m flags (n + 1) (upd P n p) K')
     (exists t, o_pipe o t = None) (c_pipe o (creates flags n) w1).
Proof.
  intros Ho Hn U. eapply ok_mono; [by eapply c_pipe_ok| |done]. intros [w2 p]. destruct (creates flags n) eqn:Hc.
  - intros (r & q & -> & -> & Hr & Hq & Hne & Hr' & Hq'). exists (upd K n (p_next w1)).
    assert (Old : forall s a b, 0 <= s < n -> P s = Some (a, b) -> a <> r /\ a <> q /\ b <> r /\ b <> q /\ (K s < p_next w1)%positive).
    { intros s a b Hs Hab. destruct (creates flags s) eqn:Hcs; [|by rewrite (pu_none _ _ _ _ _ _ _ U s Hs Hcs) in Hab].
      destruct (pu_some _ _ _ _ _ _ _ U s Hs Hcs) as (a' & b' & E & H1 & H2 & _ & _ & _ & _ & _ & _ & H3).
      rewrite E in Hab. injection Hab as -> ->. split; [|split; [|split; [|split]]]; try (intros ->; congruence). done. }
    assert (New : p_tab w !! r = None /\ p_tab w !! q = None).
    { split; (rewrite <- (pu_other _ _ _ _ _ _ _ U); [done|]); intros s a b Hs Hab; destruct (Old s a b Hs Hab) as (? & ? & ? & ? & ?); split; congruence. }
    unfold add_pipe. constructor; cbn [p_tab p_next p_objs p_max p_arg].
    + intros s Hs Hcs. unfold upd. destruct (decide (s = n)) as [->|Hsn].
      * exists r, q. split; [done|]. split; [rewrite lookup_insert_ne by done; by rewrite lookup_insert|].
        split; [by rewrite lookup_insert|]. destruct New. split; [done|]. split; [done|]. split; [done|]. split; [done|]. split; [done|].
        pose proof (pu_next _ _ _ _ _ _ _ U). lia.
      * destruct (pu_some _ _ _ _ _ _ _ U s ltac:(lia) Hcs) as (a & b & E & H1 & H2 & H3 & H4 & H5 & H6 & H7 & H8 & H9).
        destruct (Old s a b ltac:(lia) E) as (? & ? & ? & ? & ?).
        exists a, b. split; [done|]. rewrite !lookup_insert_ne by done. repeat (split; [done|]). lia.
    + intros s Hs Hcs. unfold upd. destruct (decide (s = n)) as [->|Hsn]; [congruence|]. apply (pu_none _ _ _ _ _ _ _ U); [lia|done].
    + intros s s' a b a' b' Hs Hs' Hss. unfold upd.
      destruct (decide (s = n)) as [->|Hsn], (decide (s' = n)) as [->|Hsn']; try done.
      * intros [= <- <-] E. destruct (Old s' a' b' ltac:(lia) E) as (? & ? & ? & ? & ?).
        split; [congruence|]. split; [congruence|]. split; [congruence|]. split; [congruence|]. lia.
      * intros E [= <- <-]. destruct (Old s a b ltac:(lia) E) as (? & ? & ? & ? & ?).
        split; [congruence|]. split; [congruence|]. split; [congruence|]. split; [congruence|]. lia.
      * apply (pu_disj _ _ _ _ _ _ _ U); lia || done.
    + intros fd Hfd. destruct (Hfd n r q) as [? ?]; [lia|unfold upd; by rewrite decide_True|].
      rewrite !lookup_insert_ne by done. apply (pu_other _ _ _ _ _ _ _ U). intros s a b Hs E.
      apply (Hfd s); [lia|]. unfold upd. by rewrite decide_False by lia.
    + pose proof (pu_next _ _ _ _ _ _ _ U). lia.
    + apply (pu_same _ _ _ _ _ _ _ U).
  - intros [-> ->]. exists K. constructor.
    + intros s Hs Hcs. unfold upd. destruct (decide (s = n)) as [->|Hsn]; [congruence|]. apply (pu_some _ _ _ _ _ _ _ U); [lia|done].
    + intros s Hs Hcs. unfold upd. destruct (decide (s = n)) as [->|Hsn]; [congruence|]. apply (pu_none _ _ _ _ _ _ _ U); [lia|done].
    + intros s s' a b a' b' Hs Hs' Hss. unfold upd.
      destruct (decide (s = n)) as [->|Hsn], (decide (s' = n)) as [->|Hsn']; try done.
      apply (pu_disj _ _ _ _ _ _ _ U); lia || done.
    + intros fd Hfd. apply (pu_other _ _ _ _ _ _ _ U). intros s a b Hs E.
      apply (Hfd s); [lia|]. unfold upd. by rewrite decide_False by lia.
    + apply (pu_next _ _ _ _ _ _ _ U).
    + apply (pu_same _ _ _ _ _ _ _ U).
Qed.
Lemma stream_range s : stream s <-> 0 <= s < 3.
Proof. unfold stream. lia. Qed.
Lemma pipes_start w m flags : pipes_upto w w m flags 0 (fun _ => None) (fun _ => 1%positive).
Proof. constructor; try (intros; lia); done. Qed.
Lemma pipes_all w w3 m flags P K pin pout perr : pipes_upto w w3 m flags 3 P K ->
  (forall s, stream s -> P s = arg3 pin pout perr s) -> pipes_ok w w3 m flags (arg3 pin pout perr) K.
Proof.
  intros U HP. constructor.
  - intros s Hs Hc. rewrite <- HP by done. apply (pu_some _ _ _ _ _ _ _ U); [by apply stream_range|done].
  - intros s Hs Hc. rewrite <- HP by done. apply (pu_none _ _ _ _ _ _ _ U); [by apply stream_range|done].
  - intros s s' r q r' q' Hs Hs'. rewrite <- !HP by done. apply (pu_disj _ _ _ _ _ _ _ U); by apply stream_range.
  - intros fd Hfd. apply (pu_other _ _ _ _ _ _ _ U). intros s r q Hs E. apply stream_range in Hs.
    apply (Hfd s r q Hs). by rewrite <- HP.
  - apply (pu_next _ _ _ _ _ _ _ U).
  - apply (pu_same _ _ _ _ _ _ _ U).
Qed.

(** ** The three streams of the child *)
Definition gone (flags : Z) (fds : Z -> option Z) (P : Z -> option (Z * Z)) (s : Z) : list Z :=
  if creates flags s then match P s with Some (r, q) => [r; q] | None => [] end
  else if uses flags s then match fds s with Some f => if decide (f = 0) then [] else [f] | None => [] end
  else [].
Lemma rewired_perm t t' n e l l' : (forall x, x ∈ l <-> x ∈ l') -> rewired t t' n e l -> rewired t t' n e l'.
Proof.
  intros Hl [H1 H2]. split; [done|]. intros fd Hfd. rewrite (H2 fd Hfd). by apply decide_ext.
Qed.
Section streams.
Context (o : os) (m : Z) (w w3 : prw) (flags : Z) (fds : Z -> option Z) (P : Z -> option (Z * Z)) (K : Z -> positive).
Hypothesis Ho : os_ok o m.
Hypothesis Hp : proper (p_tab w) m flags fds.
Hypothesis Hpipes : pipes_ok w w3 m flags P K.
Hypothesis Hstd : forall s, stream s -> is_Some (p_tab w !! s).

Lemma not_both s : stream s -> creates flags s = true -> uses flags s = false.
Proof.
  intros Hs Hc. destruct (uses flags s) eqn:Hu; [|done]. exfalso.
  destruct (pr_legal _ _ _ _ Hp) as (_ & H & _). by eapply H.
Qed.
Lemma gone_spec s fd : stream s -> fd ∈ gone flags fds P s <->
  (exists r q, P s = Some (r, q) /\ (fd = r \/ fd = q)) \/ given flags fds s fd.
Proof.
  intros Hs. unfold gone, given. destruct (creates flags s) eqn:Hc.
  - rewrite (not_both s Hs Hc). destruct (po_some _ _ _ _ _ _ Hpipes s Hs Hc) as (r & q & E & _). rewrite E.
    rewrite elem_of_cons, elem_of_list_singleton. split.
    + intros H. left. eauto.
    + intros [(r' & q' & [= <- <-] & H)|(H & _)]; [done|done].
  - rewrite (po_none _ _ _ _ _ _ Hpipes s Hs Hc). destruct (uses flags s) eqn:Hu.
    + destruct (fds s) as [f|]; [case_decide|].
      * rewrite elem_of_nil. split; [done|]. intros [(? & ? & ? & _)|(_ & [= <-] & ?)]; done.
      * rewrite elem_of_list_singleton. split; [intros ->; auto|]. intros [(? & ? & ? & _)|(_ & [= <-] & ?)]; done.
      * rewrite elem_of_nil. split; [done|]. intros [(? & ? & ? & _)|(_ & ? & ?)]; done.
    + rewrite elem_of_nil. split; [done|]. intros [(? & ? & ? & _)|(? & ?)]; done.
Qed.
Lemma pipe_fd s r q : stream s -> P s = Some (r, q) ->
  p_tab w !! r = None /\ p_tab w !! q = None /\ 3 <= r < m /\ 3 <= q < m /\ r <> q /\
  p_tab w3 !! r = Some (REnd (K s)) /\ p_tab w3 !! q = Some (WEnd (K s)) /\ creates flags s = true.
Proof.
  intros Hs E. destruct (creates flags s) eqn:Hc; [|by rewrite (po_none _ _ _ _ _ _ Hpipes s Hs Hc) in E].
  destruct (po_some _ _ _ _ _ _ Hpipes s Hs Hc) as (r' & q' & E' & H1 & H2 & H3 & H4 & H5 & H6 & H7 & _).
  rewrite E in E'. injection E' as <- <-.
  assert (forall x, p_tab w !! x = None -> 0 <= x -> 3 <= x) as Hx.
  { intros x Hn Hx. destruct (decide (x < 3)); [|lia]. exfalso.
    destruct (Hstd x) as [? Hs']; [apply stream_range; lia|]. congruence. }
  pose proof (Hx r H3). pose proof (Hx q H4).
  split; [done|]. split; [done|]. split; [lia|]. split; [lia|]. done.
Qed.
Lemma gone_range s fd : stream s -> fd ∈ gone flags fds P s -> 3 <= fd < m.
Proof.
  intros Hs H. apply gone_spec in H as [(r & q & E & H)|H]; [|by eapply (pr_given _ _ _ _ Hp)|done].
  destruct (pipe_fd s r q Hs E) as (_ & _ & ? & ? & _). destruct H; subst; lia.
Qed.
Lemma gone_disj s s' fd : stream s -> stream s' -> s <> s' -> fd ∈ gone flags fds P s -> fd ∈ gone flags fds P s' -> False.
Proof.
  intros Hs Hs' Hne H1 H2. apply gone_spec in H1; [|done]. apply gone_spec in H2; [|done].
  destruct H1 as [(r & q & E & H)|H1], H2 as [(r' & q' & E' & H')|H2].
  - destruct (po_disj _ _ _ _ _ _ Hpipes s s' r q r' q') as (? & ? & ? & ? & ?); try done. destruct H, H'; congruence.
  - destruct (pr_given _ _ _ _ Hp s' fd Hs' H2) as [_ [x Hx]].
    destruct (pipe_fd s r q Hs E) as (? & ? & _). destruct H; congruence.
  - destruct (pr_given _ _ _ _ Hp s fd Hs H1) as [_ [x Hx]].
    destruct (pipe_fd s' r' q' Hs' E') as (? & ? & _). destruct H'; congruence.
  - apply Hne. by eapply (pr_twice _ _ _ _ Hp).
Qed.
Lemma open_same fd : is_Some (p_tab w !! fd) -> p_tab w3 !! fd = p_tab w !! fd.
Proof.
  intros [x Hx]. apply (po_other _ _ _ _ _ _ Hpipes). intros s r q Hs E.
  destruct (pipe_fd s r q Hs E) as (? & ? & _). split; congruence.
Qed.
Lemma stage_child s t pp : stream s -> pp = (if decide (s = 0) then swap (P s) else P s) ->
  (forall fd, fd = s \/ fd ∈ gone flags fds P s -> t !! fd = p_tab w3 !! fd) ->
  exists t' e, child_std o (creates flags s) (uses flags s) pp (fds s) s (bool_decide (s <> 0)) t = Ret t' /\
    rewired t t' s e (gone flags fds P s) /\ child_gets o (p_tab w) flags fds s (K s) e.
Proof.
  intros Hs -> Ht. destruct (creates flags s) eqn:Hc.
  - destruct (po_some _ _ _ _ _ _ Hpipes s Hs Hc) as (r & q & E & H1 & H2 & H3 & H4 & H5 & H6 & H7 & _).
    destruct (pipe_fd s r q Hs E) as (_ & _ & Hr & Hq & _). apply stream_range in Hs as Hs'.
    assert (Hg : gone flags fds P s = [r; q]) by (unfold gone; by rewrite Hc, E).
    assert (Hr1 : t !! r = Some (REnd (K s))) by (rewrite Ht; [done|right; rewrite Hg; set_solver]).
    assert (Hq1 : t !! q = Some (WEnd (K s))) by (rewrite Ht; [done|right; rewrite Hg; set_solver]).
    rewrite E. rewrite Hg. unfold child_gets, child_end, given, wants_null. rewrite (not_both s Hs Hc), Hc.
    case_decide as Hs0.
    + subst s. destruct (child_create o t q r _ 0 false (fds 0) (bool_decide (0 <> 0)) Hr1) as (t' & Et & Hrw); [congruence|lia..|].
      exists t', (Some (REnd (K 0))). split; [done|]. split; [eapply rewired_perm; [|exact Hrw]; set_solver|].
      split; [done|]. split; [by intros f (? & ?)|]. split; [by intros (? & ?)|done].
    + destruct (child_create o t r q _ s false (fds s) (bool_decide (s <> 0)) Hq1) as (t' & Et & Hrw); [congruence|lia..|].
      exists t', (Some (WEnd (K s))). split; [done|]. split; [done|].
      split; [done|]. split; [by intros f (? & ?)|]. split; [by intros (? & ?)|done].
  - assert (Hn : (if decide (s = 0) then swap (P s) else P s) = None).
    { rewrite (po_none _ _ _ _ _ _ Hpipes s Hs Hc). by case_decide. }
    rewrite Hn. unfold child_gets. rewrite Hc.
    assert (Hts : t !! s = p_tab w !! s) by (rewrite Ht by auto; apply open_same; auto).
    destruct (uses flags s) eqn:Hu.
    + unfold gone, given, wants_null. rewrite Hc, Hu.
      assert (Null : fds s = None \/ fds s = Some 0 -> exists t' e, child_std o false true None (fds s) s (bool_decide (s <> 0)) t = Ret t' /\
         rewired t t' s e [] /\ (e = Some (DevNull (bool_decide (s <> 0))) \/ e = p_tab w !! s /\ exists t', o_null o t' = None)).
      { intros Hnull. destruct (child_null o m t s None (fds s) (bool_decide (s <> 0)) Ho) as (t' & Et & Hrw).
        - rewrite Hts. auto.
        - done.
        - exists t'. eexists. split; [exact Et|]. split; [exact Hrw|]. unfold null_end. destruct (o_null o t) eqn:En; eauto. }
      destruct (fds s) as [f|] eqn:Ef; [destruct (decide (f = 0)) as [Hf|Hf]|].
      * subst f. destruct Null as (t' & e & Et & Hrw & He); [auto|]. exists t', e. split; [done|]. split; [done|].
        split; [done|]. split; [|done]. intros f (_ & [= <-] & ?). done.
      * destruct (pr_given _ _ _ _ Hp s f Hs) as [Hf3 [x Hx]]; [done|].
        assert (Htf : t !! f = Some x).
        { rewrite Ht; [rewrite open_same; [done|eauto]|]. right. apply gone_spec; [done|]. right. done. }
        apply stream_range in Hs as Hs'.
        destruct (child_use o t f x s None (bool_decide (s <> 0)) Htf) as (t' & Et & Hrw); [done|lia|].
        exists t', (Some x). split; [done|]. split; [done|]. split; [done|]. split; [|split].
        -- by intros f' (_ & [= <-] & _).
        -- intros (_ & [?|[= ?]]); done.
        -- done.
      * destruct Null as (t' & e & Et & Hrw & He); [auto|]. exists t', e. split; [done|]. split; [done|].
        split; [done|]. split; [|done]. intros f (_ & ? & ?). done.
    + unfold gone. rewrite Hc, Hu. exists t, (t !! s). split; [done|]. split; [apply rewired_refl|].
      split; [done|]. split; [by intros f (H & _); congruence|]. split; [by intros (H & _); congruence|]. done.
Qed.

Lemma child_ok objs v ws cb : p_objs w3 = Some objs -> (forall s, stream s -> pid_at objs s = 0) ->
  exec_words (mblk (amem (p_arg w3))) v = Ret ws ->
  (forall fd, stream fd \/ (exists s, stream s /\ fd ∈ gone flags fds P s) -> cb (p_tab w3) !! fd = p_tab w3 !! fd) ->
  exists t e, pr_child o w3 (Some cb) flags (P 0) (P 1) (P 2) (fds 0) (fds 1) (fds 2) v = Ret (Img t ws) /\
    (forall s, stream s -> child_gets o (p_tab w) flags fds s (K s) (e s)) /\
    t !! 0 = e 0 /\ t !! 1 = e 1 /\ (if merges flags then t !! 2 = t !! 1 else t !! 2 = e 2) /\
    (forall fd, ~ stream fd -> t !! fd =
       if decide (fd ∈ gone flags fds P 0 ++ gone flags fds P 1 ++ gone flags fds P 2) then None
       else if decide (0 < pid_at objs fd) then None else cb (p_tab w3) !! fd).
Proof.
  intros Hobjs Hpid Hex Hcb. assert (S0 : stream 0) by (unfold stream; lia). assert (S1 : stream 1) by (unfold stream; lia).
  assert (S2 : stream 2) by (unfold stream; lia).
  assert (Hnot : forall s s', stream s -> stream s' -> s ∉ gone flags fds P s').
  { intros s s' Hs Hs' H. apply gone_range in H; [|done]. apply stream_range in Hs. lia. }
  unfold pr_child. rewrite Hobjs. destruct (has_flags flags) as (-> & -> & -> & -> & -> & -> & ->).
  destruct (stage_child 0 (cb (p_tab w3)) (swap (P 0)) S0 eq_refl) as (t1 & e0 & E1 & [R1 R1'] & G0).
  { intros fd [->|H]; apply Hcb; eauto. }
  change (bool_decide (0 <> 0)) with false in E1. rewrite E1. rb.
  destruct (stage_child 1 t1 (P 1) S1 eq_refl) as (t2 & e1 & E2 & [R2 R2'] & G1).
  { intros fd Hfd. assert (Hne : fd <> 0). { destruct Hfd as [->|H]; [lia|]. apply gone_range in H; [lia|done]. }
    rewrite R1' by done. rewrite decide_False; [destruct Hfd as [->|H]; apply Hcb; eauto|].
    destruct Hfd as [->|H]; [by apply Hnot|]. intros H'. by apply (gone_disj 0 1 fd). }
  change (bool_decide (1 <> 0)) with true in E2. rewrite E2. rb.
  destruct (stage_child 2 t2 (P 2) S2 eq_refl) as (t3 & e2 & E3 & [R3 R3'] & G2).
  { intros fd Hfd. assert (Hne : fd <> 0 /\ fd <> 1). { destruct Hfd as [->|H]; [lia|]. apply gone_range in H; [lia|done]. }
    rewrite R2' by lia. rewrite decide_False; [rewrite R1' by lia; rewrite decide_False; [destruct Hfd as [->|H]; apply Hcb; eauto|]|].
    all: destruct Hfd as [->|H]; [by apply Hnot|]; intros H'.
    - by apply (gone_disj 0 2 fd).
    - by apply (gone_disj 1 2 fd). }
  change (bool_decide (2 <> 0)) with true in E3. rewrite E3. rb. rewrite Hex. rb.
  exists (close_registered 0 objs (if merges flags then c_dup2 t3 1 2 else t3)), (arg3 e0 e1 e2). split; [done|]. split.
  { intros s [->|[->| ->]]; done. }
  assert (L0 : t3 !! 0 = e0). { rewrite R3' by lia. rewrite decide_False by auto. rewrite R2' by lia. by rewrite decide_False by auto. }
  assert (L1 : t3 !! 1 = e1). { rewrite R3' by lia. by rewrite decide_False by auto. }
  assert (Hreg : forall s, stream s -> close_registered 0 objs (if merges flags then c_dup2 t3 1 2 else t3) !! s =
      (if merges flags then c_dup2 t3 1 2 else t3) !! s).
  { intros s Hs. rewrite close_registered_lookup, Z.sub_0_r, Hpid by done. rewrite decide_False by lia. done. }
  assert (Hdup : forall fd, fd <> 2 -> (if merges flags then c_dup2 t3 1 2 else t3) !! fd = t3 !! fd).
  { intros fd Hfd. destruct (merges flags); [|done]. unfold c_dup2. destruct (t3 !! 1); [|done]. by rewrite lookup_insert_ne. }
  rewrite (Hreg 0 S0), (Hreg 1 S1), (Hreg 2 S2), (Hdup 0), (Hdup 1) by lia.
  split; [done|]. split; [done|]. split.
  { destruct (merges flags) eqn:Hm; [|done]. unfold c_dup2. destruct (t3 !! 1) as [x|] eqn:Ex; [by rewrite lookup_insert|].
    exfalso. destruct G1 as (H1 & H2 & H3 & H4). assert (e1 = None) as -> by congruence. destruct (Hstd 1 S1) as [y Hy].
    destruct (creates flags 1) eqn:Hc; [by specialize (H1 eq_refl)|]. destruct (uses flags 1) eqn:Hu.
    - unfold given, wants_null in *. destruct (fds 1) as [f|] eqn:Ef.
      + destruct (decide (f = 0)) as [->|Hf].
        * destruct H3 as [?|[? _]]; [auto|done|congruence].
        * destruct (pr_given _ _ _ _ Hp 1 f S1) as [_ [z Hz]]; [done|]. specialize (H2 f (conj Hu (conj eq_refl Hf))). congruence.
      + destruct H3 as [?|[? _]]; [auto|done|congruence].
    - specialize (H4 eq_refl eq_refl). congruence. }
  intros fd Hfd. assert (Hfd' : fd <> 0 /\ fd <> 1 /\ fd <> 2) by (unfold stream in Hfd; lia).
  rewrite close_registered_lookup, Z.sub_0_r, Hdup by lia. rewrite R3', R2', R1' by lia.
  destruct (decide (fd ∈ gone flags fds P 0 ++ gone flags fds P 1 ++ gone flags fds P 2)) as [Hin|Hin].
  - rewrite !elem_of_app in Hin. destruct (decide (0 < pid_at objs fd)); [done|].
    repeat (case_decide; [done|]). tauto.
  - rewrite !elem_of_app in Hin. rewrite !(decide_False (P := fd ∈ gone flags fds P _)) by tauto. done.
Qed.
End streams.

(** ** The table of pids *)
Definition regm (objs : list Z) (R : gmap Z Z) : Prop := forall fd, pid_at objs fd = default 0 (R !! fd).
Lemma pid_at_insert objs f pid fd : 0 <= f < Z.of_nat (length objs) ->
  pid_at (<[Z.to_nat f := pid]> objs) fd = if decide (fd = f) then pid else pid_at objs fd.
Proof.
  intros Hf. unfold pid_at. destruct (decide (fd = f)) as [->|Hne].
  - rewrite decide_True by lia. by rewrite list_lookup_insert by lia.
  - case_decide; [|done]. rewrite list_lookup_insert_ne by lia. done.
Qed.
Lemma regm_insert objs R f pid : 0 <= f < Z.of_nat (length objs) -> regm objs R ->
  regm (<[Z.to_nat f := pid]> objs) (<[f := pid]> R).
Proof.
  intros Hf HR fd. rewrite pid_at_insert by done. destruct (decide (fd = f)) as [->|]; [by rewrite lookup_insert|].
  by rewrite lookup_insert_ne by done.
Qed.
Lemma regm_delete objs R f : 0 <= f < Z.of_nat (length objs) -> regm objs R ->
  regm (<[Z.to_nat f := 0]> objs) (delete f R).
Proof.
  intros Hf HR fd. rewrite pid_at_insert by done. destruct (decide (fd = f)) as [->|]; [by rewrite lookup_delete|].
  by rewrite lookup_delete_ne by done.
Qed.
Lemma obj_set_ok w objs f pid : p_objs w = Some objs -> 0 <= f < Z.of_nat (length objs) ->
  obj_set w f pid = Ret (PW (Some (<[Z.to_nat f := pid]> objs)) (p_max w) (p_tab w) (p_next w) (p_arg w)).
Proof.
  intros E Hf. unfold obj_set. rewrite E. destruct (Z.ltb_spec f 0); [lia|]. unfold aset.
  destruct (lookup_lt_is_Some_2 objs (Z.to_nat f)) as [x Hx]; [lia|]. by rewrite Hx.
Qed.

(** ** The parent *)
Definition kept (s : Z) (rq : Z * Z) : Z := if decide (s = 0) then rq.2 else rq.1.
Definition shut (s : Z) (rq : Z * Z) : Z := if decide (s = 0) then rq.1 else rq.2.
Definition closed_by (flags : Z) (fds : Z -> option Z) (P : Z -> option (Z * Z)) (s : Z) : list Z :=
  if creates flags s then match P s with Some rq => [shut s rq] | None => [] end
  else gone flags fds P s.
Section parent.
Context (o : os) (m : Z) (w w3 : prw) (flags : Z) (fds : Z -> option Z) (P : Z -> option (Z * Z)) (K : Z -> positive).
Hypothesis Hp : proper (p_tab w) m flags fds.
Hypothesis Hpipes : pipes_ok w w3 m flags P K.
Hypothesis Hstd : forall s, stream s -> is_Some (p_tab w !! s).
Lemma stage_parent s w1 objs pp pid (res : Z -> option Z) : stream s -> pp = (if decide (s = 0) then P s else swap (P s)) ->
  p_objs w1 = Some objs -> Z.of_nat (length objs) = m ->
  res s = (if creates flags s then kept s <$> P s else fds s) ->
  exists w2 objs', parent_std pid (creates flags s) (uses flags s) pp (fds s) w1 = Ret (w2, res s) /\
    (forall fd, p_tab w2 !! fd = if decide (fd ∈ closed_by flags fds P s) then None else p_tab w1 !! fd) /\
    p_max w2 = p_max w1 /\ p_next w2 = p_next w1 /\ p_arg w2 = p_arg w1 /\
    p_objs w2 = Some objs' /\ length objs' = length objs /\
    forall R, regm objs R -> regm objs' (reg1 flags fds res pid s R).
Proof.
  intros Hs -> Hobjs Hm Hres. unfold closed_by, reg1.
  assert (Del : forall f (t : ftab) fd, delete f t !! fd = if decide (fd ∈ [f]) then None else t !! fd).
  { intros f t fd. destruct (decide (fd = f)) as [->|Hne].
    - rewrite lookup_delete, decide_True; [done|]. by apply elem_of_list_singleton.
    - rewrite lookup_delete_ne, decide_False; [done| |done]. by rewrite elem_of_list_singleton. }
  assert (Nil : forall (t : ftab) fd, t !! fd = if decide (fd ∈ @nil Z) then None else t !! fd).
  { intros t fd. rewrite decide_False; [done|]. intros H. by apply elem_of_nil in H. }
  destruct (creates flags s) eqn:Hc.
  - destruct (po_some _ _ _ _ _ _ Hpipes s Hs Hc) as (r & q & E & H1 & H2 & H3 & H4 & H5 & H6 & H7 & _).
    destruct (pr_place _ _ _ _ Hp s Hs Hc) as [x Hx]. rewrite E, Hx, Hres, E. cbn [fmap option_fmap option_map].
    unfold parent_std, kept, shut. case_decide; cbn [swap fmap option_fmap option_map fst snd].
    + rewrite (obj_set_ok _ objs) by (done || lia). rb. eexists _, _. split; [reflexivity|].
      cbn [p_tab p_max p_next p_arg p_objs tab_close]. split; [apply Del|]. repeat (split; [done|]).
      split; [apply insert_length|]. intros R HR. by apply regm_insert; [lia|].
    + rewrite (obj_set_ok _ objs) by (done || lia). rb. eexists _, _. split; [reflexivity|].
      cbn [p_tab p_max p_next p_arg p_objs tab_close]. split; [apply Del|]. repeat (split; [done|]).
      split; [apply insert_length|]. intros R HR. by apply regm_insert; [lia|].
  - unfold gone. rewrite Hc, Hres. destruct (uses flags s) eqn:Hu.
    + unfold parent_std. destruct (fds s) as [f|] eqn:Ef; [destruct (decide (f = 0)) as [->|Hf]|].
      * exists w1, objs. split; [done|]. split; [apply Nil|]. done.
      * destruct (pr_given _ _ _ _ Hp s f Hs) as [Hf3 _]; [done|].
        rewrite (proj2 (Z.eqb_neq f 0) Hf). cbn [negb]. rewrite (obj_set_ok _ objs) by (done || lia). rb. eexists _, _. split; [reflexivity|].
        cbn [p_tab p_max p_next p_arg p_objs tab_close]. split; [apply Del|]. repeat (split; [done|]).
        split; [apply insert_length|]. intros R HR. by apply regm_delete; [lia|].
      * exists w1, objs. split; [done|]. split; [apply Nil|]. done.
    + exists w1, objs. split; [done|]. split; [apply Nil|]. done.
Qed.
End parent.

(** ** pr_open2 *)
Record base (w : prw) (R : gmap Z Z) : Prop := {
  b_max : 0 <= p_max w;
  b_objs : match p_objs w with
           | None => R = ∅
           | Some objs => 0 < p_max w /\ Z.of_nat (length objs) = p_max w /\ regm objs R
           end;
  b_std : forall s, stream s -> is_Some (p_tab w !! s) /\ R !! s = None;
  b_pid : forall fd pid, R !! fd = Some pid -> 0 < pid;
  b_arg : exists G, arg_history (p_arg w) G }.
Lemma init_ok o w R : base w R ->
  ok (fun w' => exists objs, w' = PW (Some objs) (limit o w) (p_tab w) (p_next w) (p_arg w) /\
        Z.of_nat (length objs) = limit o w /\ regm objs R) (o_mem o = false) (pr_init o w).
Proof.
  intros B. unfold pr_init. pose proof (b_objs _ _ B) as H. pose proof (b_max _ _ B).
  destruct (p_objs w) as [objs|] eqn:E.
  - cbn. exists objs. destruct H as (H1 & H2 & H3). assert (El : limit o w = p_max w) by (unfold limit; case_decide; [lia|done]).
    rewrite El. split; [destruct w; cbn in *; congruence|done].
  - destruct (o_mem o); [|done]. cbn. rewrite max_fd_limit. exists (replicate (Z.to_nat (limit o w)) 0).
    pose proof (limit_pos o w H0). split; [done|]. split; [rewrite replicate_length; lia|]. subst R. intros fd.
    rewrite lookup_empty. cbn. unfold pid_at. case_decide; [|done].
    destruct (replicate _ _ !! _) eqn:Er; [|done]. by apply lookup_replicate_1 in Er as [-> _].
Qed.
Lemma open_ok o w R s rest ws cb flags infd outfd errfd :
  base w R -> os_ok o (limit o w) -> proper (p_tab w) (limit o w) flags (arg3 infd outfd errfd) ->
  polite cb (p_tab w) flags (arg3 infd outfd errfd) ->
  str_ok s -> Z.of_nat (length s) + 3 < 2 ^ 30 -> line true true s ws ->
  ok (fun '(w', p) => base w' (reg_after flags (arg3 infd outfd errfd) p R) /\ p_max w' = limit o w /\ is_Some (p_objs w') /\
        exists K T, open_effect o cb (p_tab w) R flags (arg3 infd outfd errfd) ws (p_tab w') p K T /\
          (p_next w <= p_next w')%positive /\
          forall s, stream s -> creates flags s = true -> (p_next w <= K s < p_next w')%positive)
     (os_can_fail o) (pr_open2 o w (s ++ 0%N :: rest) cb flags infd outfd errfd).
Proof.
  intros B Ho Hp Hpol Hs Hl Hline. set (fds := arg3 infd outfd errfd) in *. remember (limit o w) as m eqn:Em.
  assert (S0 : stream 0) by (unfold stream; lia). assert (S1 : stream 1) by (unfold stream; lia).
  assert (S2 : stream 2) by (unfold stream; lia).
  unfold pr_open2. eapply ok_bind; [eapply ok_mono; [by apply init_ok| |unfold os_can_fail; tauto]; intros w0 H0; exact H0|].
  intros w0 (objs & -> & Hlen & HR). rewrite <- Em in *.
  rewrite (proj2 (flags_legal flags) (pr_legal _ _ _ _ Hp)). destruct (b_arg _ _ B) as [G HG].
  eapply ok_bind; [eapply ok_mono; [apply (command_ok (o_arg o) (p_arg w) G s rest ws HG (os_arg _ _ Ho) Hs Hl Hline)| |unfold os_can_fail; tauto];
    intros x Hx; exact Hx|].
  intros [aw l] (c & v & aw' & Hv & Hex & Hd & HG'). cbv beta iota. rewrite Hv. rb.
  destruct (has_flags flags) as (_ & _ & _ & -> & -> & -> & _).
  cbn [set_arg p_objs p_max p_tab p_next p_arg].
  set (w0 := PW (Some objs) m (p_tab w) (p_next w) aw).
  assert (FP : (exists t, o_pipe o t = None) -> os_can_fail o) by (unfold os_can_fail; tauto).
  eapply ok_bind; [eapply ok_mono; [apply (pipes_more o m flags w0 w0 0 _ _ Ho ltac:(lia) (pipes_start w0 m flags))| |done]; intros x Hx; exact Hx|].
  intros [w1 pin] [K1 U1]. cbv beta iota.
  eapply ok_bind; [eapply ok_mono; [apply (pipes_more o m flags w0 w1 1 _ _ Ho ltac:(lia) U1)| |done]; intros x Hx; exact Hx|].
  intros [w2 pout] [K2 U2]. cbv beta iota.
  eapply ok_bind; [eapply ok_mono; [apply (pipes_more o m flags w0 w2 2 _ _ Ho ltac:(lia) U2)| |done]; intros x Hx; exact Hx|].
  intros [w3 perr] [K U3]. cbv beta iota.
  assert (PO : pipes_ok w0 w3 m flags (arg3 pin pout perr) K).
  { apply (pipes_all _ _ _ _ _ _ pin pout perr U3). intros x [->|[->| ->]]; reflexivity. }
  clear U1 U2 U3 K1 K2 w1 w2. set (P := arg3 pin pout perr) in *.
  destruct (Z.ltb_spec (o_fork o) 0) as [Hf|Hf]; [unfold os_can_fail; cbn; tauto|].
  pose proof (os_fork _ _ Ho) as Hf0. destruct (po_same _ _ _ _ _ _ PO) as (PS1 & PS2 & PS3).
  assert (Hstd : forall s, stream s -> is_Some (p_tab w0 !! s)) by (intros x Hx; by apply (b_std _ _ B)).
  assert (Hp0 : proper (p_tab w0) m flags fds) by exact Hp.
  assert (HT : forall x, is_Some (p_tab w !! x) -> p_tab w3 !! x = p_tab w !! x).
  { intros x Hx. exact (open_same m w0 w3 flags P K PO Hstd x Hx). }
  destruct (child_ok o m w0 w3 flags fds P K Ho Hp0 PO Hstd objs v ws (call_back cb)) as (t & e & Ec & He & Ht0 & Ht1 & Ht2 & Hto).
  { done. }
  { intros x Hx. rewrite HR. by rewrite (proj2 (b_std _ _ B x Hx)). }
  { by rewrite PS3. }
  { intros fd Hfd. apply Hpol; [done|]. destruct Hfd as [Hfd|(x & Hx & Hg)]; [by left|]. right.
    apply (gone_spec m w0 w3 flags fds P K Hp0 PO x fd Hx) in Hg as [(r & q & E & Hrq)|Hg]; [left|right; eauto].
    destruct (pipe_fd m w0 w3 flags P K PO Hstd x r q Hx E) as (A1 & A2 & _ & _ & _ & A3 & A4 & _).
    change (p_tab w0) with (p_tab w) in *. destruct Hrq; subst fd; congruence. }
  assert (Ec' : pr_child o w3 cb flags pin pout perr infd outfd errfd v = Ret (Img t ws)).
  { rewrite <- Ec. destruct cb; reflexivity. }
  rewrite Ec'. rb. destruct (has_flags flags) as (-> & -> & -> & _).
  set (res := fun x => if creates flags x then kept x <$> P x else fds x).
  destruct (stage_parent m w0 w3 flags fds P K Hp0 PO Hstd 0 w3 objs pin (o_fork o) res S0 eq_refl PS1 Hlen eq_refl)
    as (w4 & objs4 & E4 & T4 & M4 & N4 & A4 & O4 & L4 & R4).
  change infd with (fds 0). rewrite E4. rb.
  destruct (stage_parent m w0 w3 flags fds P K Hp0 PO Hstd 1 w4 objs4 (swap pout) (o_fork o) res S1 eq_refl O4 ltac:(lia) eq_refl)
    as (w5 & objs5 & E5 & T5 & M5 & N5 & A5 & O5 & L5 & R5).
  change outfd with (fds 1). rewrite E5. rb.
  destruct (stage_parent m w0 w3 flags fds P K Hp0 PO Hstd 2 w5 objs5 (swap perr) (o_fork o) res S2 eq_refl O5 ltac:(lia) eq_refl)
    as (w6 & objs6 & E6 & T6 & M6 & N6 & A6 & O6 & L6 & R6).
  change errfd with (fds 2). rewrite E6. rb. rewrite A6, A5, A4, PS3. cbn [p_arg w0]. rewrite Hd. rb.
  cbn [ok set_arg p_max p_objs p_tab p_next].
  assert (Hres : forall x, stream x -> results (Opened (o_fork o) (res 0) (res 1) (res 2) (Img t ws)) x = res x).
  { intros x [->|[->| ->]]; reflexivity. }
  assert (Hreg : reg_after flags fds (Opened (o_fork o) (res 0) (res 1) (res 2) (Img t ws)) R =
     reg1 flags fds res (o_fork o) 2 (reg1 flags fds res (o_fork o) 1 (reg1 flags fds res (o_fork o) 0 R))) by reflexivity.
  rewrite Hreg. set (R' := reg1 flags fds res (o_fork o) 2 _).
  assert (Hres3 : forall x f, stream x -> creates flags x = true -> res x = Some f -> 3 <= f /\ p_tab w !! f = None /\
             p_tab w3 !! f = Some (parent_end x (K x)) /\ f ∈ gone flags fds P x /\ f ∉ closed_by flags fds P x).
  { intros x f Hx Hc. unfold res, closed_by, gone. rewrite Hc. destruct (P x) as [[r q]|] eqn:E; [|done]. cbn. intros [= <-].
    destruct (pipe_fd m w0 w3 flags P K PO Hstd x r q Hx E) as (? & ? & ? & ? & ? & ? & ? & _).
    unfold kept, shut, parent_end. case_decide; cbn; rewrite elem_of_list_singleton, elem_of_cons, elem_of_list_singleton;
      (split; [lia|]; split; [done|]; split; [done|]; split; [tauto|congruence]). }
  assert (Rlook : forall x R0 fd, stream x -> (reg1 flags fds res (o_fork o) x R0) !! fd = R0 !! fd \/
     (3 <= fd /\ ((reg1 flags fds res (o_fork o) x R0) !! fd = None \/ (reg1 flags fds res (o_fork o) x R0) !! fd = Some (o_fork o)))).
  { intros x R0 fd Hx. unfold reg1. destruct (creates flags x) eqn:Hc.
    - destruct (res x) as [f|] eqn:Er; [|auto]. destruct (decide (fd = f)) as [->|]; [|left; by rewrite lookup_insert_ne].
      right. rewrite lookup_insert. split; [by eapply Hres3|auto].
    - destruct (uses flags x) eqn:Hu; [|auto]. destruct (fds x) as [f|] eqn:Ef; [|auto]. case_decide; [auto|].
      destruct (decide (fd = f)) as [->|]; [|left; by rewrite lookup_delete_ne].
      right. rewrite lookup_delete. split; [|auto]. by eapply (pr_given _ _ _ _ Hp x). }
  assert (Rl : forall fd, R' !! fd = R !! fd \/ (3 <= fd /\ (R' !! fd = None \/ R' !! fd = Some (o_fork o)))).
  { intros fd. unfold R'. destruct (Rlook 2 (reg1 flags fds res (o_fork o) 1 (reg1 flags fds res (o_fork o) 0 R)) fd S2) as [->|?]; [|auto].
    destruct (Rlook 1 (reg1 flags fds res (o_fork o) 0 R) fd S1) as [->|?]; [|auto].
    destruct (Rlook 0 R fd S0) as [->|?]; auto. }
  assert (Tab : forall fd, p_tab w6 !! fd =
     if decide (fd ∈ closed_by flags fds P 0 ++ closed_by flags fds P 1 ++ closed_by flags fds P 2) then None else p_tab w3 !! fd).
  { intros fd. rewrite T6, T5, T4. repeat case_decide; rewrite ?elem_of_app in *; (done || tauto). }
  assert (Closed : forall x fd, stream x -> fd ∈ closed_by flags fds P x -> fd ∈ gone flags fds P x).
  { intros x fd Hx. unfold closed_by. destruct (creates flags x) eqn:Hc; [|done]. unfold gone. rewrite Hc.
    destruct (P x) as [[r q]|]; [|done]. rewrite elem_of_list_singleton. intros ->. unfold shut. case_decide; cbn; set_solver. }
  assert (InAll : forall fd (g : Z -> list Z), fd ∈ g 0 ++ g 1 ++ g 2 <-> exists x, stream x /\ fd ∈ g x).
  { intros fd g. rewrite !elem_of_app. split; [intros [?|[?|?]]; eauto|]. intros (x & [->|[->| ->]] & ?); tauto. }
  assert (NewTab : forall x f, stream x -> creates flags x = true -> res x = Some f -> p_tab w6 !! f = Some (parent_end x (K x))).
  { intros x f Hx Hc Hr. destruct (Hres3 x f Hx Hc Hr) as (? & ? & ? & Hg & Hn). rewrite Tab, decide_False; [done|].
    rewrite (InAll f (closed_by flags fds P)). intros (y & Hy & Hin). destruct (decide (x = y)) as [<-|Hxy]; [done|].
    apply (gone_disj m w0 w3 flags fds P K Hp0 PO Hstd x y f); auto. }
  assert (Given : forall x f, stream x -> given flags fds x f -> p_tab w6 !! f = None).
  { intros x f Hx Hg. rewrite Tab, decide_True; [done|]. apply (InAll f (closed_by flags fds P)). exists x. split; [done|].
    unfold closed_by. destruct (creates flags x) eqn:Hc.
    - destruct Hg as [Hu _]. by rewrite (not_both m w0 flags fds Hp0 x Hx Hc) in Hu.
    - apply (gone_spec m w0 w3 flags fds P K Hp0 PO x f Hx). by right. }
  assert (Rest : forall fd, (forall s, stream s -> creates flags s = true -> res s <> Some fd) ->
             (forall s, stream s -> ~ given flags fds s fd) -> p_tab w6 !! fd = p_tab w !! fd).
  { intros fd H1 H2. rewrite Tab. case_decide as Hd'.
    - apply (InAll fd (closed_by flags fds P)) in Hd' as (x & Hx & Hin). apply Closed in Hin as Hg; [|done].
      apply (gone_spec m w0 w3 flags fds P K Hp0 PO x fd Hx) in Hg as [(r & q & E & Hrq)|Hg]; [|by exfalso; eapply H2].
      destruct (pipe_fd m w0 w3 flags P K PO Hstd x r q Hx E) as (? & ? & _). destruct Hrq; subst fd; done.
    - change (p_tab w) with (p_tab w0). apply (po_other _ _ _ _ _ _ PO). intros x r q Hx E.
      destruct (pipe_fd m w0 w3 flags P K PO Hstd x r q Hx E) as (_ & _ & _ & _ & _ & _ & _ & Hc).
      assert (Hk : res x <> Some fd) by auto. unfold res in Hk. rewrite Hc, E in Hk. cbn in Hk.
      assert (Hsh : fd <> shut x (r, q)).
      { intros ->. apply Hd'. apply (InAll _ (closed_by flags fds P)). exists x. split; [done|]. unfold closed_by. rewrite Hc, E.
        by apply elem_of_list_singleton. }
      unfold kept, shut in *. case_decide; cbn in *; split; congruence. }
  split; [|split; [|split]].
  - constructor; cbn [set_arg p_max p_objs p_tab p_next p_arg].
    + rewrite M6, M5, M4, PS2. cbn. pose proof (limit_pos o w (b_max _ _ B)) as Hlp. rewrite <- Em in Hlp. lia.
    + rewrite O6, M6, M5, M4, PS2. cbn. pose proof (limit_pos o w (b_max _ _ B)) as Hlp. rewrite <- Em in Hlp. split; [done|]. split; [lia|].
      apply R6, R5, R4, HR.
    + intros x Hx. apply stream_range in Hx as Hx'. split.
      * rewrite Rest; [by apply (b_std _ _ B)|..].
        -- intros y Hy Hc E. apply Hres3 in E; [lia|done..].
        -- intros y Hy Hg. apply (pr_given _ _ _ _ Hp y) in Hg; [lia|done].
      * destruct (Rl x) as [->|[? _]]; [by apply (b_std _ _ B)|lia].
    + intros fd pid Hfd. destruct (Rl fd) as [E|[_ [E|E]]]; rewrite E in Hfd; [by eapply (b_pid _ _ B)|done|].
      injection Hfd as <-. lia.
    + eauto.
  - by rewrite M6, M5, M4, PS2.
  - rewrite O6. eauto.
  - exists K, (p_tab w3). split; [|split].
    + constructor; cbn [op_pid op_child c_words c_tab].
      * split; [done|lia].
      * intros x Hx Hc. rewrite Hres by done. destruct (res x) as [f|] eqn:Er.
        -- exists f. split; [done|]. destruct (Hres3 x f Hx Hc Er) as (? & ? & _). split; [done|]. split; [done|]. by apply NewTab.
        -- exfalso. unfold res in Er. rewrite Hc in Er. destruct (po_some _ _ _ _ _ _ PO x Hx Hc) as (r & q & E & _). by rewrite E in Er.
      * intros x y Hx Hy Hxy Hcx Hcy. rewrite !Hres by done. split.
        -- intros E. destruct (res x) as [f|] eqn:Er.
           ++ destruct (Hres3 x f Hx Hcx Er) as (_ & _ & _ & Hg & _). destruct (Hres3 y f Hy Hcy (eq_sym E)) as (_ & _ & _ & Hg' & _).
              by apply (gone_disj m w0 w3 flags fds P K Hp0 PO Hstd x y f).
           ++ unfold res in Er. rewrite Hcx in Er. destruct (po_some _ _ _ _ _ _ PO x Hx Hcx) as (r & q & E' & _). by rewrite E' in Er.
        -- destruct (po_some _ _ _ _ _ _ PO x Hx Hcx) as (r & q & E & _). destruct (po_some _ _ _ _ _ _ PO y Hy Hcy) as (r' & q' & E' & _).
           by apply (po_disj _ _ _ _ _ _ PO x y r q r' q').
      * intros x Hx Hc. rewrite Hres by done. unfold res. by rewrite Hc.
      * done.
      * intros fd H1 H2. apply Rest; [|done]. intros x Hx Hc. rewrite <- Hres by done. by apply H1.
      * done.
      * intros x Hx Hm. destruct Hx as [->|[->| ->]].
        -- rewrite Ht0. by apply He.
        -- rewrite Ht1. by apply He.
        -- rewrite (Hm eq_refl) in Ht2. rewrite Ht2. by apply He.
      * intros Hm. by rewrite Hm in Ht2.
      * done.
      * intros fd Hfd HH. rewrite Hto by done. case_decide as Hin; [done|]. case_decide as Hpid; [done|].
        exfalso. destruct HH as [[pid Hr]|[Hne|(x & Hx & Hg)]].
        -- apply Hpid. rewrite HR, Hr. cbn. by eapply (b_pid _ _ B).
        -- apply Hne. change (p_tab w) with (p_tab w0). apply (po_other _ _ _ _ _ _ PO). intros x r q Hx E.
           split; intros ->; apply Hin; apply (InAll _ (gone flags fds P)); exists x; (split; [done|]);
             apply (gone_spec m w0 w3 flags fds P K Hp0 PO x _ Hx); left; eauto.
        -- apply Hin. apply (InAll fd (gone flags fds P)). exists x. split; [done|].
           apply (gone_spec m w0 w3 flags fds P K Hp0 PO x fd Hx). by right.
      * intros fd Hfd Hr Heq Hng. rewrite Hto by done. rewrite decide_False; [rewrite decide_False; [done|]|].
        -- rewrite HR, Hr. cbn. lia.
        -- rewrite (InAll fd (gone flags fds P)). intros (x & Hx & Hg).
           apply (gone_spec m w0 w3 flags fds P K Hp0 PO x fd Hx) in Hg as [(r & q & E & Hrq)|Hg]; [|by eapply Hng].
           destruct (pipe_fd m w0 w3 flags P K PO Hstd x r q Hx E) as (A1' & A2' & _ & _ & _ & A3' & A4' & _).
           change (p_tab w0) with (p_tab w) in *. destruct Hrq; subst fd; congruence.
    + rewrite N6, N5, N4. exact (po_next _ _ _ _ _ _ PO).
    + intros x Hx Hc. rewrite N6, N5, N4.
      destruct (po_some _ _ _ _ _ _ PO x Hx Hc) as (r & q & _ & _ & _ & _ & _ & _ & _ & _ & H1 & H2). done.
Qed.
