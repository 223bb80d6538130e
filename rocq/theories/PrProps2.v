(** C58, C72-C75: shutdown of the process functions; who holds which end of a pipe; pitfalls. *)
From Verif Require Import Base Alloc ListLemmas CStr StackModel StackProofs ObjModel ObjProofs MemModel MemProofs MemHist.
From Verif Require Import ArgModel ArgProofs ArgSpec ArgHist ArgProps PrModel PrSpec PrProofs PrHist PrRw PrPit PrProps.
From stdpp Require Import sorting.
Local Open Scope Z_scope.

(** ** C58: shutdown *)
(** the answers that are not interruptions *)
Fixpoint answers (ans : list wres) : nat :=
  match ans with [] => 0 | WIntr :: ans' => answers ans' | _ :: ans' => S (answers ans') end.
Definition kill_wait (x : Z * Z) : list sysev := [Kill x.2; Wait x.2].
Lemma wait_answers ans : match pr_wait ans with
  | Ret (_, ans') => answers ans = S (answers ans')
  | Diverge => answers ans = 0%nat
  | _ => False end.
Proof. induction ans as [|a ans IH]; [done|]. destruct a; cbn; try done. Qed.
Fixpoint listed (i : Z) (objs : list Z) : list (Z * Z) :=
  match objs with [] => [] | p :: objs' => (if decide (p = 0) then [] else [(i, p)]) ++ listed (i + 1) objs' end.
Lemma shutdown_loop_ok objs : forall i ans, match shutdown_loop objs ans with
  | Ret l => l = listed i objs ≫= kill_wait /\ (length (listed i objs) <= answers ans)%nat
  | Diverge => (answers ans < length (listed i objs))%nat
  | _ => False end.
Proof.
  induction objs as [|p objs IH]; intros i ans; cbn [shutdown_loop listed]; [split; [done|cbn; lia]|].
  case_decide as Hp.
  - subst p. cbn [Z.eqb negb app]. apply IH.
  - destruct (Z.eqb_spec p 0); [done|]. cbn [negb]. pose proof (wait_answers ans) as Hw.
    destruct (pr_wait ans) as [[r ans']| | | |]; cbn [mbind res_bind]; try done; [|cbn; lia].
    specialize (IH (i + 1) ans'). destruct (shutdown_loop objs ans') as [l| | | |]; cbn [mbind res_bind]; try done; [|cbn; lia].
    destruct IH as [-> IH]. split; [done|]. cbn [app length]. lia.
Qed.
Lemma listed_elem objs i fd pid : (fd, pid) ∈ listed i objs <-> i <= fd /\ objs !! Z.to_nat (fd - i) = Some pid /\ pid <> 0.
Proof.
  revert i. induction objs as [|p objs IH]; intros i; cbn [listed].
  - split; [intros H; by apply elem_of_nil in H|intros (_ & H & _); done].
  - rewrite elem_of_app, IH. split.
    + intros [H|(H1 & H2 & H3)].
      * case_decide; [by apply elem_of_nil in H|]. apply elem_of_list_singleton in H as [= -> ->]. rewrite Z.sub_diag. split; [lia|done].
      * split; [lia|]. split; [|done]. replace (Z.to_nat (fd - i)) with (S (Z.to_nat (fd - (i + 1)))) by lia. done.
    + intros (H1 & H2 & H3). destruct (decide (fd = i)) as [->|Hne].
      * left. rewrite Z.sub_diag in H2. injection H2 as ->. rewrite decide_False by done. by left.
      * right. split; [lia|]. replace (Z.to_nat (fd - i)) with (S (Z.to_nat (fd - (i + 1)))) in H2 by lia. done.
Qed.
Lemma listed_sorted objs i : StronglySorted Z.lt (listed i objs).*1.
Proof.
  revert i. induction objs as [|p objs IH]; intros i; cbn [listed]; [constructor|].
  case_decide; cbn [app]; [apply IH|]. constructor; [apply IH|]. apply Forall_forall. intros x Hx.
  apply elem_of_list_fmap in Hx as ([fd pid] & -> & Hx). apply listed_elem in Hx. cbn. lia.
Qed.
(** every registered descriptor, in ascending order: its child is killed and waited for.  The
    answers of waitpid are ignored.  No descriptor is closed *)
Theorem C58_shutdown : forall w R C ans, pr_history (PS w R C) ->
  exists L : list (Z * Z), StronglySorted Z.lt L.*1 /\ (forall fd pid, (fd, pid) ∈ L <-> R !! fd = Some pid) /\
  match pr_shutdown w ans with
  | Ret (w', trace) => trace = L ≫= (fun x => [Kill x.2; Wait x.2]) /\ p_tab w' = p_tab w /\
      (* nothing is registered any more; a second shutdown does nothing *)
      (forall fd, pr_close_nowait w' fd = Abort) /\ (forall ans', pr_shutdown w' ans' = Ret (w', []))
  | Diverge => (answers ans < length L)%nat
  | _ => False
  end.
Proof.
  intros w R C ans H. pose proof (history_pinv _ H) as I. cbn [ps_w ps_reg ps_kids] in I. pose proof (b_objs _ _ (i_base _ _ _ I)) as B.
  unfold pr_shutdown. destruct (p_objs w) as [objs|] eqn:Eo.
  - destruct B as (_ & _ & HR). exists (listed 0 objs). split; [apply listed_sorted|]. split.
    + intros fd pid. rewrite listed_elem, Z.sub_0_r. specialize (HR fd). unfold pid_at in HR. split.
      * intros (H1 & H2 & H3). rewrite decide_True, H2 in HR by done. destruct (R !! fd); cbn in HR; congruence.
      * intros Hr. pose proof (b_pid _ _ (i_base _ _ _ I) fd pid Hr). rewrite Hr in HR. cbn in HR. case_decide; [|lia].
        destruct (objs !! Z.to_nat fd) as [x|] eqn:Ex; [|lia]. subst x. split; [done|]. split; [done|lia].
    + pose proof (shutdown_loop_ok objs 0 ans) as HL. destruct (shutdown_loop objs ans) as [l| | | |]; cbn [mbind res_bind]; try done.
      destruct HL as [-> _]. done.
  - subst R. exists []. split; [constructor|]. split.
    + intros fd pid. rewrite lookup_empty. split; [intros Hx; by apply elem_of_nil in Hx|done].
    + split; [done|]. split; [done|]. unfold pr_close_nowait. rewrite Eo. done.
Qed.
Print Assumptions C58_shutdown.
(** with enough answers it returns *)
Theorem C58_returns : forall w R C ans, pr_history (PS w R C) -> (size R <= answers ans)%nat ->
  exists w' trace, pr_shutdown w ans = Ret (w', trace) /\
    (forall pid, Kill pid ∈ trace <-> exists fd, R !! fd = Some pid) /\ (forall pid, Wait pid ∈ trace <-> exists fd, R !! fd = Some pid).
Proof.
  intros w R C ans H Ha. destruct (C58_shutdown w R C ans H) as (L & HS & HL & HP).
  assert (Hlen : length L = size R).
  { assert (ND : NoDup L.*1).
    { clear -HS. induction HS as [|x l _ IH Hx]; constructor; [|done]. intros Hin. rewrite Forall_forall in Hx. specialize (Hx _ Hin). lia. }
    change (size R) with (length (map_to_list R)). apply Permutation_length, NoDup_Permutation.
    - by apply NoDup_fmap_1 in ND.
    - apply NoDup_map_to_list.
    - intros [fd pid]. by rewrite HL, elem_of_map_to_list. }
  destruct (pr_shutdown w ans) as [[w' tr]| | | |]; try done; [|lia]. destruct HP as (-> & _). exists w', (L ≫= (fun x => [Kill x.2; Wait x.2])).
  split; [done|]. split; intros pid.
  - split.
    + intros Hk. apply elem_of_list_bind in Hk as ([fd q] & Hk & Hin). cbn [snd] in Hk. exists fd. apply HL. 
      rewrite elem_of_cons, elem_of_list_singleton in Hk. destruct Hk as [[= ->]|?]; done.
    + intros [fd Hr]. apply elem_of_list_bind. exists (fd, pid). split; [by left|by apply HL].
  - split.
    + intros Hk. apply elem_of_list_bind in Hk as ([fd q] & Hk & Hin). cbn [snd] in Hk. exists fd. apply HL. 
      rewrite elem_of_cons, elem_of_list_singleton in Hk. destruct Hk as [?|[= ->]]; done.
    + intros [fd Hr]. apply elem_of_list_bind. exists (fd, pid). split; [right; by left|by apply HL].
Qed.
Print Assumptions C58_returns.
(** a child with two registered descriptors is killed again after it has been waited for, when its
    pid may belong to another process *)
Theorem C58_double_kill : forall w R C ans w' trace fd fd' pid, pr_history (PS w R C) -> R !! fd = Some pid -> R !! fd' = Some pid -> fd < fd' ->
  pr_shutdown w ans = Ret (w', trace) -> exists l1 l2 l3, trace = l1 ++ [Kill pid; Wait pid] ++ l2 ++ [Kill pid; Wait pid] ++ l3.
Proof.
  intros w R C ans w' trace fd fd' pid H Hr Hr' Hlt E. destruct (C58_shutdown w R C ans H) as (L & HS & HL & HP). rewrite E in HP.
  destruct HP as (-> & _). apply HL in Hr. apply HL in Hr'. clear -HS Hr Hr' Hlt.
  apply elem_of_list_split in Hr as (a & b & ->). 
  assert (Hb : (fd', pid) ∈ b).
  { rewrite elem_of_app, elem_of_cons in Hr'. destruct Hr' as [Ha|[[= ->]|Hb]]; [|lia|done]. exfalso.
    assert (fd' < fd); [|lia]. clear -HS Ha. induction a as [|[x y] a IH]; [by apply elem_of_nil in Ha|].
    inversion HS as [|? ? HS1 HS2]; subst. apply elem_of_cons in Ha as [[= -> ->]|Ha]; [|by apply IH].
    rewrite Forall_forall in HS2. apply HS2. apply elem_of_list_fmap. exists (fd, y). split; [done|]. apply elem_of_app. right. by left. }
  apply elem_of_list_split in Hb as (b1 & b2 & ->).
  exists (a ≫= kill_wait), (b1 ≫= kill_wait), (b2 ≫= kill_wait). change (fun x : Z * Z => [Kill x.2; Wait x.2]) with kill_wait. rewrite bind_app, bind_cons, bind_app, bind_cons. done.
Qed.
Print Assumptions C58_double_kill.

(** ** C72: who holds which end of a pipe *)
(** no end of a pipe is held twice: not by two descriptors of this process, not by this process and a
    child, not by two children; and a child holds ends of pipes only as its standard streams
    (children: as they were at execvp) *)
Theorem C72_isolation : forall w R C, pr_history (PS w R C) ->
  (forall fd fd' e, p_tab w !! fd = Some e -> p_tab w !! fd' = Some e -> pipe_of e <> None -> fd = fd') /\
  (forall pid img e, (pid, img) ∈ C -> holds (c_tab img) e -> pipe_of e <> None -> ~ holds (p_tab w) e) /\
  (forall i j c d e, C !! i = Some c -> C !! j = Some d -> i <> j -> holds (c_tab c.2) e -> holds (c_tab d.2) e -> pipe_of e = None) /\
  (forall pid img fd e, (pid, img) ∈ C -> c_tab img !! fd = Some e -> pipe_of e <> None -> stream fd) /\
  (forall fd e, p_tab w !! fd = Some e -> pipe_of e <> None -> is_Some (R !! fd)).
Proof.
  intros w R C H. pose proof (history_pinv _ H) as I. cbn [ps_w ps_reg ps_kids] in I. split; [apply I|]. split.
  { intros pid img e Hin Hh Hk. destruct (pipe_of e) as [k|] eqn:Ek; [|done]. by eapply (i_kid _ _ _ I). }
  split; [apply I|]. split; [apply I|]. intros fd e He Hk. destruct (pipe_of e) as [k|] eqn:Ek; [|done]. by eapply (i_ends _ _ _ I).
Qed.
Print Assumptions C72_isolation.
(** hence the child sees the end of its input, or a broken pipe, as soon as its descriptor is closed *)
Theorem C72_eof : forall w R C fd pid w' pid', pr_history (PS w R C) -> R !! fd = Some pid -> pr_close_nowait w fd = Ret (w', pid') ->
  exists e k, p_tab w !! fd = Some e /\ pipe_of e = Some k /\ ~ holds (p_tab w') e /\ Forall (fun c => ~ holds (c_tab c.2) e) C.
Proof.
  intros w R C fd pid w' pid' H Hr E. pose proof (history_pinv _ H) as I. cbn [ps_w ps_reg ps_kids] in I.
  rewrite (close_nowait_ok w R fd pid (i_base _ _ _ I) Hr) in E. injection E as <- <-.
  destruct (i_reg _ _ _ I fd pid Hr) as (e & k & img & He & Hk & _). exists e, k. split; [done|]. split; [done|]. split.
  - intros [x Hx]. cbn [after_close p_tab] in Hx. apply lookup_delete_Some in Hx as [Hne Hx]. apply Hne.
    eapply (i_inj _ _ _ I); [done..|by rewrite Hk].
  - apply Forall_forall. intros [q im] Hin Hh. destruct (i_kid _ _ _ I q im e k Hin Hh Hk) as [_ Hn]. apply Hn. by exists fd.
Qed.
Print Assumptions C72_eof.

(** ** C73: the pid that pr_close_nowait returns is that of the child that got the other end *)
Theorem C73_pid : forall w R C fd pid w' pid', pr_history (PS w R C) -> R !! fd = Some pid -> pr_close_nowait w fd = Ret (w', pid') ->
  pid' = pid /\ 0 < pid /\ exists e k img s, p_tab w !! fd = Some e /\ pipe_of e = Some k /\ (pid, img) ∈ C /\ stream s /\ c_tab img !! s = Some (opposite e).
Proof.
  intros w R C fd pid w' pid' H Hr E. pose proof (history_pinv _ H) as I. cbn [ps_w ps_reg ps_kids] in I.
  rewrite (close_nowait_ok w R fd pid (i_base _ _ _ I) Hr) in E. injection E as <- <-. split; [done|].
  split; [by eapply (b_pid _ _ (i_base _ _ _ I))|]. destruct (i_reg _ _ _ I fd pid Hr) as (e & k & img & He & Hk & Hin & [s Hs]).
  exists e, k, img, s. split; [done|]. split; [done|]. split; [done|]. split; [|done]. eapply (i_std _ _ _ I); [done..|]. by destruct e.
Qed.
Print Assumptions C73_pid.

(** ** C74: a child of pr_spawn inherits every descriptor, those registered by pr_open too *)
Theorem C74_spawn_inherits : forall o w R C s rest ws ans w' r c, pr_history (PS w R C) -> aalloc_ok (o_arg o) ->
  str_ok s -> Z.of_nat (length s) + 3 < 2 ^ 30 -> line true true s ws -> pr_spawn o w (s ++ 0%N :: rest) ans = Ret (w', r, c) ->
  c_tab c = p_tab w /\ forall fd pid, R !! fd = Some pid -> exists e, p_tab w !! fd = Some e /\ pipe_of e <> None /\ c_tab c !! fd = Some e.
Proof.
  intros o w R C s rest ws ans w' r c H Hal Hs Hl Hline E. pose proof (history_pinv _ H) as I. cbn [ps_w ps_reg ps_kids] in I.
  pose proof (spawn_ok o w R s rest ws ans (i_base _ _ _ I) Hal Hs Hl Hline) as HS. rewrite E in HS.
  destruct HS as (_ & _ & _ & -> & _). split; [done|]. intros fd pid Hr. destruct (i_reg _ _ _ I fd pid Hr) as (e & k & img & He & Hk & _).
  exists e. cbn [c_tab]. by rewrite Hk.
Qed.
Print Assumptions C74_spawn_inherits.

(** ** C75: pitfalls of pr_open *)
(** CREATE without a place for the answer, descriptors above the limit (which is read only once)
    or below 0: after the fork the parent accesses memory outside its table *)
Theorem C75_overrun : forall o w R C s rest ws cb flags infd outfd errfd x, pr_history (PS w R C) -> aalloc_ok (o_arg o) -> legal flags ->
  str_ok s -> Z.of_nat (length s) + 3 < 2 ^ 30 -> line true true s ws -> stream x ->
  (creates flags x = true /\ (arg3 infd outfd errfd x = None \/ (forall t r q, o_pipe o t = Some (r, q) -> limit o w <= r /\ limit o w <= q))) \/
  (exists f, given flags (arg3 infd outfd errfd) x f /\ (f < 0 \/ limit o w <= f)) ->
  pr_open2 o w (s ++ 0%N :: rest) cb flags infd outfd errfd = UB \/
  (pr_open2 o w (s ++ 0%N :: rest) cb flags infd outfd errfd = Fatal /\ os_can_fail o).
Proof.
  intros o w R C s rest ws cb flags infd outfd errfd x H Hal Hf Hs Hl Hline Hx Hbad.
  pose proof (history_pinv _ H) as I. cbn [ps_w ps_reg ps_kids] in I. pose proof (base_base0 _ _ (i_base _ _ _ I)) as B.
  eapply open_never; [done..|]. intros w' p E.
  destruct (open_ret o w R s rest ws cb flags infd outfd errfd w' p B Hal Hf Hs Hl Hline E)
    as (w0 & w1 & w2 & w3 & pin & pout & perr & objs & t1 & t2 & t3 & w4 & w5 & w6 & _ & _ & _ & P0 & P1 & P2 & _ & _ & _ & _ & _ & E4 & E5 & E6
        & (o3 & Eo3 & L3) & (o4 & Eo4 & L4) & (o5 & Eo5 & L5)). clear E.
  assert (Hnb : forall f, given flags (arg3 infd outfd errfd) x f -> creates flags x = false).
  { intros f (Hu & _). destruct (creates flags x) eqn:Hc; [|done]. destruct Hf as (_ & Hf & _). exfalso. by eapply Hf. }
  (* one stage *)
  assert (St : forall b pp keepf shutf fd v v' i objs, pp = (fun '(r, q) => (shutf r q, keepf r q) : Z * Z) <$> b -> 
     (forall r q : Z, (keepf r q = r \/ keepf r q = q)) ->
     parent_std (o_fork o) (creates flags x) (uses flags x) pp fd v = Ret (v', i) -> p_objs v = Some objs -> Z.of_nat (length objs) = limit o w ->
     (creates flags x = true -> exists t r q, b = Some (r, q) /\ o_pipe o t = Some (r, q)) -> arg3 infd outfd errfd x = fd -> False).
  { intros b pp keepf shutf fd v v' i ob Epp Hkeep Ep Eob Lob Hb Efd.
    pose proof (parent_std_cases (o_fork o) (creates flags x) (uses flags x) pp fd v ob Eob) as HC. rewrite Ep in HC.
    destruct HC as (_ & _ & HC1 & _ & HC2 & _).
    { intros Hc. destruct (Hb Hc) as (t & r & q & -> & _). rewrite Epp. cbn. eauto. }
    destruct Hbad as [[Hc Hbad]|(f & Hg & Hbad)].
    - destruct (HC1 Hc) as (Hfd & shut & keep & Hpp & _ & Hr & _). destruct (Hb Hc) as (t & r & q & -> & Hop). cbn in Epp. rewrite Epp in Hpp. injection Hpp as _ <-.
      destruct Hbad as [Hno|Hbig]; [rewrite Efd in Hno; destruct Hfd; congruence|]. destruct (Hbig t r q Hop). destruct (Hkeep r q) as [Hk|Hk]; rewrite Hk in Hr; clear -Hr Lob H0 H1; lia.
    - pose proof (Hnb f Hg) as Hc. destruct Hg as (Hu & Hfd & Hf0). rewrite Efd in Hfd. destruct (HC2 f Hc Hu Hfd Hf0) as [Hr _]. clear -Hr Hbad Lob. lia. }
  destruct Hx as [->|[->| ->]].
  - eapply (St pin pin (fun _ q => q) (fun r _ => r)); [by destruct pin as [[]|]|auto|exact E4|done|done| |done].
    intros Hc. destruct P0 as (_ & _ & P0). rewrite Hc in P0. destruct P0 as (r & q & -> & Hop & _). eauto.
  - eapply (St pout (swap pout) (fun r _ => r) (fun _ q => q)); [by destruct pout as [[]|]|auto|exact E5|done|done| |done].
    intros Hc. destruct P1 as (_ & _ & P1). rewrite Hc in P1. destruct P1 as (r & q & -> & Hop & _). eauto.
  - eapply (St perr (swap perr) (fun r _ => r) (fun _ q => q)); [by destruct perr as [[]|]|auto|exact E6|done|done| |done].
    intros Hc. destruct P2 as (_ & _ & P2). rewrite Hc in P2. destruct P2 as (r & q & -> & Hop & _). eauto.
Qed.
Print Assumptions C75_overrun.
(** in a process whose standard input is closed, a pipe gets number 0, and the child of
    PR_CREATE_STDIN has no standard input *)
Theorem C75_closed_stdin : forall o t s rest ws flags infd outfd errfd w' p q, aalloc_ok (o_arg o) -> legal flags ->
  str_ok s -> Z.of_nat (length s) + 3 < 2 ^ 30 -> line true true s ws ->
  creates flags 0 = true -> o_pipe o t = Some (0, q) ->
  pr_open o (started t) (s ++ 0%N :: rest) flags infd outfd errfd = Ret (w', p) -> c_tab (op_child p) !! 0 = None.
Proof.
  intros o t s rest ws flags infd outfd errfd w' p q Hal Hf Hs Hl Hline Hc Hq E.
  assert (B : base0 (started t) ∅). { constructor; cbn; [done|done|]. exists ∅. apply rtc_refl. }
  destruct (open_ret o _ _ s rest ws None flags infd outfd errfd w' p B Hal Hf Hs Hl Hline E)
    as (w0 & w1 & w2 & w3 & pin & pout & perr & objs & t1 & t2 & t3 & w4 & w5 & w6 & Et & _ & _ & P0 & _ & _ & T1 & T2 & T3 & -> & _). cbn [c_tab].
  apply close_registered_none. destruct P0 as (_ & _ & P0). rewrite Hc in P0. destruct P0 as (r & q' & -> & Hop & _).
  rewrite Et in Hop. cbn [started p_tab] in Hop. rewrite Hq in Hop. injection Hop as <- <-.
  assert (H1 : t1 !! 0 = None). { rewrite Hc in T1. cbn in T1. injection T1 as <-. apply lookup_delete. }
  pose proof (child_std_none _ _ _ _ _ _ _ _ _ 0 T2 H1 ltac:(done)) as H2. pose proof (child_std_none _ _ _ _ _ _ _ _ _ 0 T3 H2 ltac:(done)) as H3.
  destruct (merges flags); [|done]. unfold c_dup2. destruct (t3 !! 1); [|done]. by rewrite lookup_insert_ne.
Qed.
Print Assumptions C75_closed_stdin.
(** handing over one descriptor as both standard output and standard error: the child's standard
    error is the parent's *)
Theorem C75_same_twice : forall o w R C s rest ws flags infd outfd errfd w' p f, pr_history (PS w R C) -> os_ok o (limit o w) -> legal flags ->
  str_ok s -> Z.of_nat (length s) + 3 < 2 ^ 30 -> line true true s ws ->
  given flags (arg3 infd outfd errfd) 1 f -> given flags (arg3 infd outfd errfd) 2 f -> 3 <= f ->
  (forall f0, given flags (arg3 infd outfd errfd) 0 f0 -> 3 <= f0) ->
  pr_open o w (s ++ 0%N :: rest) flags infd outfd errfd = Ret (w', p) -> c_tab (op_child p) !! 2 = p_tab w !! 2.
Proof.
  intros o w R C s rest ws flags infd outfd errfd w' p f H Ho Hf Hs Hl Hline (U1 & G1 & Hf0) (U2 & G2 & _) Hf3 H0 E.
  pose proof (history_pinv _ H) as I. cbn [ps_w ps_reg ps_kids] in I. pose proof (base_base0 _ _ (i_base _ _ _ I)) as B.
  destruct (b_std _ _ (i_base _ _ _ I) 2 ltac:(unfold stream; lia)) as [[e2 He2] HR2].
  destruct (open_ret o _ _ s rest ws None flags infd outfd errfd w' p B (os_arg _ _ Ho) Hf Hs Hl Hline E)
    as (w0 & w1 & w2 & w3 & pin & pout & perr & objs & t1 & t2 & t3 & w4 & w5 & w6 & Et & _ & HR & P0 & P1 & P2 & T1 & T2 & T3 & -> & _). cbn [c_tab].
  destruct Hf as (_ & Hex & Hm).
  assert (C1 : creates flags 1 = false). { destruct (creates flags 1) eqn:Hc; [|done]. exfalso. eapply (Hex 1); [unfold stream; lia|done..]. }
  assert (C2 : creates flags 2 = false). { destruct (creates flags 2) eqn:Hc; [|done]. exfalso. eapply (Hex 2); [unfold stream; lia|done..]. }
  assert (M : merges flags = false). { destruct (merges flags) eqn:Hc; [|done]. destruct (Hm eq_refl). congruence. }
  rewrite (close_registered_other objs R _ 2 HR HR2), M.
  change (outfd = Some f) in G1. change (errfd = Some f) in G2. subst outfd errfd.
  rewrite C1, U1 in T2. rewrite C2, U2 in T3. unfold child_std in T2, T3. rewrite (proj2 (Z.eqb_neq f 0) Hf0) in T2. rewrite (proj2 (Z.eqb_neq f 0) Hf0) in T3.
  cbn [negb] in T2, T3. injection T2 as <-. injection T3 as <-.
  assert (Hne : f <> 2) by lia.
  assert (X1 : c_dup2 (c_close (c_dup2 t1 f 1) f) f 2 = c_close (c_dup2 t1 f 1) f). { unfold c_dup2 at 1. unfold c_close. by rewrite lookup_delete. }
  rewrite X1. unfold c_close. rewrite !lookup_delete_ne by done.
  assert (X2 : c_dup2 t1 f 1 !! 2 = t1 !! 2). { unfold c_dup2. destruct (t1 !! f); [|done]. by rewrite lookup_insert_ne. }
  rewrite X2. clear X1 X2.
  destruct P0 as (_ & _ & P0), P1 as (_ & _ & P1), P2 as (_ & _ & P2). rewrite C1 in P1. rewrite C2 in P2. destruct P1 as [_ T1'], P2 as [_ T2'].
  rewrite T2', T1' in T1. cbn [call_back] in T1. destruct (creates flags 0) eqn:C0.
  - destruct P0 as (r & q & -> & Hop & Ht1). rewrite Et in *. destruct (os_pipe _ _ Ho _ _ _ Hop) as (Hr & Hq & _).
    cbn in T1. injection T1 as <-. assert (r <> 2) by congruence. assert (q <> 2) by congruence. unfold c_close, c_dup2. rewrite lookup_delete_ne by done.
    assert (Y : (delete q (p_tab w1) : ftab) !! 2 = p_tab w !! 2). { rewrite lookup_delete_ne, Ht1 by done. by rewrite !lookup_insert_ne. }
    destruct ((delete q (p_tab w1) : ftab) !! r); [by rewrite lookup_insert_ne|done].
  - destruct P0 as [_ Ht1]. rewrite Ht1, Et in T1. unfold child_std in T1. destruct (uses flags 0) eqn:U0; [|by injection T1 as <-].
    assert (NUL : match o_null o (p_tab w) with Some n => (c_close (c_dup2 (<[n:=DevNull false]> (p_tab w)) n 0) n : ftab) !! 2 = p_tab w !! 2 | None => True end).
    { destruct (o_null o (p_tab w)) as [n|] eqn:En; [|done]. destruct (os_null _ _ Ho _ _ En) as [Hn _]. assert (n <> 2) by congruence.
      unfold c_close, c_dup2. rewrite lookup_delete_ne by done. rewrite lookup_insert. rewrite lookup_insert_ne by done. by rewrite lookup_insert_ne. }
    destruct infd as [f0|].
    + destruct (Z.eqb_spec f0 0); cbn [negb] in T1.
      * destruct (o_null o (p_tab w)); injection T1 as <-; done.
      * assert (3 <= f0) by (apply H0; done). injection T1 as <-. unfold c_close, c_dup2. rewrite lookup_delete_ne by lia.
        destruct (p_tab w !! f0); [by rewrite lookup_insert_ne|done].
    + destruct (o_null o (p_tab w)); injection T1 as <-; done.
Qed.
Print Assumptions C75_same_twice.
(** handing over the parent's own standard output (or error): it is closed in both *)
Theorem C75_own_stream : forall o w R C s rest ws flags infd outfd errfd w' p x, pr_history (PS w R C) -> aalloc_ok (o_arg o) -> legal flags ->
  str_ok s -> Z.of_nat (length s) + 3 < 2 ^ 30 -> line true true s ws ->
  x = 1 \/ x = 2 -> given flags (arg3 infd outfd errfd) x x ->
  pr_open o w (s ++ 0%N :: rest) flags infd outfd errfd = Ret (w', p) ->
  c_tab (op_child p) !! x = None /\ p_tab w' !! x = None.
Proof.
  intros o w R C s rest ws flags infd outfd errfd w' p x H Hal Hf Hs Hl Hline Hx (U & G & Hx0) E.
  pose proof (history_pinv _ H) as I. cbn [ps_w ps_reg ps_kids] in I. pose proof (base_base0 _ _ (i_base _ _ _ I)) as B.
  destruct (open_ret o _ _ s rest ws None flags infd outfd errfd w' p B Hal Hf Hs Hl Hline E)
    as (w0 & w1 & w2 & w3 & pin & pout & perr & objs & t1 & t2 & t3 & w4 & w5 & w6 & Et & _ & HR & P0 & P1 & P2 & T1 & T2 & T3 & -> & <- & E4 & E5 & E6
       & _ & (o4 & Eo4 & _) & (o5 & Eo5 & _)). cbn [c_tab].
  destruct Hf as (_ & Hex & Hm).
  assert (Cx : creates flags x = false). { destruct (creates flags x) eqn:Hc; [|done]. exfalso. eapply (Hex x); [unfold stream; lia|done..]. }
  destruct Hx as [->| ->].
  - change (outfd = Some 1) in G. subst outfd. rewrite Cx, U in T2, E5. cbn in T2. injection T2 as <-.
    assert (H2 : (c_close (c_dup2 t1 1 1) 1 : ftab) !! 1 = None) by apply lookup_delete.
    pose proof (child_std_none _ _ _ _ _ _ _ _ _ 1 T3 H2 ltac:(done)) as H3. split.
    + apply close_registered_none. destruct (merges flags); [|done]. unfold c_dup2. by rewrite H3.
    + pose proof (parent_std_cases (o_fork o) false true (swap pout) (Some 1) w4 o4 Eo4 ltac:(done)) as HC. rewrite E5 in HC.
      destruct HC as (_ & _ & _ & _ & HC & _). destruct (HC 1 eq_refl eq_refl eq_refl ltac:(done)) as [_ Hd].
      eapply parent_std_none; [exact E6|]. rewrite Hd. apply lookup_delete.
  - change (errfd = Some 2) in G. subst errfd. rewrite Cx, U in T3, E6. cbn in T3. injection T3 as <-.
    assert (M : merges flags = false). { destruct (merges flags) eqn:Hc; [|done]. destruct (Hm eq_refl). congruence. } rewrite M. split.
    + apply close_registered_none. apply lookup_delete.
    + pose proof (parent_std_cases (o_fork o) false true (swap perr) (Some 2) w5 o5 Eo5 ltac:(done)) as HC. rewrite E6 in HC.
      destruct HC as (_ & _ & _ & _ & HC & _). destruct (HC 2 eq_refl eq_refl eq_refl ltac:(done)) as [_ Hd]. rewrite Hd. apply lookup_delete.
Qed.
Print Assumptions C75_own_stream.
