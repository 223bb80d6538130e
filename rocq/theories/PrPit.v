(** What pr_open2 does outside its proper use. *)
From Verif Require Import Base Alloc ListLemmas CStr StackModel StackProofs ObjModel ObjProofs MemModel MemProofs MemHist.
From Verif Require Import ArgModel ArgProofs ArgSpec ArgHist PrModel PrSpec PrProofs PrHist PrRw.
Local Open Scope Z_scope.

(** like [base], but the standard streams may be closed *)
Record base0 (w : prw) (R : gmap Z Z) : Prop := {
  z_max : 0 <= p_max w;
  z_objs : match p_objs w with
           | None => R = ∅
           | Some objs => 0 < p_max w /\ Z.of_nat (length objs) = p_max w /\ regm objs R
           end;
  z_arg : exists G, arg_history (p_arg w) G }.
Lemma base_base0 w R : base w R -> base0 w R.
Proof. intros B. constructor; apply B. Qed.
Lemma init0_ok o w R : base0 w R ->
  ok (fun w' => exists objs, w' = PW (Some objs) (limit o w) (p_tab w) (p_next w) (p_arg w) /\
        Z.of_nat (length objs) = limit o w /\ regm objs R) (o_mem o = false) (pr_init o w).
Proof.
  intros B. unfold pr_init. pose proof (z_objs _ _ B) as H. pose proof (z_max _ _ B).
  destruct (p_objs w) as [objs|] eqn:E.
  - cbn. exists objs. destruct H as (H1 & H2 & H3). assert (El : limit o w = p_max w) by (unfold limit; case_decide; [lia|done]).
    rewrite El. split; [destruct w; cbn in *; congruence|done].
  - destruct (o_mem o); [|done]. cbn. rewrite max_fd_limit. exists (replicate (Z.to_nat (limit o w)) 0).
    pose proof (limit_pos o w H0). split; [done|]. split; [rewrite replicate_length; lia|]. subst R. intros fd.
    rewrite lookup_empty. cbn. unfold pid_at. case_decide; [|done].
    destruct (replicate _ _ !! _) eqn:Er; [|done]. by apply lookup_replicate_1 in Er as [-> _].
Qed.
(** pr_open2 after the fork *)
Definition forked (o : os) (cb : option (ftab -> ftab)) (flags : Z) (infd outfd errfd : option Z) (w3 : prw)
    (pin pout perr : option (Z * Z)) (v : list (option ptr)) (l : positive) : res (prw * opened) :=
  c ← pr_child o w3 cb flags pin pout perr infd outfd errfd v;
  '(w4, i1) ← parent_std (o_fork o) (has flags PR_CREATE_STDIN) (has flags PR_USE_STDIN) pin infd w3;
  '(w5, i2) ← parent_std (o_fork o) (has flags PR_CREATE_STDOUT) (has flags PR_USE_STDOUT) (swap pout) outfd w4;
  '(w6, i3) ← parent_std (o_fork o) (has flags PR_CREATE_STDERR) (has flags PR_USE_STDERR) (swap perr) errfd w5;
  aw' ← arg_destroy (p_arg w6) (Some l);
  Ret (set_arg w6 aw', Opened (o_fork o) i1 i2 i3 c).
(** the pipe made for a stream; [w]: before, [w']: after *)
Definition piped (o : os) (b : bool) (w w' : prw) (p : option (Z * Z)) : Prop :=
  p_objs w' = p_objs w /\ p_arg w' = p_arg w /\
  if b then exists r q, p = Some (r, q) /\ o_pipe o (p_tab w) = Some (r, q) /\ p_tab w' = <[q := WEnd (p_next w)]> (<[r := REnd (p_next w)]> (p_tab w))
  else p = None /\ p_tab w' = p_tab w.
Lemma c_pipe_cases o b w : match c_pipe o b w with
  | Ret (w', p) => piped o b w w' p | Fatal => exists t, o_pipe o t = None | _ => False end.
Proof.
  unfold c_pipe, piped. destruct b; [|done]. destruct (o_pipe o (p_tab w)) as [[r q]|] eqn:E; [|eauto]. cbn. split; [done|]. split; [done|]. eauto.
Qed.
Lemma open_cases o w R s rest ws cb flags infd outfd errfd : base0 w R -> aalloc_ok (o_arg o) -> legal flags ->
  str_ok s -> Z.of_nat (length s) + 3 < 2 ^ 30 -> line true true s ws ->
  (pr_open2 o w (s ++ 0%N :: rest) cb flags infd outfd errfd = Fatal /\ os_can_fail o) \/
  exists w0 w1 w2 w3 pin pout perr v l objs,
    p_tab w0 = p_tab w /\ p_objs w0 = Some objs /\ Z.of_nat (length objs) = limit o w /\ regm objs R /\
    piped o (creates flags 0) w0 w1 pin /\ piped o (creates flags 1) w1 w2 pout /\ piped o (creates flags 2) w2 w3 perr /\
    exec_words (mblk (amem (p_arg w3))) v = Ret ws /\ is_ret (arg_destroy (p_arg w3) (Some l)) = true /\ 0 <= o_fork o /\
    pr_open2 o w (s ++ 0%N :: rest) cb flags infd outfd errfd = forked o cb flags infd outfd errfd w3 pin pout perr v l.
Proof.
  intros B Hal Hf Hs Hl Hline. unfold pr_open2. destruct (has_flags flags) as (_ & _ & _ & F0 & F1 & F2 & _).
  pose proof (init0_ok o w R B) as H0. destruct (pr_init o w) as [w0| | | |]; try done.
  2: { left. split; [done|]. by left. }
  destruct H0 as (objs & -> & Hlen & HR). rb. apply flags_legal in Hf. rewrite Hf.
  destruct (z_arg _ _ B) as [G HG]. cbn [p_arg]. pose proof (command_ok (o_arg o) (p_arg w) G s rest ws HG Hal Hs Hl Hline) as H1.
  destruct (arg_argify (o_arg o) (p_arg w) (s ++ 0%N :: rest) 0) as [[aw l]| | | |] eqn:E1; try done.
  2: { left. split; [done|]. right. by left. }
  destruct H1 as (c & v & aw' & Hv & Hex & Hd & HG'). rb. rewrite Hv. rb.
  set (w0 := set_arg _ aw). 
  pose proof (c_pipe_cases o (has flags PR_CREATE_STDIN) w0) as P0. destruct (c_pipe o (has flags PR_CREATE_STDIN) w0) as [[w1 pin]| | | |]; try done.
  2: { left. split; [done|]. right. right. by left. }
  rb. pose proof (c_pipe_cases o (has flags PR_CREATE_STDOUT) w1) as P1. destruct (c_pipe o (has flags PR_CREATE_STDOUT) w1) as [[w2 pout]| | | |]; try done.
  2: { left. split; [done|]. right. right. by left. }
  rb. pose proof (c_pipe_cases o (has flags PR_CREATE_STDERR) w2) as P2. destruct (c_pipe o (has flags PR_CREATE_STDERR) w2) as [[w3 perr]| | | |]; try done.
  2: { left. split; [done|]. right. right. by left. }
  rb. destruct (Z.ltb_spec (o_fork o) 0); [left; split; [done|]; unfold os_can_fail; tauto|].
  right. exists w0, w1, w2, w3, pin, pout, perr, v, l, objs. rewrite <- F0, <- F1, <- F2. split; [done|]. split; [done|]. split; [done|]. split; [done|].
  split; [done|]. split; [done|]. split; [done|]. 
  assert (E : p_arg w3 = aw). { destruct P0 as (_ & A0 & _), P1 as (_ & A1 & _), P2 as (_ & A2 & _). rewrite A2, A1, A0. done. }
  rewrite E. split; [done|]. split; [by rewrite Hd|]. split; [clear -H; lia|reflexivity].
Qed.
Lemma child_std_ret o create use fds fd n wr t : (create = true -> is_Some fds) -> exists t', child_std o create use fds fd n wr t = Ret t'.
Proof.
  intros H. unfold child_std. destruct create.
  - destruct (H eq_refl) as [[a b] ->]. eauto.
  - destruct use; [|eauto]. destruct fd as [f|]; [destruct (f =? 0); cbn [negb]; [|eauto]|]; destruct (o_null o t); eauto.
Qed.
Lemma child_ret o w3 cb flags pin pout perr infd outfd errfd v ws objs : p_objs w3 = Some objs ->
  (creates flags 0 = true -> is_Some pin) -> (creates flags 1 = true -> is_Some pout) -> (creates flags 2 = true -> is_Some perr) ->
  exec_words (mblk (amem (p_arg w3))) v = Ret ws ->
  exists t1 t2 t3, child_std o (creates flags 0) (uses flags 0) (swap pin) infd 0 false (call_back cb (p_tab w3)) = Ret t1 /\
    child_std o (creates flags 1) (uses flags 1) pout outfd 1 true t1 = Ret t2 /\
    child_std o (creates flags 2) (uses flags 2) perr errfd 2 true t2 = Ret t3 /\
    pr_child o w3 cb flags pin pout perr infd outfd errfd v =
      Ret (Img (close_registered 0 objs (if merges flags then c_dup2 t3 1 2 else t3)) ws).
Proof.
  intros Eo H0 H1 H2 Hx. destruct (has_flags flags) as (U0 & U1 & U2 & F0 & F1 & F2 & M).
  destruct (child_std_ret o (creates flags 0) (uses flags 0) (swap pin) infd 0 false (call_back cb (p_tab w3))) as [t1 E1].
  { intros Hc. destruct (H0 Hc) as [[a b] ->]. cbn. eauto. }
  destruct (child_std_ret o (creates flags 1) (uses flags 1) pout outfd 1 true t1 H1) as [t2 E2].
  destruct (child_std_ret o (creates flags 2) (uses flags 2) perr errfd 2 true t2 H2) as [t3 E3].
  exists t1, t2, t3. split; [done|]. split; [done|]. split; [done|]. unfold pr_child. rewrite Eo, U0, U1, U2, F0, F1, F2, M.
  fold (call_back cb (p_tab w3)). rewrite E1. rb. rewrite E2. rb. rewrite E3. rb. rewrite Hx. done.
Qed.
(** [f] is an index of the table of pids *)
Lemma obj_set_cases w objs f pid : p_objs w = Some objs ->
  match obj_set w f pid with
  | Ret w' => 0 <= f < Z.of_nat (length objs) /\ p_tab w' = p_tab w /\ p_arg w' = p_arg w /\ exists objs', p_objs w' = Some objs' /\ length objs' = length objs
  | UB => True | _ => False end.
Proof.
  intros E. unfold obj_set. rewrite E. destruct (Z.ltb_spec f 0); [done|]. unfold aset.
  destruct (objs !! Z.to_nat f) eqn:Ef; [|done]. rb. apply lookup_lt_Some in Ef. split; [lia|]. split; [done|]. split; [done|].
  eexists. split; [done|]. apply insert_length.
Qed.
Lemma parent_std_cases pid create use fds fd w objs : p_objs w = Some objs -> (create = true -> is_Some fds) ->
  match parent_std pid create use fds fd w with
  | Ret (w', i) => (exists objs', p_objs w' = Some objs' /\ length objs' = length objs) /\ p_arg w' = p_arg w /\
      (create = true -> is_Some fd /\ exists shut keep, fds = Some (shut, keep) /\ i = Some keep /\ 0 <= keep < Z.of_nat (length objs) /\
                        p_tab w' = delete shut (p_tab w)) /\
      (create = false -> i = fd) /\
      (forall f, create = false -> use = true -> fd = Some f -> f <> 0 -> 0 <= f < Z.of_nat (length objs) /\ p_tab w' = delete f (p_tab w)) /\
      (create = false -> use = false -> p_tab w' = p_tab w)
  | UB => True | _ => False end.
Proof.
  intros E H. unfold parent_std. destruct create.
  - destruct (H eq_refl) as [[shut keep] ->]. destruct fd as [f|]; [|done].
    pose proof (obj_set_cases (tab_close w shut) objs keep pid E) as Hc. destruct (obj_set (tab_close w shut) keep pid) as [w'| | | |]; try done.
    destruct Hc as (H1 & H2 & Ha & H3). rb. split; [done|]. split; [done|]. split; [|done]. intros _. split; [eauto|]. exists shut, keep. done.
  - destruct use; [|split; [eauto|done]]. destruct fd as [f|].
    2: { split; [eauto|]. split; [done|]. split; [done|]. split; [done|]. done. }
    destruct (Z.eqb_spec f 0) as [->|Hf]; cbn [negb].
    { split; [eauto|]. split; [done|]. split; [done|]. split; [done|]. split; [|done]. intros f _ _ [= <-]. done. }
    pose proof (obj_set_cases w objs f 0 E) as Hc. destruct (obj_set w f 0) as [w'| | | |]; try done. destruct Hc as (H1 & H2 & Ha & H3). rb.
    split; [done|]. split; [done|]. split; [done|]. split; [done|]. split; [|done]. intros f' _ _ [= <-] _. split; [done|]. cbn [tab_close p_tab]. by rewrite H2.
Qed.
(** a call that returns: all three streams *)
Lemma open_ret o w R s rest ws cb flags infd outfd errfd w' p : base0 w R -> aalloc_ok (o_arg o) -> legal flags ->
  str_ok s -> Z.of_nat (length s) + 3 < 2 ^ 30 -> line true true s ws ->
  pr_open2 o w (s ++ 0%N :: rest) cb flags infd outfd errfd = Ret (w', p) ->
  exists w0 w1 w2 w3 pin pout perr objs t1 t2 t3 w4 w5 w6,
    p_tab w0 = p_tab w /\ Z.of_nat (length objs) = limit o w /\ regm objs R /\
    piped o (creates flags 0) w0 w1 pin /\ piped o (creates flags 1) w1 w2 pout /\ piped o (creates flags 2) w2 w3 perr /\
    child_std o (creates flags 0) (uses flags 0) (swap pin) infd 0 false (call_back cb (p_tab w3)) = Ret t1 /\
    child_std o (creates flags 1) (uses flags 1) pout outfd 1 true t1 = Ret t2 /\
    child_std o (creates flags 2) (uses flags 2) perr errfd 2 true t2 = Ret t3 /\
    op_child p = Img (close_registered 0 objs (if merges flags then c_dup2 t3 1 2 else t3)) ws /\
    p_tab w6 = p_tab w' /\
    parent_std (o_fork o) (creates flags 0) (uses flags 0) pin infd w3 = Ret (w4, op_in p) /\
    parent_std (o_fork o) (creates flags 1) (uses flags 1) (swap pout) outfd w4 = Ret (w5, op_out p) /\
    parent_std (o_fork o) (creates flags 2) (uses flags 2) (swap perr) errfd w5 = Ret (w6, op_err p) /\
    (exists objs, p_objs w3 = Some objs /\ Z.of_nat (length objs) = limit o w) /\
    (exists objs, p_objs w4 = Some objs /\ Z.of_nat (length objs) = limit o w) /\
    (exists objs, p_objs w5 = Some objs /\ Z.of_nat (length objs) = limit o w).
Proof.
  intros B Hal Hf Hs Hl Hline E. destruct (open_cases o w R s rest ws cb flags infd outfd errfd B Hal Hf Hs Hl Hline) as [[H _]|H]; [congruence|].
  destruct H as (w0 & w1 & w2 & w3 & pin & pout & perr & v & l & objs & Ht & Eo & Hlen & HR & P0 & P1 & P2 & Hx & Hds & Hfk & E').
  rewrite E in E'. clear E. rename E' into E. symmetry in E. unfold forked in E.
  assert (Eo3 : p_objs w3 = Some objs). { destruct P0 as (O0 & _), P1 as (O1 & _), P2 as (O2 & _). congruence. }
  assert (Q0 : creates flags 0 = true -> is_Some pin). { intros Hc. destruct P0 as (_ & _ & P). rewrite Hc in P. destruct P as (r & q & -> & _). eauto. }
  assert (Q1 : creates flags 1 = true -> is_Some pout). { intros Hc. destruct P1 as (_ & _ & P). rewrite Hc in P. destruct P as (r & q & -> & _). eauto. }
  assert (Q2 : creates flags 2 = true -> is_Some perr). { intros Hc. destruct P2 as (_ & _ & P). rewrite Hc in P. destruct P as (r & q & -> & _). eauto. }
  destruct (child_ret o w3 cb flags pin pout perr infd outfd errfd v ws objs Eo3 Q0 Q1 Q2 Hx) as (t1 & t2 & t3 & T1 & T2 & T3 & Ec).
  destruct (has_flags flags) as (U0 & U1 & U2 & F0 & F1 & F2 & M). rewrite U0, U1, U2, F0, F1, F2, Ec in E. cbn [mbind res_bind] in E.
  assert (SW : forall b pp, (b = true -> is_Some pp) -> b = true -> is_Some (swap pp)). { intros b pp Hb Ht'. destruct (Hb Ht') as [[x y] ->]. cbn. eauto. }
  pose proof (parent_std_cases (o_fork o) (creates flags 0) (uses flags 0) pin infd w3 objs Eo3 Q0) as C0.
  destruct (parent_std (o_fork o) (creates flags 0) (uses flags 0) pin infd w3) as [[w4 i1]| | | |] eqn:E4; try done. cbn [mbind res_bind] in E.
  destruct C0 as ((objs4 & Eo4 & L4) & _).
  pose proof (parent_std_cases (o_fork o) (creates flags 1) (uses flags 1) (swap pout) outfd w4 objs4 Eo4 (SW _ _ Q1)) as C1.
  destruct (parent_std (o_fork o) (creates flags 1) (uses flags 1) (swap pout) outfd w4) as [[w5 i2]| | | |] eqn:E5; try done. cbn [mbind res_bind] in E.
  destruct C1 as ((objs5 & Eo5 & L5) & _).
  pose proof (parent_std_cases (o_fork o) (creates flags 2) (uses flags 2) (swap perr) errfd w5 objs5 Eo5 (SW _ _ Q2)) as C2.
  destruct (parent_std (o_fork o) (creates flags 2) (uses flags 2) (swap perr) errfd w5) as [[w6 i3]| | | |] eqn:E6; try done. cbn [mbind res_bind] in E.
  destruct (arg_destroy (p_arg w6) (Some l)) as [aw'| | | |]; try done. cbn [mbind res_bind] in E. injection E as <- <-. cbn [op_in op_out op_err op_child].
  exists w0, w1, w2, w3, pin, pout, perr, objs, t1, t2, t3, w4, w5, w6. repeat (split; [done|]).
  split; [by exists objs|]. split; [exists objs4; split; [done|by rewrite L4]|]. exists objs5. split; [done|by rewrite L5, L4].
Qed.
(** a call whose table of pids is overrun does not return *)
Lemma open_never o w R s rest ws cb flags infd outfd errfd : base0 w R -> aalloc_ok (o_arg o) -> legal flags ->
  str_ok s -> Z.of_nat (length s) + 3 < 2 ^ 30 -> line true true s ws ->
  (forall w' p, pr_open2 o w (s ++ 0%N :: rest) cb flags infd outfd errfd <> Ret (w', p)) ->
  pr_open2 o w (s ++ 0%N :: rest) cb flags infd outfd errfd = UB \/
  (pr_open2 o w (s ++ 0%N :: rest) cb flags infd outfd errfd = Fatal /\ os_can_fail o).
Proof.
  intros B Hal Hf Hs Hl Hline Hn. pose proof (open_cases o w R s rest ws cb flags infd outfd errfd B Hal Hf Hs Hl Hline) as [H|H]; [by right|left].
  destruct H as (w0 & w1 & w2 & w3 & pin & pout & perr & v & l & objs & Ht & Eo & Hlen & HR & P0 & P1 & P2 & Hx & Hds & Hfk & E).
  rewrite E in Hn |- *. clear E. unfold forked in *.
  assert (Eo3 : p_objs w3 = Some objs). { destruct P0 as (O0 & _), P1 as (O1 & _), P2 as (O2 & _). congruence. }
  assert (Q0 : creates flags 0 = true -> is_Some pin). { intros Hc. destruct P0 as (_ & _ & P). rewrite Hc in P. destruct P as (r & q & -> & _). eauto. }
  assert (Q1 : creates flags 1 = true -> is_Some pout). { intros Hc. destruct P1 as (_ & _ & P). rewrite Hc in P. destruct P as (r & q & -> & _). eauto. }
  assert (Q2 : creates flags 2 = true -> is_Some perr). { intros Hc. destruct P2 as (_ & _ & P). rewrite Hc in P. destruct P as (r & q & -> & _). eauto. }
  destruct (child_ret o w3 cb flags pin pout perr infd outfd errfd v ws objs Eo3 Q0 Q1 Q2 Hx) as (t1 & t2 & t3 & T1 & T2 & T3 & Ec).
  destruct (has_flags flags) as (U0 & U1 & U2 & F0 & F1 & F2 & M). rewrite U0, U1, U2, F0, F1, F2, Ec in Hn |- *. cbn [mbind res_bind] in Hn |- *.
  assert (SW : forall b pp, (b = true -> is_Some pp) -> b = true -> is_Some (swap pp)). { intros b pp Hb Ht'. destruct (Hb Ht') as [[x y] ->]. cbn. eauto. }
  pose proof (parent_std_cases (o_fork o) (creates flags 0) (uses flags 0) pin infd w3 objs Eo3 Q0) as C0.
  destruct (parent_std (o_fork o) (creates flags 0) (uses flags 0) pin infd w3) as [[w4 i1]| | | |] eqn:E4; try done. cbn [mbind res_bind] in Hn |- *.
  destruct C0 as ((objs4 & Eo4 & L4) & A4 & _).
  pose proof (parent_std_cases (o_fork o) (creates flags 1) (uses flags 1) (swap pout) outfd w4 objs4 Eo4 (SW _ _ Q1)) as C1.
  destruct (parent_std (o_fork o) (creates flags 1) (uses flags 1) (swap pout) outfd w4) as [[w5 i2]| | | |] eqn:E5; try done. cbn [mbind res_bind] in Hn |- *.
  destruct C1 as ((objs5 & Eo5 & L5) & A5 & _).
  pose proof (parent_std_cases (o_fork o) (creates flags 2) (uses flags 2) (swap perr) errfd w5 objs5 Eo5 (SW _ _ Q2)) as C2.
  destruct (parent_std (o_fork o) (creates flags 2) (uses flags 2) (swap perr) errfd w5) as [[w6 i3]| | | |] eqn:E6; try done. cbn [mbind res_bind] in Hn |- *.
  destruct C2 as (_ & A6 & _). rewrite A6, A5, A4 in Hn |- *.
  destruct (arg_destroy (p_arg w3) (Some l)) as [aw'| | | |]; try done. exfalso. cbn [mbind res_bind] in Hn. by eapply Hn.
Qed.

Lemma child_std_none o create use fds fd n wr t t' x : child_std o create use fds fd n wr t = Ret t' -> t !! x = None -> x <> n -> t' !! x = None.
Proof.
  intros E Hx Hn.
  assert (C : forall a b, (c_close a b : ftab) !! x = if decide (x = b) then None else a !! x).
  { intros a b. unfold c_close. destruct (decide (x = b)) as [->|]; [by rewrite lookup_delete|by rewrite lookup_delete_ne]. }
  assert (D : forall a b, (c_dup2 a b n : ftab) !! x = a !! x).
  { intros a b. unfold c_dup2. destruct (a !! b); [by rewrite lookup_insert_ne|done]. }
  assert (N : forall m a, t !! x = None -> (c_close (c_dup2 (<[m := a]> t) m n) m : ftab) !! x = None).
  { intros m a _. rewrite C. case_decide; [done|]. rewrite D. by rewrite lookup_insert_ne. }
  unfold child_std in E. destruct create.
  - destruct fds as [[a b]|]; [|done]. injection E as <-. rewrite C. case_decide; [done|]. rewrite D, C. by case_decide.
  - destruct use; [|by injection E as <-]. destruct fd as [f|]; [destruct (f =? 0); cbn [negb] in E|].
    + destruct (o_null o t); injection E as <-; auto.
    + injection E as <-. rewrite C. case_decide; [done|]. by rewrite D.
    + destruct (o_null o t); injection E as <-; auto.
Qed.
Lemma parent_std_none pid create use fds fd w w' i x : parent_std pid create use fds fd w = Ret (w', i) -> p_tab w !! x = None -> p_tab w' !! x = None.
Proof.
  intros E Hx.
  assert (O : forall v v' f q, obj_set v f q = Ret v' -> p_tab v' = p_tab v).
  { intros v v' f q. unfold obj_set. destruct (p_objs v); [|done]. destruct (f <? 0); [done|]. destruct (aset l (Z.to_nat f) q); try done.
    cbn. by intros [= <-]. }
  unfold parent_std in E. destruct create.
  - destruct fds as [[a b]|]; [|done]. destruct fd; [|done]. destruct (obj_set (tab_close w a) b pid) as [v| | | |] eqn:Ev; try done.
    cbn in E. injection E as <- <-. rewrite (O _ _ _ _ Ev). cbn. apply lookup_delete_None. by right.
  - destruct use; [|by injection E as <- <-]. destruct fd as [f|]; [|by injection E as <- <-].
    destruct (negb (f =? 0)); [|by injection E as <- <-]. destruct (obj_set w f 0) as [v| | | |] eqn:Ev; try done.
    cbn in E. injection E as <- <-. cbn. rewrite (O _ _ _ _ Ev). apply lookup_delete_None. by right.
Qed.
Lemma close_registered_none i objs t x : t !! x = None -> close_registered i objs t !! x = None.
Proof. intros H. rewrite close_registered_lookup. by case_decide. Qed.
Lemma close_registered_other objs R t x : regm objs R -> R !! x = None -> close_registered 0 objs t !! x = t !! x.
Proof. intros HR Hx. rewrite close_registered_lookup, Z.sub_0_r, (HR x), Hx. cbn. by rewrite decide_False by lia. Qed.
