(** C55-C58, C72-C75: child processes.  [pr_history (PS w R C)]: any sequence of pr_open, pr_open2,
    pr_close(_nowait), pr_spawn, pr_filter, pr_readwrite and of the user's own opens and closes, from a
    process whose three standard streams are open; [R] are the descriptors that pr_open registered,
    with the pid of their child, and [C] the children it started, as they were at execvp. *)
From Verif Require Import Base Alloc ListLemmas CStr StackModel StackProofs ObjModel ObjProofs MemModel MemProofs MemHist.
From Verif Require Import ArgModel ArgProofs ArgSpec ArgHist ArgProps PrModel PrSpec PrProofs PrHist PrRw.
From stdpp Require Import sorting.
Local Open Scope Z_scope.

(** ** C55: descriptors.  [open_effect] (PrSpec) says what the parent and the child have. *)
Theorem C55_open2 : forall o w R C s rest ws cb flags infd outfd errfd,
  pr_history (PS w R C) -> os_ok o (limit o w) -> proper (p_tab w) (limit o w) flags (arg3 infd outfd errfd) ->
  polite cb (p_tab w) flags (arg3 infd outfd errfd) -> no_copies cb ->
  str_ok s -> Z.of_nat (length s) + 3 < 2 ^ 30 -> line true true s ws ->
  ok (fun '(w', p) => pr_history (PS w' (reg_after flags (arg3 infd outfd errfd) p R) ((op_pid p, op_child p) :: C)) /\
        exists K T, open_effect o cb (p_tab w) R flags (arg3 infd outfd errfd) ws (p_tab w') p K T /\
          forall s e, stream s -> creates flags s = true -> pipe_of e = Some (K s) ->
            ~ holds (p_tab w) e /\ Forall (fun c => ~ holds (c_tab c.2) e) C)
     (os_can_fail o) (pr_open2 o w (s ++ 0%N :: rest) cb flags infd outfd errfd).
Proof.
  intros o w R C s rest ws cb flags infd outfd errfd H Ho Hp Hpol Hcb Hs Hl Hline.
  pose proof (history_pinv _ H) as I. cbn [ps_w ps_reg ps_kids] in I.
  pose proof (open_ok o w R s rest ws cb flags infd outfd errfd (i_base _ _ _ I) Ho Hp Hpol Hs Hl Hline) as HO.
  destruct (pr_open2 o w (s ++ 0%N :: rest) cb flags infd outfd errfd) as [[w' p]| | | |] eqn:E; try done.
  destruct HO as (_ & _ & _ & K & T & HE & Hn & HK). split; [eapply ph_step; [done|]; by eapply (pc_open o w R C s rest ws cb)|].
  exists K, T. split; [done|]. intros x e Hx Hc Hk. destruct (HK x Hx Hc) as [H1 _]. split.
  - intros [fd Hfd]. destruct (i_ends _ _ _ I fd e _ Hfd Hk). lia.
  - apply Forall_forall. intros [pid img] Hin Hh. destruct (i_kid _ _ _ I pid img e _ Hin Hh Hk). lia.
Qed.
Print Assumptions C55_open2.
Theorem C55_open : forall o w R C s rest ws flags infd outfd errfd,
  pr_history (PS w R C) -> os_ok o (limit o w) -> proper (p_tab w) (limit o w) flags (arg3 infd outfd errfd) ->
  str_ok s -> Z.of_nat (length s) + 3 < 2 ^ 30 -> line true true s ws ->
  ok (fun '(w', p) => pr_history (PS w' (reg_after flags (arg3 infd outfd errfd) p R) ((op_pid p, op_child p) :: C)) /\
        exists K T, open_effect o None (p_tab w) R flags (arg3 infd outfd errfd) ws (p_tab w') p K T /\
          (* in the child everything else is as in the parent, except that what the library made is closed *)
          forall fd, ~ stream fd -> (R !! fd = None /\ (forall s, stream s -> ~ given flags (arg3 infd outfd errfd) s fd) ->
                                       c_tab (op_child p) !! fd = p_tab w !! fd) /\
                                    (is_Some (R !! fd) \/ (exists s, stream s /\ given flags (arg3 infd outfd errfd) s fd) ->
                                       c_tab (op_child p) !! fd = None))
     (os_can_fail o) (pr_open o w (s ++ 0%N :: rest) flags infd outfd errfd).
Proof.
  intros o w R C s rest ws flags infd outfd errfd H Ho Hp Hs Hl Hline. unfold pr_open.
  eapply ok_mono; [apply (C55_open2 o w R C s rest ws None flags infd outfd errfd); first [done | apply polite_none | apply no_copies_none]| |done].
  intros [w' p] (H' & K & T & HE & _). split; [done|]. exists K, T. split; [done|]. intros fd Hfd. split.
  - intros [HR Hg]. destruct (decide (T !! fd = p_tab w !! fd)) as [Heq|Hne].
    + rewrite (oe_inherit _ _ _ _ _ _ _ _ _ _ _ HE fd Hfd HR Heq Hg). exact Heq.
    + rewrite (oe_closed _ _ _ _ _ _ _ _ _ _ _ HE fd Hfd) by auto. destruct (p_tab w !! fd) eqn:Et; [|done].
      exfalso. apply Hne. rewrite <- Et. apply (oe_fork _ _ _ _ _ _ _ _ _ _ _ HE). rewrite Et. eauto.
  - intros [HR|HR]; apply (oe_closed _ _ _ _ _ _ _ _ _ _ _ HE fd Hfd); auto.
Qed.
Print Assumptions C55_open.
(** what [reg_after] means: new descriptors belong to the new child, given ones to nobody *)
Theorem C55_registered : forall o cb w R C flags fds ws w' p K T fd,
  pr_history (PS w R C) -> proper (p_tab w) (limit o w) flags fds -> open_effect o cb (p_tab w) R flags fds ws (p_tab w') p K T ->
  (forall s, stream s -> creates flags s = true -> results p s = Some fd -> reg_after flags fds p R !! fd = Some (op_pid p)) /\
  (forall s, stream s -> given flags fds s fd -> reg_after flags fds p R !! fd = None) /\
  ((forall s, stream s -> creates flags s = true -> results p s <> Some fd) -> (forall s, stream s -> ~ given flags fds s fd) ->
     reg_after flags fds p R !! fd = R !! fd).
Proof.
  intros o cb w R C flags fds ws w' p K T fd H Hp HE. pose proof (history_pinv _ H) as I. cbn [ps_w ps_reg ps_kids] in I.
  split; [|split].
  - intros s Hs Hc Hr. eapply (after_new o cb w R flags fds ws w' p K T HE Hp s fd); done.
  - intros s Hs Hg. eapply (after_given o cb w R flags fds ws w' p K T HE Hp s fd); done.
  - intros H1 H2. by apply after_other.
Qed.
Print Assumptions C55_registered.
(** illegal flags: the program is aborted before the command is even parsed *)
Theorem C55_illegal : forall o w R C command cb flags infd outfd errfd, pr_history (PS w R C) -> ~ legal flags ->
  pr_open2 o w command cb flags infd outfd errfd = Abort \/
  (o_mem o = false /\ pr_open2 o w command cb flags infd outfd errfd = Fatal).
Proof.
  intros o w R C command cb flags infd outfd errfd H Hf. pose proof (history_pinv _ H) as I. cbn [ps_w ps_reg ps_kids] in I.
  unfold pr_open2. pose proof (init_ok o w R (i_base _ _ _ I)) as H0.
  destruct (pr_init o w) as [w0| | | |]; try done; [|by right]. left. rb. destruct (pr_flags_bad flags) eqn:E; [done|].
  by apply flags_legal in E.
Qed.
Print Assumptions C55_illegal.
Theorem C55_close_nowait : forall w R C fd pid, pr_history (PS w R C) -> R !! fd = Some pid ->
  exists w', pr_close_nowait w fd = Ret (w', pid) /\ p_tab w' = delete fd (p_tab w) /\ pr_history (PS w' (delete fd R) C).
Proof.
  intros w R C fd pid H Hr. pose proof (history_pinv _ H) as I. cbn [ps_w ps_reg ps_kids] in I.
  pose proof (close_nowait_ok w R fd pid (i_base _ _ _ I) Hr) as E. exists (after_close w fd). split; [done|]. split; [done|].
  eapply ph_step; [done|]. by eapply pc_close.
Qed.
Print Assumptions C55_close_nowait.
Theorem C55_close : forall w R C fd pid ans, pr_history (PS w R C) -> R !! fd = Some pid ->
  match pr_close w fd ans with
  | Ret (w', r) => p_tab w' = delete fd (p_tab w) /\ pr_history (PS w' (delete fd R) C) /\ exists l, pr_wait ans = Ret (r, l)
  | Diverge => pr_wait ans = Diverge
  | _ => False
  end.
Proof.
  intros w R C fd pid ans H Hr. destruct (C55_close_nowait w R C fd pid H Hr) as (w' & E & Ht & H'). unfold pr_close. rewrite E. rb.
  destruct (pr_wait ans) as [[r l]| | | |] eqn:Ew; cbn [mbind res_bind]; try (destruct (pr_wait_kind ans) as (? & ? & ?); congruence).
  split; [done|]. split; [done|]. eauto.
Qed.
Print Assumptions C55_close.
(** closing anything else aborts, provided it is a possible descriptor *)
Theorem C55_close_other : forall w R C fd ans, pr_history (PS w R C) -> R !! fd = None ->
  (is_Some (p_objs w) -> 0 <= fd < p_max w) -> pr_close_nowait w fd = Abort /\ pr_close w fd ans = Abort.
Proof.
  intros w R C fd ans H Hr Hfd. pose proof (history_pinv _ H) as I. cbn [ps_w ps_reg ps_kids] in I.
  pose proof (close_unregistered w R fd (i_base _ _ _ I) Hr Hfd) as E. split; [done|]. unfold pr_close. by rewrite E.
Qed.
Print Assumptions C55_close_other.
Theorem C55_close_wild : forall w R C fd, pr_history (PS w R C) -> is_Some (p_objs w) -> fd < 0 \/ p_max w <= fd ->
  pr_close_nowait w fd = UB.
Proof.
  intros w R C fd H [objs Eo] Hfd. pose proof (history_pinv _ H) as I. cbn [ps_w ps_reg ps_kids] in I.
  pose proof (b_objs _ _ (i_base _ _ _ I)) as Hb. unfold pr_close_nowait. rewrite Eo in *. destruct (Z.ltb_spec fd 0); [done|].
  unfold aget. rewrite lookup_ge_None_2; [done|]. lia.
Qed.
Print Assumptions C55_close_wild.

(** ** C56: waiting *)
Lemma exit_code c : 0 <= c < 256 -> exit_status (256 * c) = c.
Proof.
  intros Hc. assert (H : forallb (fun n => exit_status (256 * Z.of_nat n) =? Z.of_nat n) (seq 0 256) = true) by (vm_compute; reflexivity).
  rewrite forallb_forall in H. specialize (H (Z.to_nat c)). rewrite Z2Nat.id in H by lia. apply Z.eqb_eq, H.
  apply in_seq. lia.
Qed.
Lemma exit_signal s (core : bool) : 1 <= s < 127 -> exit_status (s + (if core then 128 else 0)) = if decide (s = 13) then 0 else 128 + s.
Proof.
  intros Hs. assert (H : forallb (fun n => let z := Z.of_nat n in
     (exit_status (z + (if core then 128 else 0)) =? (if decide (z = 13) then 0 else 128 + z))) (seq 1 126) = true) by (destruct core; vm_compute; reflexivity).
  rewrite forallb_forall in H. specialize (H (Z.to_nat s)). cbv zeta in H. rewrite Z2Nat.id in H by lia. apply Z.eqb_eq, H.
  apply in_seq. lia.
Qed.
(** after any number of interruptions: the exit code; 128 + signal; 0 for SIGPIPE (13) *)
Theorem C56_wait : forall n e rest, ended_ok e ->
  pr_wait (replicate n WIntr ++ WStatus (status_of e) :: rest) =
  Ret (match e with Exited c => c | Signaled s _ => if decide (s = 13) then 0 else 128 + s end, rest).
Proof.
  intros n e rest He. induction n as [|n IH]; [|exact IH]. cbn. do 2 f_equal. destruct e as [c|s core]; cbn in He |- *.
  - by apply exit_code.
  - by apply exit_signal.
Qed.
Print Assumptions C56_wait.
Theorem C56_reaped : forall n rest, pr_wait (replicate n WIntr ++ WChild :: rest) = Ret (0, rest).
Proof. induction n as [|n IH]; intros rest; [done|]. apply IH. Qed.
Print Assumptions C56_reaped.
Theorem C56_error : forall n rest, pr_wait (replicate n WIntr ++ WOther :: rest) = Ret (-1, rest).
Proof. induction n as [|n IH]; intros rest; [done|]. apply IH. Qed.
Print Assumptions C56_error.
(** a child that stopped (by signal [sig]) counts as one that exited with 0 *)
Theorem C56_stopped : forall n sig rest, 0 <= sig < 256 -> pr_wait (replicate n WIntr ++ WStatus (127 + 256 * sig) :: rest) = Ret (0, rest).
Proof.
  intros n sig rest Hs. induction n as [|n IH]; [|exact IH]. cbn. do 2 f_equal.
  assert (H : forallb (fun k => exit_status (127 + 256 * Z.of_nat k) =? 0) (seq 0 256) = true) by (vm_compute; reflexivity).
  rewrite forallb_forall in H. specialize (H (Z.to_nat sig)). rewrite Z2Nat.id in H by lia. apply Z.eqb_eq, H. apply in_seq. lia.
Qed.
Print Assumptions C56_stopped.
(** it does not return while it is only interrupted *)
Theorem C56_waits : forall ans, pr_wait ans = Diverge <-> Forall (fun a => a = WIntr) ans.
Proof.
  induction ans as [|a ans IH]; [done|]. rewrite Forall_cons. destruct a; cbn; try (split; [done|]; by intros [? _]).
  rewrite IH. tauto.
Qed.
Print Assumptions C56_waits.
(** pr_spawn: the same result *)
Theorem C56_spawn : forall o w R C s rest ws ans, pr_history (PS w R C) -> aalloc_ok (o_arg o) ->
  str_ok s -> Z.of_nat (length s) + 3 < 2 ^ 30 -> line true true s ws ->
  match pr_spawn o w (s ++ 0%N :: rest) ans with
  | Ret (w', r, c) => pr_history (PS w' R C) /\ p_tab w' = p_tab w /\ c_words c = ws /\ exists l, pr_wait ans = Ret (r, l)
  | Fatal => os_can_fail o
  | Diverge => pr_wait ans = Diverge
  | _ => False
  end.
Proof.
  intros o w R C s rest ws ans H Hal Hs Hl Hline. pose proof (history_pinv _ H) as I. cbn [ps_w ps_reg ps_kids] in I.
  pose proof (spawn_ok o w R s rest ws ans (i_base _ _ _ I) Hal Hs Hl Hline) as HS.
  destruct (pr_spawn o w (s ++ 0%N :: rest) ans) as [[[w' r] c]| | | |] eqn:E; try done.
  destruct HS as (_ & Ht & _ & -> & Hw). split; [eapply ph_step; [done|]; by eapply (pc_spawn o w R C s rest ws)|]. done.
Qed.
Print Assumptions C56_spawn.
(** the result does not tell these apart: success, already waited for, killed by SIGPIPE; nor a
    signal from an exit code above 128 *)
Theorem C56_ambiguous : forall s core, 1 <= s < 127 -> s <> 13 ->
  pr_wait [WStatus (status_of (Signaled s core))] = pr_wait [WStatus (status_of (Exited (128 + s)))] /\
  pr_wait [WStatus (status_of (Signaled 13 core))] = pr_wait [WStatus (status_of (Exited 0))] /\
  pr_wait [WChild] = pr_wait [WStatus (status_of (Exited 0))].
Proof.
  intros s core Hs Hne. split; [|split].
  - pose proof (C56_wait 0 (Signaled s core) [] Hs) as E1. pose proof (C56_wait 0 (Exited (128 + s)) []) as E2. cbn [replicate app] in E1, E2.
    rewrite E1, E2 by (cbn; lia). by rewrite decide_False by done.
  - pose proof (C56_wait 0 (Signaled 13 core) []) as E1. cbn [replicate app] in E1. rewrite E1 by (cbn; lia). done.
  - done.
Qed.
Print Assumptions C56_ambiguous.

(** ** C57: pr_readwrite *)
(** [kernel]: what read and write may answer; [received]: the bytes of the reads, in order, until
    read returned 0; [trouble]: select, read or write reported an error; [premature]: read returned 0
    before everything was written *)
Theorem C57_transfer : forall w R C inn out inb inlen outb room sched ans pid pido,
  pr_history (PS w R C) -> R !! inn = Some pid -> R !! out = Some pido -> inn <> out -> inn < 1024 -> out < 1024 ->
  0 <= inlen <= Z.of_nat (length inb) -> 0 <= room <= Z.of_nat (length outb) -> room < 2 ^ 31 -> kernel inlen room sched ->
  match pr_readwrite w inn out inb inlen outb room sched ans with
  | Ret e => e_sent e = take (Z.to_nat inlen) inb /\
      e_len e = Z.of_nat (length (received sched)) /\ e_len e <= room /\
      e_buf e = received sched ++ drop (length (received sched)) outb /\
      eof_seen sched /\ (exists l, pr_wait ans = Ret (e_status e, l)) /\
      p_tab (e_w e) = delete out (if decide (inlen = 0) then p_tab w else delete inn (p_tab w)) /\
      pr_history (PS (e_w e) (delete out (if decide (inlen = 0) then R else delete inn R)) C)
  | Fatal => trouble sched \/ premature inlen sched
  | Diverge => ~ eof_seen sched \/ pr_wait ans = Diverge
  | _ => False
  end.
Proof.
  intros w R C inn out inb inlen outb room sched ans pid pido H Hi Ho Hne Hli Hlo Hil Hr Hov HK.
  pose proof (history_pinv _ H) as I. cbn [ps_w ps_reg ps_kids] in I.
  pose proof (readwrite_ok w R C inn out inb inlen outb room sched ans pid pido I Hi Ho Hne Hli Hlo Hil Hr Hov HK) as HW.
  destruct (pr_readwrite w inn out inb inlen outb room sched ans) as [e| | | |]; try done.
  destruct HW as (W1 & W2 & W3 & W4 & W5 & W6 & W7). split; [done|]. split; [done|]. split; [lia|]. split; [done|]. split; [done|]. split; [done|].
  split; [|rewrite W5; by eapply rw_history]. rewrite W5. unfold closed_in. by case_decide.
Qed.
Print Assumptions C57_transfer.
(** if the child writes [data], the buffer gets as much of it as it holds.  Longer output is
    cut off silently: a full buffer is taken for the end *)
Theorem C57_output : forall w R C inn out inb inlen outb room sched ans pid pido data e,
  pr_history (PS w R C) -> R !! inn = Some pid -> R !! out = Some pido -> inn <> out -> inn < 1024 -> out < 1024 ->
  0 <= inlen <= Z.of_nat (length inb) -> 0 <= room <= Z.of_nat (length outb) -> room < 2 ^ 31 ->
  kernel inlen room sched -> delivers data room sched ->
  pr_readwrite w inn out inb inlen outb room sched ans = Ret e ->
  e_len e = Z.min room (Z.of_nat (length data)) /\ take (Z.to_nat (e_len e)) (e_buf e) = take (Z.to_nat room) data /\
  drop (Z.to_nat (e_len e)) (e_buf e) = drop (Z.to_nat (e_len e)) outb.
Proof.
  intros w R C inn out inb inlen outb room sched ans pid pido data e H Hi Ho Hne Hli Hlo Hil Hr Hov HK HD E.
  pose proof (C57_transfer w R C inn out inb inlen outb room sched ans pid pido H Hi Ho Hne Hli Hlo Hil Hr Hov HK) as HW.
  rewrite E in HW. destruct HW as (_ & W2 & _ & W3 & W4 & _). pose proof (delivered sched _ data room HK (proj1 Hr) HD W4) as Ercv.
  assert (Hl : Z.of_nat (length (received sched)) = Z.min room (Z.of_nat (length data))) by (rewrite Ercv, take_length; lia).
  split; [lia|]. rewrite W2, Nat2Z.id, W3. rewrite take_app, drop_app. done.
Qed.
Print Assumptions C57_output.
(** it returns as soon as read returns 0, if everything was written, no error was reported and the
    child can be waited for *)
Theorem C57_returns : forall w R C inn out inb inlen outb room sched ans pid pido,
  pr_history (PS w R C) -> R !! inn = Some pid -> R !! out = Some pido -> inn <> out -> inn < 1024 -> out < 1024 ->
  0 <= inlen <= Z.of_nat (length inb) -> 0 <= room <= Z.of_nat (length outb) -> room < 2 ^ 31 -> kernel inlen room sched ->
  ~ trouble sched -> ~ premature inlen sched -> eof_seen sched -> ~ Forall (fun a => a = WIntr) ans ->
  exists e, pr_readwrite w inn out inb inlen outb room sched ans = Ret e.
Proof.
  intros w R C inn out inb inlen outb room sched ans pid pido H Hi Ho Hne Hli Hlo Hil Hr Hov HK H1 H2 H3 H4.
  pose proof (C57_transfer w R C inn out inb inlen outb room sched ans pid pido H Hi Ho Hne Hli Hlo Hil Hr Hov HK) as HW.
  destruct (pr_readwrite w inn out inb inlen outb room sched ans) as [e| | | |]; [eauto|exfalso..]; try tauto.
  destruct HW as [?|HW]; [done|]. by apply C56_waits in HW.
Qed.
Print Assumptions C57_returns.
(** a full buffer while input is left ends the program *)
Theorem C57_full_early : forall w R C inn out inb inlen outb sched ans pid pido wa,
  pr_history (PS w R C) -> R !! inn = Some pid -> R !! out = Some pido -> inn <> out -> inn < 1024 -> out < 1024 ->
  0 < inlen <= Z.of_nat (length inb) -> kernel inlen 0 (Turn true wa (Got []) :: sched) -> todo_after inlen wa <> 0 ->
  pr_readwrite w inn out inb inlen outb 0 (Turn true wa (Got []) :: sched) ans = Fatal.
Proof.
  intros w R C inn out inb inlen outb sched ans pid pido wa H Hi Ho Hne Hli Hlo Hil HK Ht.
  pose proof (history_pinv _ H) as I. cbn [ps_w ps_reg ps_kids] in I.
  destruct (i_reg _ _ _ I inn pid Hi) as (ei & ki & ci & Hei & _). destruct (i_reg _ _ _ I out pido Ho) as (eo & ko & co & Heo & _).
  pose proof (i_nonneg _ _ _ I inn ei Hei). pose proof (i_nonneg _ _ _ I out eo Heo).
  unfold pr_readwrite. rewrite Hei, Heo. unfold sint.
  assert (Er : int_range (Z.max inn out + 1) = true) by (unfold int_range, INT_MIN, INT_MAX; lia). rewrite Er. rb.
  cbn [rw_loop]. unfold rw_turn. cbn [r_inlen t_sel t_w t_r].
  assert (E1 : fd_set_ok out = true) by (unfold fd_set_ok, FD_SETSIZE; lia). assert (E2 : fd_set_ok inn = true) by (unfold fd_set_ok, FD_SETSIZE; lia).
  rewrite E1, E2. cbn [negb]. rewrite andb_false_r. unfold rw_write. cbn [r_inlen r_in r_w r_sent r_buf r_outlen r_room].
  destruct (Z.eqb_spec inlen 0); [lia|]. assert (Eb : (inlen <? 0) || (Z.of_nat (length inb) <? inlen) = false) by lia. rewrite Eb.
  destruct wa as [n'| |]; [| |done].
  - unfold todo_after in Ht. rewrite decide_False in Ht by lia. rewrite (proj2 (Z.eqb_neq _ _) Ht). rb. unfold rw_read. cbn [r_room r_inlen].
    rewrite (proj2 (Z.eqb_neq _ _) Ht). done.
  - rb. unfold rw_read. cbn [r_room r_inlen]. destruct (Z.eqb_spec inlen 0); [lia|]. done.
Qed.
Print Assumptions C57_full_early.
(** with nothing to write the input descriptor stays open and registered: the child does not see
    the end of its input before pr_readwrite returns, nor afterwards *)
Theorem C57_empty_input : forall w R C inn out inb outb room sched ans pid pido e,
  pr_history (PS w R C) -> R !! inn = Some pid -> R !! out = Some pido -> inn <> out -> inn < 1024 -> out < 1024 ->
  0 <= room <= Z.of_nat (length outb) -> room < 2 ^ 31 -> kernel 0 room sched ->
  pr_readwrite w inn out inb 0 outb room sched ans = Ret e ->
  p_tab (e_w e) !! inn = p_tab w !! inn /\ is_Some (p_tab w !! inn) /\ pr_history (PS (e_w e) (delete out R) C) /\ e_sent e = [].
Proof.
  intros w R C inn out inb outb room sched ans pid pido e H Hi Ho Hne Hli Hlo Hr Hov HK E.
  pose proof (C57_transfer w R C inn out inb 0 outb room sched ans pid pido H Hi Ho Hne Hli Hlo ltac:(lia) Hr Hov HK) as HW.
  rewrite E in HW. destruct HW as (W1 & _ & _ & _ & _ & _ & W5 & W6). rewrite decide_True in W5 by done. rewrite decide_True in W6 by done.
  pose proof (history_pinv _ H) as I. cbn [ps_w ps_reg ps_kids] in I. destruct (i_reg _ _ _ I inn pid Hi) as (ei & ki & ci & Hei & _).
  rewrite W5, lookup_delete_ne by done. split; [done|]. split; [eauto|]. done.
Qed.
Print Assumptions C57_empty_input.
(** descriptors too large for an fd_set: undefined behaviour *)
Theorem C57_fd_setsize : forall w inn out inb inlen outb room sched ans t, is_Some (p_tab w !! inn) -> is_Some (p_tab w !! out) ->
  Z.max inn out < 2 ^ 31 - 1 -> 0 <= inn -> 1024 <= out \/ (inlen <> 0 /\ 1024 <= inn) ->
  pr_readwrite w inn out inb inlen outb room (t :: sched) ans = UB.
Proof.
  intros w inn out inb inlen outb room sched ans t [x Hx] [y Hy] Hm H0 Hbig. unfold pr_readwrite. rewrite Hx, Hy. unfold sint.
  assert (Er : int_range (Z.max inn out + 1) = true) by (unfold int_range, INT_MIN, INT_MAX; lia). rewrite Er. rb.
  cbn [rw_loop]. unfold rw_turn. cbn [r_inlen]. unfold fd_set_ok, FD_SETSIZE.
  destruct (Z.leb_spec 0 out), (Z.ltb_spec out 1024); cbn [andb negb]; try done. destruct Hbig as [?|[Hi Hbig]]; [lia|].
  destruct (Z.eqb_spec inlen 0); [done|]. destruct (Z.leb_spec 0 inn), (Z.ltb_spec inn 1024); cbn [andb negb]; (done || lia).
Qed.
Print Assumptions C57_fd_setsize.
(** a descriptor that is not open is a fatal error at once, whatever the kernel would answer *)
Theorem C57_not_open : forall w inn out inb inlen outb room sched ans, p_tab w !! inn = None \/ p_tab w !! out = None ->
  pr_readwrite w inn out inb inlen outb room sched ans = Fatal.
Proof. intros w inn out inb inlen outb room sched ans H. unfold pr_readwrite. destruct (p_tab w !! inn); [|done]. destruct H as [H|H]; [done|]. by rewrite H. Qed.
Print Assumptions C57_not_open.
(** pr_filter *)
Theorem C57_filter : forall o w R C s rest ws inb inlen outb room sched ans data,
  pr_history (PS w R C) -> os_ok o (limit o w) -> limit o w <= 1024 ->
  str_ok s -> Z.of_nat (length s) + 3 < 2 ^ 30 -> line true true s ws ->
  0 <= inlen <= Z.of_nat (length inb) -> 0 <= room <= Z.of_nat (length outb) -> room < 2 ^ 31 ->
  kernel inlen room sched -> delivers data room sched ->
  match pr_filter o w (s ++ 0%N :: rest) inb inlen outb room sched ans with
  | Ret (e, c) =>
      e_sent e = take (Z.to_nat inlen) inb /\
      e_len e = Z.of_nat (length (take (Z.to_nat room) data)) /\
      e_buf e = take (Z.to_nat room) data ++ drop (length (take (Z.to_nat room) data)) outb /\
      c_words c = ws /\
      (exists k1 k2, c_tab c !! 0 = Some (REnd k1) /\ c_tab c !! 1 = Some (WEnd k2) /\ c_tab c !! 2 = p_tab w !! 2 /\
        (* afterwards the descriptors are as before; with no input one is left over *)
        (0 < inlen -> p_tab (e_w e) = p_tab w /\ pr_history (PS (e_w e) R ((o_fork o, c) :: C))) /\
        (inlen = 0 -> exists f, p_tab w !! f = None /\ p_tab (e_w e) = <[f := WEnd k1]> (p_tab w) /\
           pr_history (PS (e_w e) (<[f := o_fork o]> R) ((o_fork o, c) :: C)))) /\
      (exists l, pr_wait ans = Ret (e_status e, l))
  | Fatal => os_can_fail o \/ trouble sched \/ premature inlen sched
  | Diverge => ~ eof_seen sched \/ pr_wait ans = Diverge
  | _ => False
  end.
Proof. intros. by apply filter_ok. Qed.
Print Assumptions C57_filter.
