(** Property C92: the debugging output of pr.c (flag MAA_PR).
    DebugPrModel.v has the functions of pr.c with their debugging output, PrModel.v without.
    [does] (DebugSpec.v): from every state of the log, the call ends as without debugging and says the
    notes listed, those for debugging only if the flag is on.  The notes are in DebugPrSpec.v. *)
From Verif Require Import Base CStr StackModel ObjModel MemModel StrModel ArgModel ArgSpec ArgProofs ArgHist ArgProps.
From Verif Require Import FlagModel FlagSpec FlagHist FlagProps LogModel LogSpec LogProofs LogProps DebugModel DebugSpec DebugFollow SourceMsg.
From Verif Require Import PrModel PrSpec PrProofs PrHist PrRw PrProps DebugPrModel DebugPrSpec DebugPrProofs.
From Verif Require Import SourceSpec.
From Verif Require DebugProps2 PrEx.
From Verif Require Import Alloc.
From Coq Require Import String.
Notation length := List.length.
Local Open Scope Z_scope.

(** MAA_PR is bit 27 of set 3 *)
Lemma pr_flag fs l ev : flag_history true fs l ev -> exists t, dbg_test fs MAA_PR = Ret t /\ (t =? 0) = negb (lit ev 3 27).
Proof.
  intros Hh. destruct (C43_test true fs l ev MAA_PR Hh eq_refl) as (r & E & _ & Hr). exists r. split; [done|].
  change (seen MAA_PR) with 3%N in Hr.
  destruct (lit ev 3 27) eqn:El; cbn [negb].
  - assert (r <> 0) by (apply Hr; exists 27%N; done). lia.
  - destruct (Z.eqb_spec r 0) as [|Hn]; [done|]. apply Hr in Hn as (i & Hi & Hb & Hl). exfalso.
    assert (i = 27%N) as -> by (revert Hb; clear -Hi; unfold MAA_PR; intros Hb;
      rewrite N.lor_spec, N.shiftl_1_l, N.pow2_bits_eqb, N.shiftl_spec_low in Hb by done; cbn [orb] in Hb; by apply N.eqb_eq in Hb as <-).
    congruence.
Qed.
(** what is said depends on the result *)
Definition said {A} (r : res A) (f : A -> list note) : list note := match r with Ret a => f a | _ => [] end.
Lemma does_said {A} o on (m : M A) r f : doesP o on m r (fun a n => n = f a) -> does o on m r (said r f).
Proof. intros H. eapply P_does; [exact H|]. intros a n -> ->. done. Qed.

(** the numbers in the messages, for ints *)
Theorem C92_numbers n : is_int n -> decimal n (c_itoa n) /\ hexadecimal n (c_hex n) /\ hexadecimal4 n (c_hex4 n).
Proof. intros H. split; [by apply itoa_decimal|]. unfold is_int in H. split; [apply hex_ok|apply hex4_ok]; lia. Qed.

Theorem C92_wait o fs l ev pid en ans : flag_history true fs l ev -> lets_write o ->
  does o (lit ev 3 27) (pr_wait_d o fs pid en ans) (pr_wait ans) (said (pr_wait ans) (fun x => wait_notes (text "pr_wait") pid en ans x.1)).
Proof. intros Hh Ho. destruct (pr_flag fs l ev Hh) as (t & Ht & Hon). by eapply does_said, wait_does. Qed.
(** pr_close waits for the process the descriptor was opened for *)
Theorem C92_close o fs l ev w R C fd pid en ans : flag_history true fs l ev -> lets_write o -> pr_history (PS w R C) -> R !! fd = Some pid ->
  does o (lit ev 3 27) (pr_close_d o fs en w fd ans) (pr_close w fd ans)
    (said (pr_close w fd ans) (fun x => wait_notes (text "pr_wait") pid en ans x.2)).
Proof.
  intros Hh Ho H HR. destruct (pr_flag fs l ev Hh) as (t & Ht & Hon). pose proof (history_pinv _ H) as I. cbn [ps_w ps_reg ps_kids] in I.
  eapply does_said, close_does; [exact Ht|exact Hon|exact Ho|]. eapply close_nowait_ok; [apply I|done].
Qed.
(** pr_open2 (with any callback) and pr_open: the command and its first word, the descriptors, the pid *)
Theorem C92_open2 o fs l ev os w R C s rest ws cb flags infd outfd errfd : flag_history true fs l ev -> lets_write o ->
  pr_history (PS w R C) -> aalloc_ok (o_arg os) -> str_ok s -> Z.of_nat (length s) + 3 < 2 ^ 30 -> ArgSpec.line true true s ws ->
  (lit ev 3 27 = true -> ws <> []) ->
  does o (lit ev 3 27) (pr_open2_d o fs os w (s ++ 0%N :: rest) cb flags infd outfd errfd) (pr_open2 os w (s ++ 0%N :: rest) cb flags infd outfd errfd)
    (said (pr_open2 os w (s ++ 0%N :: rest) cb flags infd outfd errfd) (fun x => open_notes flags (arg3 infd outfd errfd) x.2 (List.hd [] ws) s)).
Proof.
  intros Hh Ho H Hal Hs Hl Hline Hne. destruct (pr_flag fs l ev Hh) as (t & Ht & Hon). pose proof (history_pinv _ H) as I. cbn [ps_w ps_reg ps_kids] in I.
  destruct (b_arg _ _ (i_base _ _ _ I)) as [G HG]. by eapply does_said, open_does.
Qed.
Theorem C92_open o fs l ev os w R C s rest ws flags infd outfd errfd : flag_history true fs l ev -> lets_write o ->
  pr_history (PS w R C) -> aalloc_ok (o_arg os) -> str_ok s -> Z.of_nat (length s) + 3 < 2 ^ 30 -> ArgSpec.line true true s ws ->
  (lit ev 3 27 = true -> ws <> []) ->
  does o (lit ev 3 27) (pr_open_d o fs os w (s ++ 0%N :: rest) flags infd outfd errfd) (pr_open os w (s ++ 0%N :: rest) flags infd outfd errfd)
    (said (pr_open os w (s ++ 0%N :: rest) flags infd outfd errfd) (fun x => open_notes flags (arg3 infd outfd errfd) x.2 (List.hd [] ws) s)).
Proof. intros. by eapply C92_open2. Qed.
Theorem C92_spawn o fs l ev en os w R C s rest ws ans : flag_history true fs l ev -> lets_write o ->
  pr_history (PS w R C) -> aalloc_ok (o_arg os) -> str_ok s -> Z.of_nat (length s) + 3 < 2 ^ 30 -> ArgSpec.line true true s ws ->
  (lit ev 3 27 = true -> ws <> []) ->
  does o (lit ev 3 27) (pr_spawn_d o fs en os w (s ++ 0%N :: rest) ans) (pr_spawn os w (s ++ 0%N :: rest) ans)
    (said (pr_spawn os w (s ++ 0%N :: rest) ans) (fun x =>
       [exec_note (List.hd [] ws) s; pid_note (o_fork os)] ++ wait_notes (text "pr_spawn") (o_fork os) en ans x.1.2)).
Proof.
  intros Hh Ho H Hal Hs Hl Hline Hne. destruct (pr_flag fs l ev Hh) as (t & Ht & Hon). pose proof (history_pinv _ H) as I. cbn [ps_w ps_reg ps_kids] in I.
  destruct (b_arg _ _ (i_base _ _ _ I)) as [G HG]. by eapply does_said, spawn_does.
Qed.
(** a command without words: the first word is NULL, and the message formats it by %s.  So with the flag on
    the behaviour is undefined where without it the child is started (and its execvp fails). *)
Lemma empty_exec os w R C s rest aw p : pr_history (PS w R C) -> aalloc_ok (o_arg os) -> str_ok s -> Z.of_nat (length s) + 3 < 2 ^ 30 ->
  ArgSpec.line true true s [] -> arg_argify (o_arg os) (p_arg w) (s ++ 0%N :: rest) 0 = Ret (aw, p) ->
  exists c v, arg_get_vector aw (Some p) = Ret (c, v) /\ exec_words (mblk (amem aw)) v = Ret [].
Proof.
  intros H Hal Hs Hl Hline E. pose proof (history_pinv _ H) as I. cbn [ps_w ps_reg ps_kids] in I. destruct (b_arg _ _ (i_base _ _ _ I)) as [G HG].
  pose proof (command_ok (o_arg os) (p_arg w) G s rest [] HG Hal Hs Hl Hline) as HC. rewrite E in HC. cbn [ok] in HC.
  destruct HC as (c & v & w'' & Ev & Ex & _). by exists c, v.
Qed.
Lemma init_arg os w w' : pr_init os w = Ret w' -> p_arg w' = p_arg w.
Proof. unfold pr_init. destruct (p_objs w); [by intros [= <-]|]. destruct (o_mem os); [by intros [= <-]|done]. Qed.
Theorem C92_empty_command o fs l ev en os w R C s rest cb flags infd outfd errfd ans lw : flag_history true fs l ev ->
  pr_history (PS w R C) -> aalloc_ok (o_arg os) -> str_ok s -> Z.of_nat (length s) + 3 < 2 ^ 30 -> ArgSpec.line true true s [] ->
  lit ev 3 27 = true ->
  (forall x, pr_open2 os w (s ++ 0%N :: rest) cb flags infd outfd errfd = Ret x -> pr_open2_d o fs os w (s ++ 0%N :: rest) cb flags infd outfd errfd lw = UB) /\
  (forall x, pr_spawn os w (s ++ 0%N :: rest) ans = Ret x -> pr_spawn_d o fs en os w (s ++ 0%N :: rest) ans lw = UB).
Proof.
  intros Hh H Hal Hs Hl Hline Hlit. destruct (pr_flag fs l ev Hh) as (t & Ht & Hon). rewrite Hlit in Hon.
  split; intros x E; [unfold pr_open2 in E; unfold pr_open2_d|unfold pr_spawn in E; unfold pr_spawn_d]; unfold bind, lift;
  (destruct (pr_init os w) as [w0| | | |] eqn:Ei; try discriminate E); cbn [mbind res_bind] in E |- *;
  try (destruct (pr_flags_bad flags); [discriminate E|]); rewrite (init_arg _ _ _ Ei) in E |- *;
  (destruct (arg_argify (o_arg os) (p_arg w) (s ++ 0%N :: rest) 0) as [[aw p]| | | |] eqn:Ea; try discriminate E);
  (destruct (empty_exec os w R C s rest aw p H Hal Hs Hl Hline Ea) as (c & v & Ev & Ex)); cbn [mbind res_bind fst snd] in E |- *; rewrite Ev;
  cbn [mbind res_bind fst snd]; rewrite (exec_none _ _ _ Ex), (say_UB o true fs MAA_PR t Ht Hon); done.
Qed.
(** pr_readwrite: the descriptor for the input has to fit in a set of select when debugging is on, even
    if there is no input *)
Theorem C92_readwrite o fs l ev en w R C inn out inb inlen outb room sched ans pid pido : flag_history true fs l ev -> lets_write o ->
  pr_history (PS w R C) -> R !! inn = Some pid -> R !! out = Some pido -> inn <> out -> (lit ev 3 27 = true -> inn < 1024) ->
  does o (lit ev 3 27) (pr_readwrite_d o fs en w inn out inb inlen outb room sched ans)
    (pr_readwrite w inn out inb inlen outb room (map d_turn sched) ans)
    (said (pr_readwrite w inn out inb inlen outb room (map d_turn sched) ans) (fun e => rw_notes inlen room sched pido en ans (e_status e))).
Proof.
  intros Hh Ho H Hi Hout Hne Hlt. destruct (pr_flag fs l ev Hh) as (t & Ht & Hon). pose proof (history_pinv _ H) as I. cbn [ps_w ps_reg ps_kids] in I.
  destruct (reg_range _ _ _ _ (i_base _ _ _ I) Hi) as (? & _ & _ & Hir & _).
  destruct (reg_range _ _ _ _ (i_base _ _ _ I) Hout) as (objs & Eo & _ & Hor & Hp & Hpos).
  eapply does_said, readwrite_does; [exact Ht|exact Hon|exact Ho|exact Hne| |].
  - intros E. specialize (Hlt E). unfold fd_set_ok, FD_SETSIZE. lia.
  - exists objs. split; [done|]. split; [lia|]. split; [done|lia].
Qed.
Theorem C92_fd o fs l ev en w inn out inb outb room t sched ans lw : flag_history true fs l ev -> lit ev 3 27 = true ->
  is_Some (p_tab w !! inn) -> is_Some (p_tab w !! out) -> 1024 <= inn < 2 ^ 31 - 1 -> 0 <= out < 1024 -> t_sel (d_turn t) = true ->
  pr_readwrite_d o fs en w inn out inb 0 outb room (t :: sched) ans lw = UB.
Proof.
  intros Hh Hlit [ei Hi] [eo Hout] Hbig Hsm Hsel. destruct (pr_flag fs l ev Hh) as (d & Ht & Hon). rewrite Hlit in Hon.
  unfold pr_readwrite_d. rewrite Hi, Hout. unfold sint.
  assert (Er : int_range (Z.max inn out + 1) = true) by (unfold int_range, INT_MIN, INT_MAX; lia). rewrite Er.
  cbn [rw_loop_d]. unfold rw_turn_d. cbn [r_inlen]. rewrite Hsel.
  assert (Ef : fd_set_ok out = true) by (unfold fd_set_ok, FD_SETSIZE; lia).
  assert (Ef' : fd_set_ok inn = false) by (unfold fd_set_ok, FD_SETSIZE; lia).
  unfold show_select. rewrite Ef, Ef', Ht. cbn [negb andb orb Z.eqb]. unfold bind, lift. cbn [mbind res_bind]. rewrite Hon. reflexivity.
Qed.
(** pr_filter: pr_open, then pr_readwrite *)
Theorem C92_filter o fs l ev en os w R C s rest ws inb inlen outb room sched ans : flag_history true fs l ev -> lets_write o ->
  pr_history (PS w R C) -> os_ok os (limit os w) -> limit os w <= 1024 -> str_ok s -> Z.of_nat (length s) + 3 < 2 ^ 30 -> ArgSpec.line true true s ws ->
  (lit ev 3 27 = true -> ws <> []) ->
  exists ns, does o (lit ev 3 27) (pr_filter_d o fs en os w (s ++ 0%N :: rest) inb inlen outb room sched ans)
    (pr_filter os w (s ++ 0%N :: rest) inb inlen outb room (map d_turn sched) ans) ns /\
    forall e c, pr_filter os w (s ++ 0%N :: rest) inb inlen outb room (map d_turn sched) ans = Ret (e, c) ->
      exists w1 p, pr_open os w (s ++ 0%N :: rest) (Z.lor PR_CREATE_STDIN PR_CREATE_STDOUT) (Some 0) (Some 0) None = Ret (w1, p) /\
      ns = open_notes (Z.lor PR_CREATE_STDIN PR_CREATE_STDOUT) (arg3 (Some 0) (Some 0) None) p (List.hd [] ws) s ++
           rw_notes inlen room sched (o_fork os) en ans (e_status e).
Proof.
  intros Hh Ho H Hos Hlim Hs Hl Hline Hne. destruct (pr_flag fs l ev Hh) as (t & Ht & Hon). pose proof (history_pinv _ H) as I. cbn [ps_w ps_reg ps_kids] in I.
  destruct (b_arg _ _ (i_base _ _ _ I)) as [G HG].
  pose proof (open_does o _ fs t Ht Hon Ho os w G s rest ws None FILTER (Some 0) (Some 0) None HG (os_arg _ _ Hos) Hs Hl Hline Hne) as HD.
  pose proof (open_ok os w R s rest ws None FILTER (Some 0) (Some 0) None (i_base _ _ _ I) Hos (filter_proper w _) (polite_none _ _ _) Hs Hl Hline) as HO.
  unfold pr_filter, pr_filter_d, pr_open, pr_open_d. fold FILTER.
  destruct (pr_open2 os w (s ++ 0%N :: rest) None FILTER (Some 0) (Some 0) None) as [[w1 p]| | | |] eqn:E; try done.
  2: { exists []. split; [|done]. intros lw LG g Hlw Hg. specialize (HD lw LG g Hlw Hg). cbn [mbind res_bind] in HD |- *. unfold bind. by rewrite HD. }
  cbn [ok] in HO. destruct HO as (B & Hmax & _ & K & T & HE & _ & _).
  assert (S0 : PrSpec.stream 0) by (unfold PrSpec.stream; lia). assert (S1 : PrSpec.stream 1) by (unfold PrSpec.stream; lia).
  destruct (oe_new _ _ _ _ _ _ _ _ _ _ _ HE 0 S0 eq_refl) as (fi & Hfi & Hti & Hfi3 & Hti').
  destruct (oe_new _ _ _ _ _ _ _ _ _ _ _ HE 1 S1 eq_refl) as (fo & Hfo & Hto & Hfo3 & Hto').
  destruct (oe_distinct _ _ _ _ _ _ _ _ _ _ _ HE 0 1 S0 S1 ltac:(lia) eq_refl eq_refl) as [Hd _].
  assert (Ei : op_in p = Some fi) by exact Hfi. assert (Eo : op_out p = Some fo) by exact Hfo.
  assert (Hfne : fi <> fo) by congruence.
  assert (HR : reg_after FILTER (arg3 (Some 0) (Some 0) None) p R = <[fo := op_pid p]> (<[fi := op_pid p]> R)).
  { unfold reg_after, reg1. change (creates FILTER 2) with false. change (uses FILTER 2) with false.
    change (creates FILTER 1) with true. change (creates FILTER 0) with true. cbv iota. by rewrite Hfi, Hfo. }
  rewrite HR in *. destruct (oe_pid _ _ _ _ _ _ _ _ _ _ _ HE) as [Epid Hpid]. rewrite Epid in *.
  assert (Hri : <[fo := o_fork os]> (<[fi := o_fork os]> R) !! fi = Some (o_fork os)) by (rewrite lookup_insert_ne, lookup_insert by done; done).
  assert (Hro : <[fo := o_fork os]> (<[fi := o_fork os]> R) !! fo = Some (o_fork os)) by (by rewrite lookup_insert).
  destruct (reg_range _ _ _ _ B Hri) as (oi & Eoi & _ & Hir & _). destruct (reg_range _ _ _ _ B Hro) as (objs & Eobjs & _ & Hor & Hop & _).
  pose proof (b_objs _ _ B) as Hb. rewrite Eobjs in Eoi. injection Eoi as <-. rewrite Eobjs in Hb.
  assert (Hrw : doesP o (lit ev 3 27) (pr_filter_d o fs en os w (s ++ 0%N :: rest) inb inlen outb room sched ans)
    (pr_filter os w (s ++ 0%N :: rest) inb inlen outb room (map d_turn sched) ans)
    (fun x n => n = open_notes FILTER (arg3 (Some 0) (Some 0) None) p (List.hd [] ws) s ++ rw_notes inlen room sched (o_fork os) en ans (e_status x.1))).
  { unfold pr_filter, pr_filter_d, pr_open, pr_open_d. fold FILTER. rewrite E.
    eapply (P_bind _ _ _ _ _ (fun '(w1, p) => _) _); [exact HD|]. intros [w1' p'] n1 [= <- <-] ->. cbn [fst snd]. rewrite Ei, Eo.
    eapply P_bind; [eapply (readwrite_does o _ fs t Ht Hon Ho en w1 fi fo inb inlen outb room sched ans (o_fork os) Hfne)|].
    - intros _. unfold fd_set_ok, FD_SETSIZE. lia.
    - exists objs. split; [done|]. split; [lia|]. split; [done|lia].
    - intros e n2 _ ->. apply P_ret. by rewrite app_nil_r. }
  exists (said (pr_filter os w (s ++ 0%N :: rest) inb inlen outb room (map d_turn sched) ans)
    (fun x => open_notes FILTER (arg3 (Some 0) (Some 0) None) p (List.hd [] ws) s ++ rw_notes inlen room sched (o_fork os) en ans (e_status x.1))).
  pose proof (does_said _ _ _ _ _ Hrw) as Hds. unfold pr_filter, pr_filter_d, pr_open, pr_open_d in Hds |- *. fold FILTER in Hds |- *. rewrite E in Hds |- *.
  split; [exact Hds|]. intros e c Ee. exists w1, p. split; [done|]. rewrite Ee. done.
Qed.
Print Assumptions C92_numbers.
Print Assumptions C92_wait.
Print Assumptions C92_close.
Print Assumptions C92_open2.
Print Assumptions C92_open.
Print Assumptions C92_spawn.
Print Assumptions C92_empty_command.
Print Assumptions C92_readwrite.
Print Assumptions C92_fd.
Print Assumptions C92_filter.

(** ** Examples *)
Import DebugProps2 PrEx.
Definition pr_on : fstate := getr (dbg_set_flag fempty MAA_PR) fempty.
Example C92_flag : flag_history true pr_on None [ESet MAA_PR] /\ lit [ESet MAA_PR] 3 27 = true.
Proof.
  destruct (C43_set_flag fempty None [] 3 27 (fh_start true) eq_refl eq_refl) as (s & E & Hh & _). split; [|reflexivity].
  assert (pr_on = s) as -> by (unfold pr_on; change MAA_PR with (fl 3 27); rewrite E; reflexivity). exact Hh.
Qed.
Lemma tok_line (s : list N) (ws : list (list N)) : ArgHist.tok true true ArgHist.Out None s = ws -> ArgSpec.line true true s ws.
Proof. destruct (line_total true true s) as [ws' H]. pose proof (line_tok true true s ws' H). intros E. congruence. Qed.
Lemma ex_limit : limit (ex_os 102) a2 = 16. Proof. vm_compute. reflexivity. Qed.
(** hypotheses: a pipeline of two children whose descriptors are registered; commands with and without words *)
Example C92_reachable : (exists C, pr_history (PS a2 R2 C)) /\ R2 !! 3 = Some 101 /\ R2 !! 4 = Some 100 /\
  lets_write ex_sys /\ os_ok (ex_os 102) (limit (ex_os 102) a2) /\ limit (ex_os 102) a2 <= 1024 /\
  ArgSpec.line true true cmd2 ws2 /\ ArgSpec.line true true [32]%N [].
Proof.
  split; [destruct C55_history as [H _]; eexists; exact H|]. split; [vm_compute; reflexivity|]. split; [vm_compute; reflexivity|].
  split; [exact C91_lets_write|]. rewrite ex_limit. split; [apply ex_os_ok; lia|]. split; [lia|].
  split; apply tok_line; reflexivity.
Qed.
(** a filter with debugging: what the log writes on stderr, and what goes to stdout *)
Definition ex_err : lstate := run_st (os_at 50) (COpenStream (bytes "me") LogModel.Stderr) lstart.
Definition said_on (st : LogModel.stream) (l : list event) : list N :=
  List.concat (map (fun e => match e with EPrint st' b => if decide (st' = st) then b else [] | _ => [] end) l).
Definition ex_turns : list dturn := [DTurn (Turn true (Wrote 1) (Got [8; 9]%N)) 2 false true true false false false; DTurn (Turn true WAgain (Got [])) 1 false true false false false true].
Definition ex_filter := pr_filter_d ex_sys pr_on 4 (ex_os 102) a2 (cmd2 ++ [0]%N) [1]%N 1 [0; 0; 0]%N 3 ex_turns [WIntr; WStatus 256].
Example C92_run :
  said_on LogModel.Stderr (events ex_filter ex_err) =
    text "Execing wc with ""wc""" ++ [10%N] ++ text "stdin = 6; stdout = 7; child pid = 102" ++ [10%N] ++
    text "  wrote 1" ++ [10%N] ++ text "  read 2" ++ [10%N] ++ text "waiting on pid 102" ++ [10%N] ++ text "Child 102 exited with status 0x0001" ++ [10%N] ++
    text "pr_readwrite: Filter had non-zero exit status: 0x1" ++ [10%N] ++ text "Filter had non-zero exit status: 0x1" /\
  said_on LogModel.Stdout (events ex_filter ex_err) =
    text "select(2) returns 2, inLen = 1, outLen = 0, outMaxLen = 3" ++ [10%N] ++ text "  out/read" ++ [10%N] ++ text "  in/write" ++ [10%N] ++
    text "select(2) returns 1, inLen = 0, outLen = 2, outMaxLen = 1" ++ [10%N] ++ text "  out/read" ++ [10%N] ++ text "  out/error" ++ [10%N].
Proof. vm_compute. split; reflexivity. Qed.
(** a command without words, and a wait that fails *)
Example C92_run_others :
  pr_spawn_d ex_sys pr_on 4 (ex_os 103) a2 [32; 0]%N [WStatus 0] ex_err = UB /\
  match pr_spawn_d ex_sys fempty 4 (ex_os 103) a2 [32; 0]%N [WStatus 0] ex_err with Ret _ => True | _ => False end /\
  said_on LogModel.Stderr (events (pr_wait_d ex_sys pr_on 7 10 [WIntr; WOther]) ex_err) =
    text "waiting on pid 7" ++ [10%N] ++ text "waitpid() < 0, errno = 10" ++ [10%N] ++ text "pr_wait: " ++ strerr (ex_sys []) ++ [10%N].
Proof. vm_compute. auto. Qed.
