(** Properties C47, C48, C52, C53, C54: errors and the log. *)
From Verif Require Import Base CStr ListLemmas MemProofs LogModel LogSpec LogProofs LogHist.
From Coq Require Import String.
Notation length := List.length.
Local Open Scope Z_scope.

Lemma dirs_of_for o G : dirs_for o G (dirs_of o G).
Proof. unfold dirs_for, dirs_of. destruct (s_file G) as [[[fd name] fmt]|]; [apply dirs_ok|done]. Qed.
Lemma prefix_eq p r : err_prefix p r = prefix_events p r.
Proof. by destruct p, r. Qed.
Lemma delivered_again o ds ds' G r prio msg :
  delivered o ds (after_message o G) r prio msg = delivered o ds' (after_message o G) r prio msg.
Proof.
  unfold delivered, after_message. destruct (s_file G) as [[[fd name] fmt]|] eqn:Ef; [|by rewrite Ef].
  cbn [s_file set_file]. unfold to_file, switched. destruct (decide (expansion o fmt = name)); cbn [fst snd];
    rewrite !decide_True by done; done.
Qed.
Lemma bad_cannot {A} o G (r : res (lstate * ctl A)) : bad o G r -> cannot_write o G r.
Proof. unfold bad, cannot_write. by intros [_ H]. Qed.

(** ** C47 *)
(** err_set_program_name returns; err_program_name then gives the part after the last '/'. *)
Theorem C47_set_program_name w p : exists w' b,
  err_set_program_name p w = Ret (w', Go tt) /\ err_program_name w' = Ret (w', Go b) /\ ltr w' = ltr w /\
  match p, b with Some s, Some b => basename s b | None, None => True | _, _ => False end.
Proof.
  eexists _, _. split; [reflexivity|]. split; [reflexivity|]. split; [done|]. destruct p as [s|]; [|done]. apply basename_ok.
Qed.
(** ... and there is only one such part. *)
Theorem C47_basename_unique s a b : basename s a -> basename s b -> a = b.
Proof. apply basename_unique. Qed.
(** The name stays until it is set again: in every history it is the one last set. *)
Theorem C47_program_name w G g : log_history w G g -> err_program_name w = Ret (w, Go (s_prog G)).
Proof. intros Hh. apply log_inv in Hh. unfold err_program_name. rewrite bind_get. by rewrite (i_prog _ _ _ Hh). Qed.

(** ** C48 *)
(** err_fatal: flush, the report on stderr, the message to the log, flush, exit(1). *)
Theorem C48_fatal {A} w G g o routine msg : log_history w G g -> can_write o G ->
  exists w' ds, err_fatal (A := A) o routine msg w = Ret (w', Exits 1) /\ dirs_for o G ds /\
    ltr w' = ltr w ++ [EFlush Stdout] ++ prefix_events (s_prog G) routine ++ [EPrint Stderr msg; EPrint Stderr nl] ++
             delivered o ds G routine 3 msg ++ [EFlush Stderr; EFlush Stdout].
Proof.
  intros Hh Hc. apply log_inv in Hh. destruct (err_fatal_ok (A := A) o w G g routine msg Hh Hc) as (w' & E & T).
  exists w', (dirs_of o G). split; [done|]. split; [apply dirs_of_for|]. rewrite T, prefix_eq. done.
Qed.
(** err_fatal_errno: the same with the system's text added; the log gets two messages.  A
    NULL routine is printed with %s. *)
Theorem C48_fatal_errno {A} w G g o r msg : log_history w G g -> can_write o G ->
  exists w' ds, err_fatal_errno (A := A) o (Some r) msg w = Ret (w', Exits 1) /\ dirs_for o G ds /\
    ltr w' = ltr w ++ [EFlush Stdout] ++ prefix_events (s_prog G) (Some r) ++ [EPrint Stderr msg] ++
             delivered o ds G (Some r) 3 msg ++
             [EPrint Stderr (bytes " " ++ r ++ bytes ": " ++ strerr o ++ nl)] ++
             delivered o [] (after_message o G) (Some r) 3 (r ++ bytes ": " ++ strerr o) ++ [EFlush Stderr; EFlush Stdout].
Proof.
  intros Hh Hc. apply log_inv in Hh. destruct (fatal_errno_ok (A := A) open_failed o w G g r msg Hh Hc) as (w' & E & T).
  exists w', (dirs_of o G). split; [exact E|]. split; [apply dirs_of_for|]. rewrite T, prefix_eq.
  rewrite (delivered_again o _ []). done.
Qed.
Theorem C48_fatal_errno_null {A} w G g o msg : log_history w G g -> can_write o G ->
  err_fatal_errno (A := A) o None msg w = UB.
Proof.
  intros Hh Hc. apply log_inv in Hh. unfold err_fatal_errno, err_fatal_errno_with. rewrite bind_get, bind_emit, bind_emits, bind_emit, !tr_app_app.
  match goal with |- bind _ _ (tr_app w ?es) = _ =>
    destruct (message_ok open_failed o _ G g None 3 msg (linv_tr _ _ _ es Hh) Hc) as (w1 & E1 & H1 & T1) end.
  unfold log_error. by rewrite (bind_go _ _ _ _ _ E1).
Qed.
(** err_internal: flush, the report, the message to the log, "Aborting", flush, abort. *)
Theorem C48_internal {A} w G g o routine msg : log_history w G g -> can_write o G ->
  exists w' ds, err_internal (A := A) o routine msg w = Ret (w', Aborts) /\ dirs_for o G ds /\
    ltr w' = ltr w ++
      [EFlush Stdout; EPrint Stderr (prefix_text (s_prog G) routine ++ bytes "Internal error" ++ nl ++ bytes "     ");
       EPrint Stderr msg; EPrint Stderr nl] ++
      delivered o ds G routine 3 msg ++
      [EPrint Stderr (bytes "Aborting" ++ match s_prog G with Some p => bytes " " ++ p | None => [] end ++ bytes "..." ++ nl);
       EFlush Stderr; EFlush Stdout].
Proof.
  intros Hh Hc. apply log_inv in Hh. destruct (err_internal_ok (A := A) o w G g routine msg Hh Hc) as (w' & E & T).
  exists w', (dirs_of o G). split; [done|]. split; [apply dirs_of_for|]. rewrite T. unfold internal_prefix, prefix_text.
  by destruct (s_prog G), routine.
Qed.
(** err_warning: flush, the report, the message to the log; it returns and changes nothing
    but the log file's name. *)
Theorem C48_warning w G g o routine msg : log_history w G g -> small g -> can_write o G ->
  exists w' ds, err_warning o routine msg w = Ret (w', Go tt) /\ dirs_for o G ds /\ log_history w' (after_message o G) g /\
    ltr w' = ltr w ++ [EFlush Stdout; EFlush Stderr] ++ prefix_events (s_prog G) routine ++ [EPrint Stderr msg; EPrint Stderr nl] ++
             delivered o ds G routine 3 msg.
Proof.
  intros Hh Hg Hc. pose proof (log_inv _ _ _ Hh) as Hi. destruct (err_warning_ok o w G g routine msg Hi Hc) as (w' & E & _ & T).
  exists w', (dirs_of o G). split; [done|]. split; [apply dirs_of_for|]. split.
  - replace g with (g + phantom o (CWarning routine msg))%nat by (cbn [phantom]; lia). by eapply lh_call.
  - by rewrite T, prefix_eq.
Qed.
(** Whatever the state, the first three do not return. *)
Lemma bind_not_go {A B} (m : M A) (f : A -> M B) : (forall a w w' b, f a w <> Ret (w', Go b)) -> forall w w' b, bind m f w <> Ret (w', Go b).
Proof.
  intros H w w' b. unfold bind. destruct (m w) as [[w1 [a|n|]]| | | |]; cbn [mbind res_bind]; (done || apply H).
Qed.
Theorem C48_never_return {A} o routine msg w w' (a : A) :
  err_fatal o routine msg w <> Ret (w', Go a) /\ err_fatal_errno o routine msg w <> Ret (w', Go a) /\ err_internal o routine msg w <> Ret (w', Go a).
Proof.
  split; [|split].
  - unfold err_fatal. repeat (apply bind_not_go; intros ? ? ? ?). done.
  - unfold err_fatal_errno, err_fatal_errno_with. repeat (apply bind_not_go; intros ? ? ? ?). destruct routine as [r|]; [|done].
    repeat (apply bind_not_go; intros ? ? ? ?). done.
  - unfold err_internal. repeat (apply bind_not_go; intros ? ? ? ?). done.
Qed.
(** If the log file must be switched and cannot, the calls (err_warning too) exit with
    status 1; a name that does not fit is undefined. *)
Theorem C48_cannot_write w G g o r routine msg : log_history w G g -> ~ can_write o G ->
  cannot_write o G (err_fatal (A := unit) o routine msg w) /\ cannot_write o G (err_fatal_errno (A := unit) o (Some r) msg w) /\
  cannot_write o G (err_internal (A := unit) o routine msg w) /\ cannot_write o G (err_warning o routine msg w).
Proof.
  intros Hh Hc. apply log_inv in Hh. split; [|split; [|split]]; apply bad_cannot.
  - by apply (err_fatal_bad o w G g).
  - unfold err_fatal_errno, err_fatal_errno_with. rewrite bind_get, bind_emit, bind_emits, bind_emit. apply bad_bind.
    apply (message_bad o _ G g); [|done]. by repeat apply linv_tr.
  - by apply (err_internal_bad o w G g).
  - unfold err_warning. rewrite bind_get, !bind_emit, bind_emits, !bind_emit.
    apply (message_bad o _ G g); [|done]. by repeat apply linv_tr.
Qed.

(** ** C52 *)
(** Every call that returns takes the sinks where [after] says. *)
Theorem C52_step w G g o c w' : log_history w G g -> call_ok c -> small g -> run o c w = Ret (w', Go tt) ->
  exists G', after o c G G' /\ log_history w' G' (g + phantom o c).
Proof.
  intros Hh Hc Hg E. enough (Ha : exists G', after o c G G') by (destruct Ha as [G' Ha]; exists G'; split; [done|by eapply lh_call]).
  destruct c; cbn [after]; eauto.
  - cbn [run] in E. unfold log_set_facility in E. destruct (find_name facilities name) as [v|] eqn:Ev.
    + eexists. exists v. split; [by apply find_name_in|reflexivity].
    + exfalso. eapply fatal_not_go in E; [done|by apply log_inv].
  - destruct name as [s|]; [|eexists; by exists None]. eexists. exists (Some (after_last_slash s)). split; [apply basename_ok|reflexivity].
Qed.
(** A message goes to exactly the sinks that are open. *)
Theorem C52_message w G g o routine msg : log_history w G g -> can_write o G ->
  exists w' ds, log_error o routine msg w = Ret (w', Go tt) /\ dirs_for o G ds /\ ltr w' = ltr w ++ delivered o ds G routine 3 msg.
Proof.
  intros Hh Hc. apply log_inv in Hh. destruct (message_ok open_failed o w G g routine 3 msg Hh Hc) as (w' & E & _ & T).
  exists w', (dirs_of o G). split; [done|]. split; [apply dirs_of_for|done].
Qed.
Theorem C52_info w G g o msg : log_history w G g -> can_write o G ->
  exists w' ds, log_info o msg w = Ret (w', Go tt) /\ dirs_for o G ds /\ ltr w' = ltr w ++ delivered o ds G None 6 msg.
Proof.
  intros Hh Hc. apply log_inv in Hh. destruct (message_ok open_failed o w G g None 6 msg Hh Hc) as (w' & E & _ & T).
  exists w', (dirs_of o G). split; [done|]. split; [apply dirs_of_for|done].
Qed.
(** With none open nothing happens at all. *)
Theorem C52_none_open w G g o routine msg : log_history w G g -> open_sinks G = 0 ->
  exists w', log_error o routine msg w = Ret (w', Go tt) /\ ltr w' = ltr w.
Proof.
  intros Hh Ho. unfold open_sinks in Ho. destruct (s_file G) as [x|] eqn:Ef, (s_stream G) as [s|] eqn:Es, (s_syslog G) eqn:Ey; try lia.
  destruct (C52_message w G g o routine msg Hh) as (w' & ds & E & _ & T); [unfold can_write; by rewrite Ef|].
  exists w'. split; [done|]. rewrite T. unfold delivered. rewrite Ef, Es, Ey. cbn [app]. by rewrite app_nil_r.
Qed.
(** The count of open sinks: one more for each file opened with an empty name. *)
Theorem C52_count w G g : log_history w G g -> lopen w = open_sinks G + Z.of_nat g /\ 0 <= open_sinks G <= 3.
Proof. intros Hh. apply log_inv in Hh. split; [apply Hh|apply open_bound]. Qed.
(** Opening what is open aborts (or exits, if the log file cannot be switched): it never
    returns. *)
Theorem C52_open_twice w G g o i : log_history w G g ->
  (forall fmt w', is_Some (s_file G) -> log_file o (Some i) (Some fmt) w <> Ret (w', Go tt)) /\
  (forall s w', is_Some (s_stream G) -> log_stream o (Some i) (Some s) w <> Ret (w', Go tt)) /\
  (forall w', s_syslog G = true -> log_syslog o (Some i) w <> Ret (w', Go tt)) /\
  (can_write o G ->
   (forall fmt, is_Some (s_file G) -> exists w', log_file o (Some i) (Some fmt) w = Ret (w', Aborts)) /\
   (forall s, is_Some (s_stream G) -> exists w', log_stream o (Some i) (Some s) w = Ret (w', Aborts)) /\
   (s_syslog G = true -> exists w', log_syslog o (Some i) w = Ret (w', Aborts))).
Proof.
  intros Hh. apply log_inv in Hh.
  assert (H1 : forall fmt, is_Some (s_file G) -> exists m, log_file o (Some i) (Some fmt) w = err_internal o (Some t_logfile) m w).
  { intros fmt [[[fd name] f] Ef]. pose proof (i_file _ _ _ Hh) as I1. rewrite Ef in I1. destruct I1 as (E1 & _).
    eexists. unfold log_file. rewrite bind_get, E1. reflexivity. }
  assert (H2 : forall s, is_Some (s_stream G) -> exists m, log_stream o (Some i) (Some s) w = err_internal o (Some t_logstream) m w).
  { intros s [x Ex]. eexists. unfold log_stream. rewrite bind_get, (i_user _ _ _ Hh), Ex. reflexivity. }
  assert (H3 : s_syslog G = true -> exists m, log_syslog o (Some i) w = err_internal o (Some t_syslog) m w).
  { intros Ex. eexists. unfold log_syslog. rewrite bind_get, (i_sys _ _ _ Hh), Ex. reflexivity. }
  split; [|split; [|split]].
  - intros fmt w' Hs. destruct (H1 fmt Hs) as [m ->]. eapply internal_not_go; eauto.
  - intros s w' Hs. destruct (H2 s Hs) as [m ->]. eapply internal_not_go; eauto.
  - intros w' Hs. destruct (H3 Hs) as [m ->]. eapply internal_not_go; eauto.
  - intros Hc. split; [|split].
    + intros fmt Hs. destruct (H1 fmt Hs) as [m ->]. destruct (err_internal_ok (A := unit) o w G g (Some t_logfile) m Hh Hc) as (w' & E & _). eauto.
    + intros s Hs. destruct (H2 s Hs) as [m ->]. destruct (err_internal_ok (A := unit) o w G g (Some t_logstream) m Hh Hc) as (w' & E & _). eauto.
    + intros Hs. destruct (H3 Hs) as [m ->]. destruct (err_internal_ok (A := unit) o w G g (Some t_syslog) m Hh Hc) as (w' & E & _). eauto.
Qed.
(** Opening a closed stream or syslog returns (the log file: C53); no output, or openlog
    with the facility set. *)
Theorem C52_open w G g o i : log_history w G g -> small g ->
  (forall s, s_stream G = None -> mem o = true ->
     exists w', log_stream o (Some i) (Some s) w = Ret (w', Go tt) /\ ltr w' = ltr w /\
       log_history w' (set_stream (with_host o (set_ident G i)) (Some s)) g) /\
  (s_syslog G = false ->
     exists w', log_syslog o (Some i) w = Ret (w', Go tt) /\ ltr w' = ltr w ++ [EOpenlog i (s_fac G)] /\
       log_history w' (set_syslog G true) g).
Proof.
  intros Hh Hg. pose proof (log_inv _ _ _ Hh) as Hi. split.
  - intros s Es Hm. destruct (open_stream_ok o w G g i s Hi Hg Es Hm) as (w' & E & _ & T). exists w'. split; [done|]. split; [done|].
    replace g with (g + phantom o (COpenStream i s))%nat by (cbn [phantom]; lia). by eapply lh_call.
  - intros Es. destruct (open_syslog_ok o w G g i Hi Hg Es) as (w' & E & _ & T). exists w'. split; [done|]. split; [done|].
    replace g with (g + phantom o (COpenSyslog i))%nat by (cbn [phantom]; lia). by eapply lh_call.
Qed.
(** Closing returns; it closes what is open (stdout and stderr are left open), and is a
    no-op for what is not. *)
Theorem C52_close w G g o : log_history w G g -> small g ->
  (exists w', log_file o None None w = Ret (w', Go tt) /\ log_history w' (set_file G None) g /\
     ltr w' = ltr w ++ match s_file G with Some (fd, _, _) => [EClose fd] | None => [] end) /\
  (exists w', log_stream o None None w = Ret (w', Go tt) /\ log_history w' (set_stream G None) g /\
     ltr w' = ltr w ++ match s_stream G with Some (File p) => [EFclose (File p)] | _ => [] end) /\
  (exists w', log_syslog o None w = Ret (w', Go tt) /\ log_history w' (set_syslog G false) g /\
     ltr w' = ltr w ++ if s_syslog G then [ECloselog] else []).
Proof.
  intros Hh Hg. pose proof (log_inv _ _ _ Hh) as Hi. split; [|split].
  - destruct (close_file_ok o w G g Hi Hg) as (w' & E & _ & T). exists w'. split; [done|]. split; [|done].
    replace g with (g + phantom o CCloseFile)%nat by (cbn [phantom]; lia). by eapply lh_call.
  - destruct (close_stream_ok o w G g Hi Hg) as (w' & E & _ & T). exists w'. split; [done|]. split; [|done].
    replace g with (g + phantom o CCloseStream)%nat by (cbn [phantom]; lia). by eapply lh_call.
  - destruct (close_syslog_ok o w G g Hi Hg) as (w' & E & _ & T). exists w'. split; [done|]. split; [|done].
    replace g with (g + phantom o CCloseSyslog)%nat by (cbn [phantom]; lia). by eapply lh_call.
Qed.
Theorem C52_close_closed w G g o : log_history w G g ->
  (s_file G = None -> log_file o None None w = Ret (w, Go tt)) /\
  (s_stream G = None -> log_stream o None None w = Ret (w, Go tt)) /\
  (s_syslog G = false -> log_syslog o None w = Ret (w, Go tt)).
Proof.
  intros Hh. apply log_inv in Hh. split; [|split]; intros E.
  - pose proof (i_file _ _ _ Hh) as I. rewrite E in I. unfold log_file. by rewrite bind_get, I.
  - unfold log_stream. by rewrite bind_get, (i_user _ _ _ Hh), E.
  - unfold log_syslog. by rewrite bind_get, (i_sys _ _ _ Hh), E.
Qed.
(** A NULL ident or name closes. *)
Theorem C52_null_closes o w i f s : 
  log_file o None f w = log_file o None None w /\ log_file o i None w = log_file o None None w /\
  log_stream o None s w = log_stream o None None w /\ log_stream o i None w = log_stream o None None w.
Proof. destruct i; auto. Qed.
(** log_close closes everything: nothing is delivered afterwards, and the buffers of the
    name are freed, except two for each file opened with an empty name. *)
Theorem C52_close_all w G g o : log_history w G g -> small g ->
  exists w' G', log_close o w = Ret (w', Go tt) /\ log_history w' G' g /\ open_sinks G' = 0 /\ llive w' = (2 * g)%nat /\
    ltr w' = ltr w ++ match s_file G with Some (fd, _, _) => [EClose fd] | None => [] end ++
      match s_stream G with Some (File p) => [EFclose (File p)] | _ => [] end ++ if s_syslog G then [ECloselog] else [].
Proof.
  intros Hh Hg. pose proof (log_inv _ _ _ Hh) as Hi. destruct (close_all_ok o w G g Hi Hg) as (w' & E & Hi' & T).
  eexists w', _. split; [done|]. split; [|split; [|split; [|exact T]]].
  - replace g with (g + phantom o CCloseAll)%nat by (cbn [phantom]; lia). by eapply lh_call.
  - done.
  - rewrite (i_live _ _ _ Hi'). cbn [s_file set_syslog set_stream set_file]. lia.
Qed.
(** The buffers allocated for the log file's name, in every history. *)
Theorem C52_buffers w G g : log_history w G g -> llive w = (2 * (g + if s_file G then 1 else 0))%nat.
Proof. intros Hh. apply log_inv in Hh. apply Hh. Qed.

(** ** C53 *)
(** Opening the log file: the name expands to something; its proper ancestors are made,
    outermost first, and the file is opened.  Nothing is done for an empty name. *)
Theorem C53_open w G g o i fmt : log_history w G g -> small g -> s_file G = None -> call_ok (COpenFile i fmt) -> can_open o fmt ->
  exists w' G' ds, log_file o (Some i) (Some fmt) w = Ret (w', Go tt) /\ after o (COpenFile i fmt) G G' /\
    log_history w' G' (g + phantom o (COpenFile i fmt)) /\ ancestors (expansion o fmt) ds /\
    ltr w' = ltr w ++ (if decide (expansion o fmt = []) then [] else (EMkdir <$> ds) ++ [EOpen (expansion o fmt) (open_r o (expansion o fmt))]) /\
    (expansion o fmt <> [] -> exists fd, open_r o (expansion o fmt) = Some fd /\ s_file G' = Some (fd, expansion o fmt, fmt)).
Proof.
  intros Hh Hg Hf Hc Ho. pose proof (log_inv _ _ _ Hh) as Hi. destruct (open_file_ok o w G g i fmt Hi Hg Hf Hc Ho) as (w' & E & _ & T).
  exists w', (opened o G i fmt), (dirs (expansion o fmt)). split; [done|]. split; [apply open_file_after|].
  split; [eapply lh_call; eauto; apply open_file_after|]. split; [apply dirs_ok|]. split.
  - rewrite T. unfold open_events. destruct (decide (expansion o fmt = [])) as [E0|E0]; [by rewrite E0|]. by destruct (expansion o fmt).
  - intros Hn. destruct Ho as (_ & _ & [?|[fd Ho]]); [done|]. exists fd. split; [done|]. unfold opened.
    destruct (expansion o fmt) eqn:E0; [done|]. cbv zeta. by rewrite Ho.
Qed.
(** At a message the file is closed and reopened exactly when the expansion of its name
    changed; afterwards its name is the expansion. *)
Theorem C53_rollover w G g o routine msg fd name fmt : log_history w G g -> small g -> s_file G = Some (fd, name, fmt) -> can_write o G ->
  exists w' es fd', log_error o routine msg w = Ret (w', Go tt) /\ ltr w' = ltr w ++ es /\
    log_history w' (set_file G (Some (fd', expansion o fmt, fmt))) g /\
    (forall p r, EOpen p r ∈ es <-> expansion o fmt <> name /\ p = expansion o fmt /\ r = Some fd' /\ open_r o p = r) /\
    (forall x, EClose x ∈ es <-> expansion o fmt <> name /\ x = fd) /\
    (expansion o fmt = name -> fd' = fd) /\
    (expansion o fmt <> name -> exists ds rest, ancestors (expansion o fmt) ds /\
       es = [EClose fd] ++ (EMkdir <$> ds) ++ [EOpen (expansion o fmt) (Some fd')] ++ rest).
Proof.
  intros Hh Hg Hf Hc. pose proof (log_inv _ _ _ Hh) as Hi. destruct (message_ok open_failed o w G g routine 3 msg Hi Hc) as (w' & E & _ & T).
  eexists w', _, (switched o fd name fmt).1. split; [done|]. split; [exact T|].
  assert (Hn : (switched o fd name fmt).2 = expansion o fmt) by (unfold switched; by destruct (decide (expansion o fmt = name))).
  split.
  { replace g with (g + phantom o (CError routine msg))%nat by (cbn [phantom]; lia). eapply lh_call; eauto; try done. cbn [after]. unfold after_message.
    rewrite Hf. rewrite <- Hn. by rewrite <- surjective_pairing. }
  unfold can_write in Hc. rewrite Hf in Hc. destruct Hc as [_ Hc].
  assert (Hrest : forall e, (exists p r, e = EOpen p r) \/ (exists x, e = EClose x) -> forall s st sy fd2 txt,
     e ∉ replicate (eintr o) (EWrite fd2 txt None) ++ [EWrite fd2 txt (write_r o)] ++
         match st with Some s => to_stream s msg txt | None => [] end ++ (if sy : bool then [ESyslog s msg] else [])).
  { intros e He s st sy fd2 txt Hin. rewrite !elem_of_app in Hin. destruct Hin as [Hin|[Hin|[Hin|Hin]]].
    - apply elem_of_replicate in Hin as [-> _]. destruct He as [(? & ? & ?)|[? ?]]; done.
    - apply elem_of_list_singleton in Hin as ->. destruct He as [(? & ? & ?)|[? ?]]; done.
    - destruct st; [|by apply elem_of_nil in Hin]. unfold to_stream in Hin.
      repeat (apply elem_of_cons in Hin as [->|Hin]; [destruct He as [(? & ? & ?)|[? ?]]; done|]). by apply elem_of_nil in Hin.
    - destruct sy; [|by apply elem_of_nil in Hin]. apply elem_of_list_singleton in Hin as ->. destruct He as [(? & ? & ?)|[? ?]]; done. }
  rewrite Hf. unfold delivered. rewrite Hf. unfold to_file. rewrite <- !app_assoc. unfold switched.
  destruct (decide (expansion o fmt = name)) as [Ee|Hne]; cbn [fst].
  - cbn [app]. split; [|split; [|split; [done|done]]].
    + intros p r. split; [|intros [? _]; done]. intros Hin. exfalso. revert Hin. apply (Hrest (EOpen p r)). left; eauto.
    + intros x. split; [|intros [? _]; done]. intros Hin. exfalso. revert Hin. apply (Hrest (EClose x)). right; eauto.
  - destruct Hc as [?|[Hm [fd' Ho]]]; [done|]. rewrite Ho. cbn [default]. split; [|split; [|split]].
    + intros p r. rewrite !elem_of_app, !elem_of_list_singleton, <- !elem_of_app. unfold id. split.
      * intros [[Hin|[Hin|Hin]]|Hin]; [done|apply elem_of_list_fmap in Hin as (? & ? & _); done| |].
        -- injection Hin as -> ->. auto.
        -- exfalso. revert Hin. rewrite <- (elem_of_list_singleton (EOpen p r)), <- !elem_of_app. apply (Hrest (EOpen p r)). left; eauto.
      * intros (_ & -> & -> & _). auto.
    + intros x. rewrite !elem_of_app, !elem_of_list_singleton, <- !elem_of_app. split.
      * intros [[Hin|[Hin|Hin]]|Hin]; [|apply elem_of_list_fmap in Hin as (? & ? & _); done|done|].
        -- injection Hin as ->. auto.
        -- exfalso. revert Hin. rewrite <- (elem_of_list_singleton (EClose x)), <- !elem_of_app. apply (Hrest (EClose x)). right; eauto.
      * intros (_ & ->). auto.
    + done.
    + intros _. eexists (dirs (expansion o fmt)), _. split; [apply dirs_ok|]. by rewrite <- ?app_assoc.
Qed.
(** If the file cannot be opened the message ends the program; if the name does not fit its
    buffer the buffer's contents are indeterminate. *)
Theorem C53_cannot_switch w G g o routine msg : log_history w G g -> ~ can_write o G -> cannot_write o G (log_error o routine msg w).
Proof. intros Hh Hc. apply log_inv in Hh. apply bad_cannot. by apply (message_bad o w G g). Qed.
Theorem C53_cannot_open w G g o i fmt : log_history w G g -> s_file G = None -> call_ok (COpenFile i fmt) -> ~ can_open o fmt ->
  let r := log_file o (Some i) (Some fmt) w in r = UB \/ r = Fatal \/ exists w', r = Ret (w', Exits 1).
Proof. intros Hh. apply log_inv in Hh. by apply (open_file_bad o w G g i fmt). Qed.
Theorem C53_too_long w G g o routine msg fd name fmt : log_history w G g -> s_file G = Some (fd, name, fmt) ->
  Z.of_nat (length fmt) * 3 + 1024 <= Z.of_nat (length (expansion o fmt)) -> log_error o routine msg w = UB.
Proof.
  intros Hh Hf Hl. pose proof (C53_cannot_switch w G g o routine msg Hh) as H. unfold cannot_write, can_write in H. rewrite Hf in H.
  rewrite decide_True in H by done. apply H. intros [H1 _]. lia.
Qed.
(** The directories made are determined by the path. *)
Theorem C53_ancestors_unique p ds ds' : ancestors p ds -> ancestors p ds' -> ds = ds'.
Proof.
  intros [H1 H2] [H1' H2'].
  assert (Hs : forall l l' : list (list N), (forall d, d ∈ l -> d ∈ l') ->
     (forall i j d e, (i < j)%nat -> l !! i = Some d -> l !! j = Some e -> (length d < length e)%nat) ->
     (forall i j d e, (i < j)%nat -> l' !! i = Some d -> l' !! j = Some e -> (length d < length e)%nat) ->
     (forall d, d ∈ l' -> d ∈ l) -> l = l').
  { clear. induction l as [|d l IH]; intros l' Ha Hi Hi' Hb.
    - destruct l' as [|x l']; [done|]. exfalso. assert (Hx : x ∈ @nil (list N)) by (apply Hb; by left). by apply elem_of_nil in Hx.
    - destruct l' as [|x l']. { assert (Hx : d ∈ @nil (list N)) by (apply Ha; by left). by apply elem_of_nil in Hx. }
      assert (d = x) as <-.
      { assert (H1 : d ∈ x :: l') by (apply Ha; by left). assert (H2 : x ∈ d :: l) by (apply Hb; by left).
        apply elem_of_cons in H1 as [->|H1]; [done|]. apply elem_of_cons in H2 as [->|H2]; [done|].
        apply elem_of_list_lookup in H1 as [i H1]. apply elem_of_list_lookup in H2 as [j H2].
        pose proof (Hi' 0%nat (S i) x d ltac:(lia) eq_refl H1). pose proof (Hi 0%nat (S j) d x ltac:(lia) eq_refl H2). lia. }
      f_equal. apply IH.
      + intros e He. assert (H1 : e ∈ d :: l') by (apply Ha; by right). apply elem_of_cons in H1 as [->|H1]; [|done].
        apply elem_of_list_lookup in He as [i He]. pose proof (Hi 0%nat (S i) d d ltac:(lia) eq_refl He). lia.
      + intros i j a b Hij Hx Hy. by apply (Hi (S i) (S j)); [lia|..].
      + intros i j a b Hij Hx Hy. by apply (Hi' (S i) (S j)); [lia|..].
      + intros e He. assert (H1 : e ∈ d :: l) by (apply Hb; by right). apply elem_of_cons in H1 as [->|H1]; [|done].
        apply elem_of_list_lookup in He as [i He]. pose proof (Hi' 0%nat (S i) d d ltac:(lia) eq_refl He). lia. }
  apply Hs; try done; intros d Hd; [by apply H1', H1|by apply H1, H1'].
Qed.

(** ** C54 *)
Lemma find_name_None l n : find_name l n = None <-> n ∉ l.*1.
Proof.
  induction l as [|[m v] l IH]; [split; [intros _ H; by apply elem_of_nil in H|done]|]. rewrite fmap_cons. cbn [find_name fst].
  destruct (decide (m = n)) as [->|Hne].
  - split; [done|]. intros H. exfalso. apply H. by left.
  - rewrite IH. split; intros H Hin; [apply elem_of_cons in Hin as [?|?]; [congruence|done]|]. apply H. by right.
Qed.
Lemma find_val_ok n v : find_name facilities n = Some v -> find_val facilities v = Some n.
Proof.
  assert (H : forall l, NoDup l.*2 -> find_name l n = Some v -> find_val l v = Some n).
  { induction l as [|[m x] l IH]; [done|]. rewrite fmap_cons. intros [Hni Hnd]%NoDup_cons. cbn [find_name find_val snd] in *.
    destruct (decide (m = n)) as [->|Hne]; [intros [= ->]; by rewrite decide_True|].
    intros E. rewrite decide_False; [auto|]. intros ->. apply Hni. apply find_name_in in E. apply elem_of_list_fmap. by exists (n, v). }
  apply H. apply (bool_decide_eq_true_1 _). vm_compute. reflexivity.
Qed.
(** The names known. *)
Theorem C54_names : facilities.*1 = facility_names.
Proof. vm_compute. reflexivity. Qed.
(** Every one of them is accepted and comes back. *)
Theorem C54_round_trip o w n : n ∈ facility_names ->
  exists w', log_set_facility o n w = Ret (w', Go tt) /\ log_get_facility w' = Ret (w', Go (Some n)) /\ ltr w' = ltr w.
Proof.
  rewrite <- C54_names. intros Hin. destruct (find_name facilities n) as [v|] eqn:E.
  - unfold log_set_facility. rewrite E. eexists. split; [reflexivity|]. split; [|done]. unfold log_get_facility. rewrite bind_get.
    cbn [lfac]. by rewrite (find_val_ok n v E).
  - exfalso. by apply find_name_None in E.
Qed.
(** In every history the facility is a name last set, at first "user". *)
Theorem C54_get w G g : log_history w G g -> exists n, n ∈ facility_names /\ log_get_facility w = Ret (w, Go (Some n)) /\ (n, s_fac G) ∈ facilities.
Proof.
  intros Hh. assert (Hf : exists n, find_name facilities n = Some (s_fac G)).
  { induction Hh as [|w G g o c w' G' _ [n IH] _ _ _ Ha]; [by exists (bytes "user")|].
    destruct c; cbn [after] in Ha; try (subst G'; exists n; done).
    - subst G'. exists n. by destruct (expansion o format).
    - subst G'. exists n. unfold after_message. by destruct (s_file G) as [[[? ?] ?]|].
    - subst G'. exists n. unfold after_message. by destruct (s_file G) as [[[? ?] ?]|].
    - subst G'. exists n. unfold after_message. by destruct (s_file G) as [[[? ?] ?]|].
    - destruct Ha as (v & Hin & ->). exists name. destruct (find_name facilities name) as [v'|] eqn:E.
      + f_equal. apply find_name_in in E. by apply (keys_unique facilities name).
      + exfalso. apply find_name_None in E. apply E. apply elem_of_list_fmap. by exists (name, v).
    - destruct Ha as (b & _ & ->). exists n. done. }
  destruct Hf as [n Hn]. exists n. apply log_inv in Hh. split; [|split].
  - rewrite <- C54_names. apply elem_of_list_fmap. exists (n, s_fac G). split; [done|]. by apply find_name_in.
  - unfold log_get_facility. rewrite bind_get, (i_fac _ _ _ Hh). by rewrite (find_val_ok n _ Hn).
  - by apply find_name_in.
Qed.
(** Any other name ends the program, with exit status 1 if the log can be written. *)
Theorem C54_unknown w G g o n : log_history w G g -> n ∉ facility_names ->
  (forall w', log_set_facility o n w <> Ret (w', Go tt)) /\
  (can_write o G -> exists w', log_set_facility o n w = Ret (w', Exits 1) /\
     EPrint Stderr (n ++ bytes " is not a valid facility name") ∈ ltr w').
Proof.
  rewrite <- C54_names. intros Hh Hn. apply find_name_None in Hn. unfold log_set_facility. rewrite Hn. split.
  - intros w'. eapply fatal_not_go. by apply log_inv.
  - intros Hc. destruct (C48_fatal (A := unit) w G g o (Some t_setfac) (n ++ t_invalid) Hh Hc) as (w' & ds & E & _ & T).
    exists w'. split; [done|]. rewrite T. apply elem_of_app. right. apply elem_of_app. right. apply elem_of_app. right. by left.
Qed.
(** "kern" is not a name: LOG_KERN is 0, and the table has it under #if LOG_KERN. *)
Theorem C54_kern : bytes "kern" ∉ facility_names.
Proof. apply (bool_decide_eq_true_1 _). vm_compute. reflexivity. Qed.

Print Assumptions C47_set_program_name.
Print Assumptions C47_program_name.
Print Assumptions C48_fatal.
Print Assumptions C48_fatal_errno.
Print Assumptions C48_fatal_errno_null.
Print Assumptions C48_internal.
Print Assumptions C48_warning.
Print Assumptions C48_never_return.
Print Assumptions C48_cannot_write.
Print Assumptions C52_step.
Print Assumptions C52_message.
Print Assumptions C52_info.
Print Assumptions C52_none_open.
Print Assumptions C52_count.
Print Assumptions C52_open_twice.
Print Assumptions C52_open.
Print Assumptions C52_close.
Print Assumptions C52_close_closed.
Print Assumptions C52_close_all.
Print Assumptions C52_buffers.
Print Assumptions C53_open.
Print Assumptions C53_rollover.
Print Assumptions C53_cannot_switch.
Print Assumptions C53_cannot_open.
Print Assumptions C53_too_long.
Print Assumptions C53_ancestors_unique.
Print Assumptions C54_names.
Print Assumptions C54_round_trip.
Print Assumptions C54_get.
Print Assumptions C54_unknown.
Print Assumptions C54_kern.

(** ** Examples: a log file whose name changes, a stream, a message, an error *)
Definition os_at (t : Z) : os :=
  OS t t (fun t fmt => fmt ++ (if t <? 100 then bytes "1" else bytes "2")) (fun _ => bytes "Thu Jan  1 00:00:00 1970" ++ nl)
     (bytes "box.example.org") (bytes "7") (fun p => if decide (p = bytes "/var/log/a1") then Some 3%N else Some 4%N) 1 (Some 10%nat)
     (bytes "No such file") true.
Definition run_st (o : os) (c : lcall) (w : lstate) : lstate :=
  match run o c w with Ret (w', Go _) => w' | _ => w end.
Definition goes (o : os) (c : lcall) (w : lstate) : bool :=
  match run o c w with Ret (_, Go _) => true | _ => false end.
Lemma goes_ok o c w : goes o c w = true -> run o c w = Ret (run_st o c w, Go tt).
Proof. unfold goes, run_st. destruct (run o c w) as [[w' [[]| |]]| | | |]; done. Qed.
Definition fmt0 : list N := bytes "/var/log/a".
Definition ex1 := run_st (os_at 50) (CProgram (Some (bytes "/bin/prog"))) lstart.
Definition ex2 := run_st (os_at 50) (COpenFile (bytes "me") fmt0) ex1.
Definition ex3 := run_st (os_at 50) (COpenStream (bytes "me") Stdout) ex2.
Definition ex4 := run_st (os_at 60) (CError (Some (bytes "f")) (bytes "hello")) ex3.
Definition exG : sinks :=
  Sk (Some (3%N, bytes "/var/log/a1", fmt0)) (Some Stdout) false (Some (bytes "me")) (Some (bytes "box")) false 8 (Some (bytes "prog")).
Example C52_example_history : log_history ex4 exG 0.
Proof.
  change 0%nat with (0 + phantom (os_at 60) (CError (Some (bytes "f")) (bytes "hello")))%nat.
  eapply (lh_call ex3 exG); [|done|done|by apply goes_ok; vm_compute|by vm_compute].
  change 0%nat with (0 + phantom (os_at 50) (COpenStream (bytes "me") Stdout))%nat.
  eapply (lh_call ex2 (set_stream exG None)); [|done|done|by apply goes_ok; vm_compute|by vm_compute].
  change 0%nat with (0 + phantom (os_at 50) (COpenFile (bytes "me") fmt0))%nat.
  eapply (lh_call ex1 (Sk None None false None None false 8 (Some (bytes "prog")))); [|done|done|by apply goes_ok; vm_compute|by vm_compute].
  change 0%nat with (0 + phantom (os_at 50) (CProgram (Some (bytes "/bin/prog"))))%nat.
  eapply (lh_call lstart nosinks); [apply lh_start|done|done|by apply goes_ok; vm_compute|].
  exists (Some (bytes "prog")). split; [|done]. exists (bytes "/bin/"). split; [done|]. split; [by right|].
  apply (bool_decide_eq_true_1 _). vm_compute. reflexivity.
Qed.
(** the file is made with its directories; one interrupted write, then a short one *)
Example C52_example_trace : ltr ex4 =
  [EMkdir (bytes "/var"); EMkdir (bytes "/var/log"); EOpen (bytes "/var/log/a1") (Some 3%N)] ++
  let l := bytes "Thu Jan  1 00:00:00 1970 box me[7]: (f) hello" ++ nl in
  [EWrite 3 l None; EWrite 3 l (Some 10%nat); ESeekEnd Stdout; EPrint Stdout (bytes "hello"); EFlush Stdout].
Proof. vm_compute. reflexivity. Qed.
(** at time 200 the name has changed; the file can still be written *)
Example C53_example_can_write : can_write (os_at 200) exG /\ expansion (os_at 200) fmt0 <> bytes "/var/log/a1".
Proof. split; [split; [by vm_compute|right; split; [done|by exists 4%N]]|by vm_compute]. Qed.
Example C48_example_fatal :
  exists w', err_fatal (A := unit) (os_at 200) (Some (bytes "g")) (bytes "oops") ex4 = Ret (w', Exits 1) /\
    drop (length (ltr ex4)) (ltr w') =
      let l := bytes "Thu Jan  1 00:00:00 1970 box me[7]: (g) oops" ++ nl in
      [EFlush Stdout; EPrint Stderr (bytes "prog (g): "); EPrint Stderr (bytes "oops"); EPrint Stderr nl;
       EClose 3; EMkdir (bytes "/var"); EMkdir (bytes "/var/log"); EOpen (bytes "/var/log/a2") (Some 4%N);
       EWrite 4 l None; EWrite 4 l (Some 10%nat); ESeekEnd Stdout; EPrint Stdout (bytes "oops"); EFlush Stdout; EFlush Stderr; EFlush Stdout].
Proof. eexists. vm_compute. auto. Qed.
(** a state in which the file cannot be switched *)
Example C53_example_cannot :
  ~ can_write (OS 200 200 (strf (os_at 200)) (c_time (os_at 200)) [] [] (fun _ => None) 0 None (bytes "No space") true) exG.
Proof. intros [_ [H|[_ [? H]]]]; [by vm_compute in H|done]. Qed.
