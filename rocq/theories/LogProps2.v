(** C52-C54: the texts of the log's own errors. *)
From Verif Require Import Base CStr ListLemmas MemProofs LogModel LogSpec LogProofs LogHist LogProps.
From Coq Require Import String Ascii.
Notation length := List.length.
Local Open Scope Z_scope.

Definition quote : list N := [34%N].

(** What is printed and logged, in order, when [f] cannot be opened for the log: the sinks [G]
    are those left without the file. *)
Definition open_failure (o : os) (G : sinks) (f : list N) : list event :=
  let routine := bytes "_log_check_filename" in
  let msg := bytes "Cannot open " ++ quote ++ f ++ quote ++ bytes " for append" in
  [EFlush Stdout] ++ prefix_events (s_prog G) (Some routine) ++ [EPrint Stderr msg] ++ delivered o [] G (Some routine) 3 msg ++
  [EPrint Stderr (bytes " " ++ routine ++ bytes ": " ++ strerr o ++ nl)] ++
  delivered o [] G (Some routine) 3 (routine ++ bytes ": " ++ strerr o) ++ [EFlush Stderr; EFlush Stdout].

(** the log without a file, in any state of the buffers *)
Lemma closed_ok o w G r m : s_file G = None -> lfd w = None -> luser w = s_stream G -> lsys w = (if s_syslog G then 1 else 0) ->
  lident w = s_ident G -> is_Some (s_ident G) -> lhost w = s_host G -> lbrief w = s_brief G -> open_sinks G <= lopen w ->
  log_closed o r m w = Ret (tr_app w (delivered o [] G r 3 m), Go tt).
Proof.
  intros Hf F1 F2 F3 F4 [i Hi] F5 F6 F7. unfold log_closed, log_base_va, delivered. rewrite bind_get, Hf.
  destruct (Z.eqb_spec (lopen w) 0) as [Ez|Hz].
  { unfold open_sinks in F7. rewrite Hf, Ez in F7. destruct (s_stream G), (s_syslog G); try lia. cbn [app]. by rewrite tr_app_nil. }
  assert (Hsys : forall w1, (if lsys w =? 0 then ret tt else emit (ESyslog 3 m)) w1 = Ret (tr_app w1 (if s_syslog G then [ESyslog 3 m] else []), Go tt)).
  { intros w1. rewrite F3. destruct (s_syslog G); [done|]. by rewrite tr_app_nil. }
  rewrite F1, F2. destruct (s_stream G) as [st|] eqn:Es.
  - assert (Ei : (if lbrief w then Some [] else lident w) = Some (if lbrief w then [] else default [] (s_ident G))).
    { destruct (lbrief w); [done|]. by rewrite F4, Hi. }
    rewrite Ei. rewrite (line_eq w G o r m F6 F5).
    rewrite !bind_bind, bind_ret, !bind_bind, bind_emit, !bind_bind, bind_emit, (bind_go _ _ _ _ _ (emit_ok _ _)), Hsys, !tr_app_app.
    unfold to_stream, cut. by destruct st.
  - rewrite bind_ret, Hsys. done.
Qed.
Lemma failed_ok o w G f : s_file G = None -> lfd w = None -> luser w = s_stream G -> lsys w = (if s_syslog G then 1 else 0) ->
  lident w = s_ident G -> is_Some (s_ident G) -> lhost w = s_host G -> lbrief w = s_brief G -> lprog w = s_prog G -> open_sinks G <= lopen w ->
  open_failed o (Some t_check) (t_cannot ++ f ++ t_append) w = Ret (tr_app w (open_failure o G f), Exits 1).
Proof.
  intros Hf F1 F2 F3 F4 Hi F5 F6 F7 F8. unfold open_failed, err_fatal_errno_with. rewrite bind_get, bind_emit, bind_emits, bind_emit.
  match goal with |- bind (log_closed o ?r ?m) _ ?w1 = _ => rewrite (bind_go _ _ _ _ _ (closed_ok o w1 G r m Hf F1 F2 F3 F4 Hi F5 F6 F8)), bind_emit end.
  match goal with |- bind (log_closed o ?r ?m) _ ?w1 = _ => rewrite (bind_go _ _ _ _ _ (closed_ok o w1 G r m Hf F1 F2 F3 F4 Hi F5 F6 F8)), !bind_emit end.
  rewrite F7, prefix_eq, !tr_app_app. unfold open_failure.
  assert (E1 : bytes "_log_check_filename" = t_check) by reflexivity. cbv zeta. rewrite E1.
  assert (E2 : bytes "Cannot open " ++ quote ++ f ++ quote ++ bytes " for append" = t_cannot ++ f ++ t_append) by reflexivity. rewrite E2.
  rewrite <- ?app_assoc. reflexivity.
Qed.

(** Opening what is open: the report that err_internal makes (C48), with these texts. *)
Theorem C52_open_twice_text w G g o i fmt s fd name fmt0 : log_history w G g ->
  (s_file G = Some (fd, name, fmt0) ->
     log_file o (Some i) (Some fmt) w = err_internal o (Some (bytes "log_file"))
       (bytes "Log file " ++ quote ++ name ++ quote ++ bytes " open when trying to open " ++ quote ++ fmt ++ quote) w) /\
  (is_Some (s_stream G) ->
     log_stream o (Some i) (Some s) w = err_internal o (Some (bytes "log_stream")) (bytes "User stream already open") w) /\
  (s_syslog G = true ->
     log_syslog o (Some i) w = err_internal o (Some (bytes "log_syslog")) (bytes "Syslog facility already open") w).
Proof.
  intros Hh. apply log_inv in Hh. split; [|split].
  - intros Ef. pose proof (i_file _ _ _ Hh) as I1. rewrite Ef in I1. destruct I1 as (E1 & E2 & _).
    unfold log_file. rewrite bind_get, E1, E2. cbn [default from_option id]. rewrite <- ?app_assoc. reflexivity.
  - intros [x Ex]. unfold log_stream. rewrite bind_get, (i_user _ _ _ Hh), Ex. reflexivity.
  - intros Ex. unfold log_syslog. rewrite bind_get, (i_sys _ _ _ Hh), Ex. reflexivity.
Qed.
Print Assumptions C52_open_twice_text.

Lemma switch_fails w G g o routine prio msg fd name fmt : linv w G g -> s_file G = Some (fd, name, fmt) ->
  expansion o fmt <> name -> Z.of_nat (length (expansion o fmt)) < Z.of_nat (length fmt) * 3 + 1024 ->
  mem o = true -> open_r o (expansion o fmt) = None ->
  exists w' ds, log_base_va open_failed o routine prio msg w = Ret (w', Exits 1) /\ ds = dirs (expansion o fmt) /\
    ltr w' = ltr w ++ [EClose fd] ++ (EMkdir <$> ds) ++ [EOpen (expansion o fmt) None] ++
             open_failure o (set_file G None) (expansion o fmt).
Proof.
  intros Hh Hf Hne Hlen Hm Ho. pose proof Hh as [I1 I2 I3 I4 I5 I6 I7 I8 I9 I10 I11]. rewrite Hf in I1.
  destruct I1 as (E1 & E2 & E3 & E4 & E5). destruct I5 as [ident Hid]; [left; rewrite Hf; eauto|].
  assert (Hop : 0 < lopen w). { rewrite I10. unfold open_sinks. rewrite Hf. destruct (s_stream G), (s_syslog G); lia. }
  match goal with |- exists w' ds, _ /\ _ /\ _ = ltr w ++ ?x =>
    enough (Hc : exists w', log_check_filename open_failed o w = Ret (w', Exits 1) /\
      ltr w' = ltr w ++ [EClose fd] ++ (EMkdir <$> dirs (expansion o fmt)) ++ [EOpen (expansion o fmt) None] ++
               open_failure o (set_file G None) (expansion o fmt)) end.
  { destruct Hc as (w' & E & T). exists w', (dirs (expansion o fmt)). split; [|split; [done|exact T]].
    unfold log_base_va. rewrite bind_get, (proj2 (Z.eqb_neq (lopen w) 0)) by lia. rewrite E1.
    assert (Ei : (if lbrief w then Some [] else lident w) = Some (if lbrief w then [] else default [] (s_ident G))).
    { destruct (lbrief w); [done|]. by rewrite I4, Hid. }
    rewrite Ei, !bind_bind. by rewrite (bind_exits _ _ _ _ _ E). }
  unfold log_check_filename. rewrite bind_get, E2, E3, E4, E5. rewrite (proj2 (Z.eqb_neq _ 0)) by lia. cbn [negb orb]. fold (expansion o fmt).
  rewrite (proj2 (Z.leb_gt _ _)) by lia. rewrite decide_False by done. rewrite E1. unfold log_mkpath, allocs. rewrite Hm, Ho.
  erewrite bind_go by reflexivity. erewrite bind_go by reflexivity. rewrite bind_bind, bind_ret, bind_emits, bind_emit.
  erewrite bind_go by reflexivity. rewrite (failed_ok o _ (set_file G None)); try done.
  - eexists. split; [reflexivity|]. cbn [ltr tr_app]. rewrite mkpath_dirs. unfold dirs. rewrite <- !app_assoc. reflexivity.
  - cbn [lopen tr_app]. rewrite I10. unfold open_sinks. cbn [s_file s_stream s_syslog set_file]. rewrite Hf. destruct (s_stream G), (s_syslog G); lia.
Qed.
(** A message for which the file must be switched to one that cannot be opened: the old file is
    closed, the directories made, and the failure is reported on stderr and to the sinks left;
    the message itself goes nowhere. *)
Theorem C53_cannot_switch_text w G g o routine msg fd name fmt : log_history w G g -> s_file G = Some (fd, name, fmt) ->
  expansion o fmt <> name -> Z.of_nat (length (expansion o fmt)) < Z.of_nat (length fmt) * 3 + 1024 ->
  mem o = true -> open_r o (expansion o fmt) = None ->
  exists w' ds, log_error o routine msg w = Ret (w', Exits 1) /\ ancestors (expansion o fmt) ds /\
    ltr w' = ltr w ++ [EClose fd] ++ (EMkdir <$> ds) ++ [EOpen (expansion o fmt) None] ++
             open_failure o (set_file G None) (expansion o fmt).
Proof.
  intros Hh Hf Hne Hlen Hm Ho. destruct (switch_fails w G g o routine 3 msg fd name fmt (log_inv _ _ _ Hh) Hf Hne Hlen Hm Ho) as (w' & ds & E & -> & T).
  exists w', (dirs (expansion o fmt)). split; [exact E|]. split; [apply dirs_ok|exact T].
Qed.
Print Assumptions C53_cannot_switch_text.

Lemma open_fails w G g o i fmt : linv w G g -> s_file G = None -> call_ok (COpenFile i fmt) ->
  expansion o fmt <> [] -> Z.of_nat (length (expansion o fmt)) < Z.of_nat (length fmt) * 3 + 1024 ->
  mem o = true -> open_r o (expansion o fmt) = None ->
  exists w' ds, log_file o (Some i) (Some fmt) w = Ret (w', Exits 1) /\ ds = dirs (expansion o fmt) /\
    ltr w' = ltr w ++ (EMkdir <$> ds) ++ [EOpen (expansion o fmt) None] ++ open_failure o (set_ident G i) (expansion o fmt).
Proof.
  intros Hh Hf Hl Hne Hlen Hm Ho. cbn [call_ok] in Hl.
  pose proof Hh as [I1 I2 I3 I4 I5 I6 I7 I8 I9 I10 I11]. rewrite Hf in I1.
  rewrite (log_file_head o w G g i fmt Hh Hf Hm Hl).
  unfold log_check_filename. rewrite bind_bind, bind_get. unfold named_state at 1 2 3 4 5. cbn [lname lorig ltmp llen negb orb lfd].
  rewrite (proj2 (Z.eqb_neq _ 0)) by lia. fold (expansion o fmt). rewrite (proj2 (Z.leb_gt _ _)) by lia. rewrite decide_False by done.
  rewrite bind_bind. erewrite bind_go by reflexivity. unfold named_state. cbn [lfd]. rewrite I1. rewrite bind_bind, bind_ret.
  unfold log_mkpath, allocs. rewrite Hm, Ho. rewrite !bind_bind, bind_ret, bind_emits, !bind_bind, bind_emit, !bind_bind. erewrite bind_go by reflexivity.
  erewrite bind_exits.
  2:{ apply (failed_ok o _ (set_ident G i)); try done. cbn [lopen tr_app]. rewrite I10. unfold open_sinks. cbn [s_file s_stream s_syslog set_ident]. lia. }
  exists (tr_app (tr_app (LS None (luser w) (lsys w) (lbrief w) (lopen w) (lfac w) (Some i) (Some fmt) (Some (expansion o fmt)) true
      (Z.of_nat (length fmt) * 3 + 1024) (lhost w) (llive w + 2) (lprog w) (ltr w))
      ((EMkdir <$> dirs (expansion o fmt)) ++ [EOpen (expansion o fmt) None])) (open_failure o (set_ident G i) (expansion o fmt))), (dirs (expansion o fmt)).
  split; [|split; [done|cbn [ltr tr_app]; rewrite <- !app_assoc; reflexivity]].
  do 3 f_equal. unfold tr_app. cbn. rewrite mkpath_dirs. unfold dirs. rewrite <- !app_assoc. reflexivity.
Qed.
(** log_file for a file that cannot be opened. *)
Theorem C53_cannot_open_text w G g o i fmt : log_history w G g -> s_file G = None -> call_ok (COpenFile i fmt) ->
  expansion o fmt <> [] -> Z.of_nat (length (expansion o fmt)) < Z.of_nat (length fmt) * 3 + 1024 ->
  mem o = true -> open_r o (expansion o fmt) = None ->
  exists w' ds, log_file o (Some i) (Some fmt) w = Ret (w', Exits 1) /\ ancestors (expansion o fmt) ds /\
    ltr w' = ltr w ++ (EMkdir <$> ds) ++ [EOpen (expansion o fmt) None] ++ open_failure o (set_ident G i) (expansion o fmt).
Proof.
  intros Hh Hf Hl Hne Hlen Hm Ho. destruct (open_fails w G g o i fmt (log_inv _ _ _ Hh) Hf Hl Hne Hlen Hm Ho) as (w' & ds & E & -> & T).
  exists w', (dirs (expansion o fmt)). split; [exact E|]. split; [apply dirs_ok|exact T].
Qed.
Print Assumptions C53_cannot_open_text.

(** log_set_facility reports a name it does not know as err_fatal does (C48). *)
Theorem C54_unknown_text w o n : n ∉ facility_names ->
  log_set_facility o n w = err_fatal o (Some (bytes "log_set_facility")) (n ++ bytes " is not a valid facility name") w.
Proof. rewrite <- C54_names. intros Hn. apply find_name_None in Hn. unfold log_set_facility. rewrite Hn. reflexivity. Qed.
Print Assumptions C54_unknown_text.

(** ** Examples *)
Definition os_full (t : Z) : os :=
  OS t t (strf (os_at t)) (c_time (os_at t)) (bytes "box.example.org") (bytes "7") (fun _ => None) 0 None (bytes "No space left") true.
(** at time 200 the name of the open file changes and the new one cannot be opened; stdout is the
    other sink *)
Example C53_example_cannot_switch :
  s_file exG = Some (3%N, bytes "/var/log/a1", fmt0) /\ expansion (os_full 200) fmt0 = bytes "/var/log/a2" /\
  Z.of_nat (length (expansion (os_full 200) fmt0)) < Z.of_nat (length fmt0) * 3 + 1024 /\
  exists w', log_error (os_full 200) None (bytes "lost") ex4 = Ret (w', Exits 1) /\
    drop (length (ltr ex4)) (ltr w') =
      [EClose 3; EMkdir (bytes "/var"); EMkdir (bytes "/var/log"); EOpen (bytes "/var/log/a2") None; EFlush Stdout;
       EPrint Stderr (bytes "prog (_log_check_filename): ");
       EPrint Stderr (bytes "Cannot open " ++ quote ++ bytes "/var/log/a2" ++ quote ++ bytes " for append");
       ESeekEnd Stdout; EPrint Stdout (bytes "Cannot open " ++ quote ++ bytes "/var/log/a2" ++ quote ++ bytes " for append"); EFlush Stdout;
       EPrint Stderr (bytes " _log_check_filename: No space left" ++ nl);
       ESeekEnd Stdout; EPrint Stdout (bytes "_log_check_filename: No space left"); EFlush Stdout;
       EFlush Stderr; EFlush Stdout].
Proof. split; [|split; [|split]]; [vm_compute; reflexivity..|]. eexists. vm_compute. split; reflexivity. Qed.
(** log_file at the start, with a name that cannot be opened; and log_file on an open file *)
Example C53_example_cannot_open :
  exists w', log_file (os_full 50) (Some (bytes "me")) (Some fmt0) lstart = Ret (w', Exits 1) /\
    ltr w' = [EMkdir (bytes "/var"); EMkdir (bytes "/var/log"); EOpen (bytes "/var/log/a1") None; EFlush Stdout;
       EPrint Stderr (bytes "_log_check_filename: ");
       EPrint Stderr (bytes "Cannot open " ++ quote ++ bytes "/var/log/a1" ++ quote ++ bytes " for append");
       EPrint Stderr (bytes " _log_check_filename: No space left" ++ nl); EFlush Stderr; EFlush Stdout].
Proof. eexists. vm_compute. split; reflexivity. Qed.
Example C52_example_open_twice :
  exists w', log_file (os_at 60) (Some (bytes "me")) (Some (bytes "b")) ex4 = Ret (w', Aborts) /\
    drop (length (ltr ex4)) (ltr w') !! 2%nat =
      Some (EPrint Stderr (bytes "Log file " ++ quote ++ bytes "/var/log/a1" ++ quote ++ bytes " open when trying to open " ++ quote ++ bytes "b" ++ quote)).
Proof. eexists. vm_compute. split; reflexivity. Qed.
