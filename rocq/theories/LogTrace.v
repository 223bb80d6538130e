(** C52, whole programs: any sequence of calls of log.c and error.c. *)
From Verif Require Import Base CStr ListLemmas MemProofs LogModel LogSpec LogProofs LogHist LogProps LogProps2.
From Verif Require Trace.
From Coq Require Import String.
Notation length := List.length.
Local Open Scope Z_scope.

(** The calls.  Each comes with the answers of the system while it runs. *)
Inductive lop :=
| LCall (c : lcall)                                     (* the calls that return nothing *)
| LGetFacility | LProgramName
| LFatal (routine : option (list N)) (msg : list N)
| LFatalErrno (routine : option (list N)) (msg : list N)
| LInternal (routine : option (list N)) (msg : list N).
(** what a call did and how it ended *)
Inductive lres := RReturns (s : option (list N)) | RExits (n : Z) | RAborts.
Definition lout : Type := list event * lres.

(** ** the model; [ended]: the program has exited or aborted *)
Definition lstepped {A} (val : A -> option (list N)) (w : lstate) (r : res (lstate * ctl A)) : res (lstate * bool * lout) :=
  '(w', c) ← r;
  let es := drop (length (ltr w)) (ltr w') in
  Ret match c with
      | Go a => (w', false, (es, RReturns (val a)))
      | Exits n => (w', true, (es, RExits n))
      | Aborts => (w', true, (es, RAborts))
      end.
Definition lstep (st : lstate * bool) (c : os * lop) : res (lstate * bool * lout) :=
  let '(w, ended) := st in
  let '(o, c) := c in
  match c with
  | LCall c => lstepped (fun _ : unit => None) w (run o c w)
  | LGetFacility => lstepped (fun n => n) w (log_get_facility w)
  | LProgramName => lstepped (fun n => n) w (err_program_name w)
  | LFatal r m => lstepped (fun _ : unit => None) w (err_fatal o r m w)
  | LFatalErrno r m => lstepped (fun _ : unit => None) w (err_fatal_errno o r m w)
  | LInternal r m => lstepped (fun _ : unit => None) w (err_internal o r m w)
  end.

(** ** the specification: the sinks, the number of files opened under an empty name, everything done so far *)
Record lsp := LSp { l_sinks : sinks; l_empty : nat; l_trace : list event; l_ended : bool }.
Definition l_start : lsp := LSp nosinks 0 [] false.
(** an action on the sinks: what it does, and the sinks after it or the end of the program *)
Inductive lend := Running (G : sinks) | Ended (r : lres).
Definition action : Type := res (list event * lend).
Definition andthen (a : action) (f : sinks -> action) : action :=
  '(es, e) ← a;
  match e with
  | Running G => '(es', e') ← f G; Ret (es ++ es', e')
  | Ended r => Ret (es, Ended r)
  end.
(** the directories above a path, outermost first *)
Definition parents (p : list N) : list (list N) :=
  omap (fun i => if decide (i <> 0%nat /\ p !! i = Some 47%N) then Some (take i p) else None) (seq 0 (length p)).
(** the name of a log file fits its buffer *)
Definition fits (o : os) (fmt : list N) : Prop := Z.of_nat (length (expansion o fmt)) < Z.of_nat (length fmt) * 3 + 1024.
Global Instance fits_dec o fmt : Decision (fits o fmt).
Proof. unfold fits. apply _. Defined.
(** a message is delivered; the file may have to be switched first *)
Definition deliver (o : os) (G : sinks) (r : option (list N)) (prio : Z) (m : list N) : action :=
  match s_file G with
  | None => Ret (delivered o [] G r prio m, Running G)
  | Some (fd, name, fmt) =>
      let f := expansion o fmt in
      let written := Ret (delivered o (parents f) G r prio m, Running (after_message o G)) in
      if decide (fits o fmt) then
        if decide (f = name) then written else
        if mem o then
          match open_r o f with
          | Some _ => written
          | None => Ret ([EClose fd] ++ (EMkdir <$> parents f) ++ [EOpen f None] ++ open_failure o (set_file G None) f, Ended (RExits 1))
          end
        else Fatal
      else UB
  end.
Definition say (es : list event) (G : sinks) : action := Ret (es, Running G).
Definition finish (es : list event) (r : lres) : action := Ret (es, Ended r).
Definition x_fatal (o : os) (G : sinks) (r : option (list N)) (m : list N) : action :=
  andthen (say ([EFlush Stdout] ++ prefix_events (s_prog G) r ++ [EPrint Stderr m; EPrint Stderr nl]) G) (fun G =>
  andthen (deliver o G r 3 m) (fun _ => finish [EFlush Stderr; EFlush Stdout] (RExits 1))).
Definition x_fatal_errno (o : os) (G : sinks) (r : option (list N)) (m : list N) : action :=
  andthen (say ([EFlush Stdout] ++ prefix_events (s_prog G) r ++ [EPrint Stderr m]) G) (fun G =>
  andthen (deliver o G r 3 m) (fun G =>
  match r with
  | None => UB
  | Some n =>
      andthen (say [EPrint Stderr (bytes " " ++ n ++ bytes ": " ++ strerr o ++ nl)] G) (fun G =>
      andthen (deliver o G r 3 (n ++ bytes ": " ++ strerr o)) (fun _ => finish [EFlush Stderr; EFlush Stdout] (RExits 1)))
  end)).
Definition x_warning (o : os) (G : sinks) (r : option (list N)) (m : list N) : action :=
  andthen (say ([EFlush Stdout; EFlush Stderr] ++ prefix_events (s_prog G) r ++ [EPrint Stderr m; EPrint Stderr nl]) G) (fun G =>
  deliver o G r 3 m).
Definition x_internal (o : os) (G : sinks) (r : option (list N)) (m : list N) : action :=
  andthen (say [EFlush Stdout; EPrint Stderr (prefix_text (s_prog G) r ++ bytes "Internal error" ++ nl ++ bytes "     ");
                EPrint Stderr m; EPrint Stderr nl] G) (fun G =>
  andthen (deliver o G r 3 m) (fun G =>
  finish [EPrint Stderr (bytes "Aborting" ++ match s_prog G with Some p => bytes " " ++ p | None => [] end ++ bytes "..." ++ nl);
          EFlush Stderr; EFlush Stdout] RAborts)).
(** closing *)
Definition file_end (G : sinks) : list event := match s_file G with Some (fd, _, _) => [EClose fd] | None => [] end.
Definition stream_end (G : sinks) : list event := match s_stream G with Some (File p) => [EFclose (File p)] | _ => [] end.
Definition syslog_end (G : sinks) : list event := if s_syslog G then [ECloselog] else [].
Definition set_prog (G : sinks) (p : option (list N)) : sinks :=
  Sk (s_file G) (s_stream G) (s_syslog G) (s_ident G) (s_host G) (s_brief G) (s_fac G) p.
Definition set_brief (G : sinks) (b : bool) : sinks :=
  Sk (s_file G) (s_stream G) (s_syslog G) (s_ident G) (s_host G) b (s_fac G) (s_prog G).
Definition set_fac (G : sinks) (v : Z) : sinks :=
  Sk (s_file G) (s_stream G) (s_syslog G) (s_ident G) (s_host G) (s_brief G) v (s_prog G).
(** what follows the last slash *)
Fixpoint x_base (s : list N) : list N :=
  match s with [] => [] | c :: s' => if decide (47%N ∈ s) then x_base s' else s end.
(** the codes of syslog.h *)
Definition codes : list Z := [32; 80; 72; 24; 88; 48; 16; 56; 40; 8; 64; 128; 136; 144; 152; 160; 168; 176; 184].
Definition code_of (n : list N) : option Z := snd <$> (list_find (fun x => x.1 = n) (zip facility_names codes) ≫= (fun x => Some x.2)).
Definition name_of (v : Z) : option (list N) := fst <$> (list_find (fun x => x.2 = v) (zip facility_names codes) ≫= (fun x => Some x.2)).
Definition x_call (o : os) (G : sinks) (c : lcall) : action :=
  match c with
  | COpenFile i fmt =>
      match s_file G with
      | Some (_, name, _) => x_internal o G (Some (bytes "log_file"))
          (bytes "Log file " ++ quote ++ name ++ quote ++ bytes " open when trying to open " ++ quote ++ fmt ++ quote)
      | None =>
          let f := expansion o fmt in
          if mem o then
            if decide (fits o fmt) then
              if decide (f = []) then Ret ([], Running (with_host o (set_ident G i))) else
              match open_r o f with
              | Some fd => Ret ((EMkdir <$> parents f) ++ [EOpen f (Some fd)], Running (set_file (with_host o (set_ident G i)) (Some (fd, f, fmt))))
              | None => Ret ((EMkdir <$> parents f) ++ [EOpen f None] ++ open_failure o (set_ident G i) f, Ended (RExits 1))
              end
            else UB
          else Fatal
      end
  | CCloseFile => Ret (file_end G, Running (set_file G None))
  | COpenStream i s =>
      match s_stream G with
      | Some _ => x_internal o G (Some (bytes "log_stream")) (bytes "User stream already open")
      | None => if mem o then Ret ([], Running (set_stream (with_host o (set_ident G i)) (Some s))) else Fatal
      end
  | CCloseStream => Ret (stream_end G, Running (set_stream G None))
  | COpenSyslog i =>
      if s_syslog G then x_internal o G (Some (bytes "log_syslog")) (bytes "Syslog facility already open")
      else Ret ([EOpenlog i (s_fac G)], Running (set_syslog G true))
  | CCloseSyslog => Ret (syslog_end G, Running (set_syslog G false))
  | CCloseAll => Ret (file_end G ++ stream_end G ++ syslog_end G, Running (set_syslog (set_stream (set_file G None) None) false))
  | CError r m => deliver o G r 3 m
  | CInfo m => deliver o G None 6 m
  | CWarning r m => x_warning o G r m
  | COption n => Ret ([], Running (set_brief G (bool_decide (n = 2))))
  | CFacility n =>
      match code_of n with
      | Some v => Ret ([], Running (set_fac G v))
      | None => x_fatal o G (Some (bytes "log_set_facility")) (n ++ bytes " is not a valid facility name")
      end
  | CProgram p => Ret ([], Running (set_prog G (x_base <$> p)))
  end.
Definition l_acted (x : lsp) (val : option (list N)) (k : nat) (a : action) : res (lsp * lout) :=
  '(es, e) ← a;
  Ret match e with
      | Running G => (LSp G k (l_trace x ++ es) false, (es, RReturns val))
      | Ended r => (LSp nosinks 0 (l_trace x ++ es) true, (es, r))
      end.
Definition lspec (x : lsp) (c : os * lop) : res (lsp * lout) :=
  let '(o, c) := c in
  let G := l_sinks x in
  match c with
  | LCall c => l_acted x None (l_empty x + phantom o c) (x_call o G c)
  | LGetFacility => l_acted x (name_of (s_fac G)) (l_empty x) (Ret ([], Running G))
  | LProgramName => l_acted x (s_prog G) (l_empty x) (Ret ([], Running G))
  | LFatal r m => l_acted x None (l_empty x) (x_fatal o G r m)
  | LFatalErrno r m => l_acted x None (l_empty x) (x_fatal_errno o G r m)
  | LInternal r m => l_acted x None (l_empty x) (x_internal o G r m)
  end.
(** no call after the end; log_file gets a name of reasonable length, and not two billion empty ones *)
Definition llegal (x : lsp) (c : os * lop) : Prop :=
  l_ended x = false /\ match c.2 with LCall c => call_ok c | _ => True end /\ small (l_empty x).

(** ** the relation *)
Definition lR (st : lstate * bool) (x : lsp) : Prop :=
  st.2 = l_ended x /\ ltr st.1 = l_trace x /\ (l_ended x = false -> linv st.1 (l_sinks x) (l_empty x)).
Lemma l_base_ok s : x_base s = after_last_slash s.
Proof.
  apply (basename_unique s); [|apply basename_ok]. induction s as [|c s IH]; cbn [x_base].
  - exists []. split; [done|]. split; [by left|]. apply not_elem_of_nil.
  - destruct (decide (47%N ∈ c :: s)) as [H|H].
    + destruct IH as (p & E & Hp & Hn). exists (c :: p). split; [by rewrite E at 1|]. split; [|done]. right.
      destruct Hp as [->|Hp].
      * apply elem_of_cons in H as [<-|H]; [done|]. exfalso. apply Hn. rewrite E in H. done.
      * destruct p; [done|]. by rewrite last_cons_cons.
    + exists []. split; [done|]. split; [by left|done].
Qed.
Lemma parents_ok p : parents p = dirs p.
Proof.
  unfold parents, dirs. assert (H : forall n i, omap (fun i => if decide (i <> 0%nat /\ p !! i = Some 47%N) then Some (take i p) else None) (seq i n) = dirs_from p n i).
  { induction n as [|n IH]; intros i; [done|]. cbn [seq omap list_omap dirs_from]. rewrite <- IH.
    destruct (decide (i <> 0%nat /\ p !! i = Some 47%N)) as [[H1 H2]|H], (decide (p !! i = Some 47%N /\ i <> 0%nat)) as [[H3 H4]|H3]; try tauto; done. }
  apply H.
Qed.
Lemma parents_spec p : ancestors p (parents p).
Proof. rewrite parents_ok. apply dirs_ok. Qed.
(** a call of the model does what an action does *)
Definition sim (w : lstate) (g : nat) (r : res (lstate * ctl unit)) (a : action) : Prop :=
  match a with
  | Ret (es, Running G') => exists w', r = Ret (w', Go tt) /\ linv w' G' g /\ ltr w' = ltr w ++ es
  | Ret (es, Ended (RExits n)) => exists w', r = Ret (w', Exits n) /\ ltr w' = ltr w ++ es
  | Ret (es, Ended RAborts) => exists w', r = Ret (w', Aborts) /\ ltr w' = ltr w ++ es
  | Ret (_, Ended (RReturns _)) => False
  | Fatal => r = Fatal
  | UB => r = UB
  | _ => False
  end.
Lemma sim_bind w g (m : M unit) f a b : sim w g (m w) a ->
  (forall w' G', linv w' G' g -> sim w' g (f tt w') (b G')) -> sim w g (bind m f w) (andthen a b).
Proof.
  intros H1 H2. unfold sim in H1. destruct a as [[es [G|r]]| | | |]; cbn [andthen mbind res_bind]; try done.
  - destruct H1 as (w' & E & Hi & T). rewrite (bind_go _ _ _ _ _ E). specialize (H2 w' G Hi). unfold sim in H2.
    destruct (b G) as [[es' [G'|[?| |]]]| | | |]; cbn [mbind res_bind]; try done.
    + destruct H2 as (w2 & E2 & Hi2 & T2). exists w2. split; [done|]. split; [done|]. by rewrite T2, T, app_assoc.
    + destruct H2 as (w2 & E2 & T2). exists w2. split; [done|]. by rewrite T2, T, app_assoc.
    + destruct H2 as (w2 & E2 & T2). exists w2. split; [done|]. by rewrite T2, T, app_assoc.
  - destruct r as [?| |]; cbn [sim]; [done| |].
    + destruct H1 as (w' & E & T). exists w'. split; [by apply bind_exits|done].
    + destruct H1 as (w' & E & T). exists w'. split; [|done]. unfold bind. by rewrite E.
  - unfold bind. by rewrite H1.
  - unfold bind. by rewrite H1.
Qed.
Lemma sim_say w g G es : linv w G g -> sim w g (Ret (tr_app w es, Go tt)) (say es G).
Proof. intros Hi. cbn. exists (tr_app w es). split; [done|]. split; [by apply linv_tr|done]. Qed.
Lemma deliver_sim o w G g r prio m : linv w G g -> sim w g (log_base_va open_failed o r prio m w) (deliver o G r prio m).
Proof.
  intros Hi. unfold deliver.
  assert (Hw : can_write o G -> exists w', log_base_va open_failed o r prio m w = Ret (w', Go tt) /\ linv w' (after_message o G) g /\
    ltr w' = ltr w ++ delivered o (match s_file G with Some (_, _, fmt) => parents (expansion o fmt) | None => [] end) G r prio m).
  { intros Hc. destruct (message_ok open_failed o w G g r prio m Hi Hc) as (w' & E & H & T). exists w'. split; [done|]. split; [done|].
    rewrite T. destruct (s_file G) as [[[fd name] fmt]|]; [by rewrite parents_ok|done]. }
  destruct (s_file G) as [[[fd name] fmt]|] eqn:Ef.
  - unfold can_write in Hw. rewrite Ef in Hw. cbv zeta. destruct (decide (fits o fmt)) as [Hfit|Hfit].
    + destruct (decide (expansion o fmt = name)) as [E|Hne]; [apply Hw; split; [done|by left]|].
      destruct (mem o) eqn:Hm.
      * destruct (open_r o (expansion o fmt)) as [fd'|] eqn:Eo; [apply Hw; split; [done|right; split; [done|eauto]]|].
        destruct (switch_fails w G g o r prio m fd name fmt Hi Ef Hne Hfit Hm Eo) as (w' & ds & E & -> & T).
        exists w'. split; [done|]. by rewrite parents_ok.
      * assert (Hc : ~ can_write o G). { unfold can_write. rewrite Ef. intros [_ [?|[? _]]]; congruence. }
        destruct (message_bad o w G g r prio m Hi Hc) as [_ H]. rewrite Ef in H. rewrite decide_False in H by (unfold fits in Hfit; lia).
        by rewrite Hm in H.
    + assert (Hc : ~ can_write o G). { unfold can_write. rewrite Ef. intros [H _]. done. }
      destruct (message_bad o w G g r prio m Hi Hc) as [_ H]. rewrite Ef in H. rewrite decide_True in H by (unfold fits in Hfit; lia). done.
  - cbn [sim]. destruct Hw as (w' & E & H & T). { unfold can_write. by rewrite Ef. }
    exists w'. split; [done|]. split; [|done]. unfold after_message in H. by rewrite Ef in H.
Qed.
Lemma sim_said w g G es r b : sim (tr_app w es) g r (b G) -> sim w g r (andthen (say es G) b).
Proof.
  intros H. cbn [andthen say mbind res_bind]. unfold sim in H.
  destruct (b G) as [[es' [G'|[?| |]]]| | | |]; cbn [mbind res_bind]; try done.
  - destruct H as (w2 & E2 & Hi2 & T2). exists w2. split; [done|]. split; [done|]. rewrite T2. cbn. by rewrite app_assoc.
  - destruct H as (w2 & E2 & T2). exists w2. split; [done|]. rewrite T2. cbn. by rewrite app_assoc.
  - destruct H as (w2 & E2 & T2). exists w2. split; [done|]. rewrite T2. cbn. by rewrite app_assoc.
Qed.
Lemma fatal_sim o w G g r m : linv w G g -> sim w g (err_fatal o r m w) (x_fatal o G r m).
Proof.
  intros Hi. unfold err_fatal, x_fatal. rewrite bind_get, bind_emit, bind_emits, !bind_emit, !tr_app_app, (i_prog _ _ _ Hi), prefix_eq.
  apply sim_said. apply sim_bind; [apply deliver_sim; by apply linv_tr|]. intros w' G' Hi'. rewrite !bind_emit, tr_app_app. by eexists.
Qed.
Lemma fatal_errno_sim o w G g r m : linv w G g -> sim w g (err_fatal_errno o r m w) (x_fatal_errno o G r m).
Proof.
  intros Hi. unfold err_fatal_errno, err_fatal_errno_with, x_fatal_errno. rewrite bind_get, bind_emit, bind_emits, !bind_emit, !tr_app_app, (i_prog _ _ _ Hi), prefix_eq.
  apply sim_said. apply sim_bind; [apply deliver_sim; by apply linv_tr|]. intros w' G' Hi'.
  destruct r as [n|]; [|done]. rewrite bind_emit. apply (sim_said _ _ _ [EPrint Stderr ([32%N] ++ n ++ t_colon ++ strerr o ++ t_nl)]).
  apply sim_bind; [apply (deliver_sim o _ G' g (Some n) 3 (n ++ t_colon ++ strerr o)); by apply linv_tr|]. intros w2 G2 Hi2. rewrite !bind_emit, tr_app_app. by eexists.
Qed.
Lemma warning_sim o w G g r m : linv w G g -> sim w g (err_warning o r m w) (x_warning o G r m).
Proof.
  intros Hi. unfold err_warning, x_warning. rewrite bind_get, !bind_emit, bind_emits, !bind_emit, !tr_app_app, (i_prog _ _ _ Hi), prefix_eq.
  apply sim_said. apply deliver_sim. by apply linv_tr.
Qed.
Lemma internal_sim o w G g r m : linv w G g -> sim w g (err_internal o r m w) (x_internal o G r m).
Proof.
  intros Hi. unfold err_internal, x_internal. rewrite bind_get, !bind_emit, !tr_app_app, (i_prog _ _ _ Hi).
  match goal with |- sim _ _ (bind _ _ (tr_app w ?es)) (andthen (say ?es' _) _) => replace es with es' end.
  2:{ unfold prefix_text. by destruct (s_prog G), r. }
  apply sim_said. apply sim_bind; [apply deliver_sim; by apply linv_tr|]. intros w' G' Hi'. rewrite bind_get, !bind_emit, !tr_app_app, (i_prog _ _ _ Hi').
  by eexists.
Qed.
(** ** the facilities *)
Lemma codes_ok : zip facility_names codes = facilities.
Proof. reflexivity. Qed.
Lemma code_ok n : code_of n = find_name facilities n.
Proof.
  unfold code_of. rewrite codes_ok. generalize facilities. intros l. induction l as [|[m v] l IH]; [done|].
  cbn [list_find find_name fst]. destruct (decide (m = n)); [done|]. rewrite <- IH. by destruct (list_find _ l) as [[? ?]|].
Qed.
Lemma name_ok v : name_of v = find_val facilities v.
Proof.
  unfold name_of. rewrite codes_ok. generalize facilities. intros l. induction l as [|[m x] l IH]; [done|].
  cbn [list_find find_val snd]. destruct (decide (x = v)); [done|]. rewrite <- IH. by destruct (list_find _ l) as [[? ?]|].
Qed.
(** ** one call *)
Lemma open_file_sim o w G g i fmt : linv w G g -> small g -> call_ok (COpenFile i fmt) ->
  sim w (g + phantom o (COpenFile i fmt)) (log_file o (Some i) (Some fmt) w) (x_call o G (COpenFile i fmt)).
Proof.
  intros Hi Hg Hc. cbn [x_call]. destruct (s_file G) as [[[fd name] fmt0]|] eqn:Ef.
  - pose proof (i_file _ _ _ Hi) as I1. rewrite Ef in I1. destruct I1 as (E1 & E2 & _). unfold log_file. rewrite bind_get, E1, E2.
    (* the count of empty names does not matter: the call ends the program *)
    pose proof (internal_sim o w G g (Some t_logfile) (t_lf1 ++ default [] (Some name) ++ t_lf2 ++ fmt ++ [34%N]) Hi) as H.
    change (bytes "log_file") with t_logfile.
    change (bytes "Log file " ++ quote ++ name ++ quote ++ bytes " open when trying to open " ++ quote ++ fmt ++ quote)
      with (t_lf1 ++ default [] (Some name) ++ t_lf2 ++ fmt ++ [34%N]).
    revert H. generalize (err_internal (A := unit) o (Some t_logfile) (t_lf1 ++ default [] (Some name) ++ t_lf2 ++ fmt ++ [34%N]) w).
    assert (He : forall m es G', x_internal o G (Some t_logfile) m <> Ret (es, Running G')).
    { intros m es G'. unfold x_internal. cbn [andthen say mbind res_bind]. destruct (deliver _ _ _ _ _) as [[es1 [G1|r1]]| | | |]; done. }
    specialize (He (t_lf1 ++ default [] (Some name) ++ t_lf2 ++ fmt ++ [34%N])).
    intros r H. unfold sim in *. destruct (x_internal _ _ _ _) as [[es [G'|r']]| | | |]; try done. by destruct (He es G').
  - cbv zeta. cbn [call_ok] in Hc. destruct (mem o) eqn:Hm.
    2:{ cbn [sim]. pose proof (i_file _ _ _ Hi) as I1. rewrite Ef in I1. unfold log_file, allocs. by rewrite bind_get, I1, Hm. }
    destruct (decide (fits o fmt)) as [Hfit|Hfit].
    + destruct (decide (expansion o fmt = [])) as [Ee|Hne].
      * destruct (open_file_ok o w G g i fmt Hi Hg Ef Hc) as (w' & E & H & T); [split; [done|]; split; [done|by left]|].
        exists w'. split; [done|]. unfold opened in H. unfold open_events in T. rewrite Ee in H, T. done.
      * destruct (open_r o (expansion o fmt)) as [fd|] eqn:Eo.
        -- destruct (open_file_ok o w G g i fmt Hi Hg Ef Hc) as (w' & E & H & T); [split; [done|]; split; [done|right; eauto]|].
           exists w'. split; [done|]. unfold opened in H. unfold open_events in T. rewrite parents_ok.
           destruct (expansion o fmt) as [|c f] eqn:Ee; [done|]. rewrite Eo in H, T. done.
        -- destruct (open_fails w G g o i fmt Hi Ef Hc Hne Hfit Hm Eo) as (w' & ds & E & -> & T). exists w'. split; [done|]. by rewrite parents_ok.
    + cbn [sim]. rewrite (log_file_head o w G g i fmt Hi Ef Hm Hc). unfold log_check_filename. rewrite bind_bind, bind_get.
      unfold named_state. cbn [lname lorig ltmp llen negb orb]. rewrite (proj2 (Z.eqb_neq _ 0)) by lia. fold (expansion o fmt).
      rewrite (proj2 (Z.leb_le _ _)) by (unfold fits in Hfit; lia). done.
Qed.
Lemma call_sim o w G g c : linv w G g -> small g -> call_ok c -> sim w (g + phantom o c) (LogSpec.run o c w) (x_call o G c).
Proof.
  intros Hi Hg Hc. destruct c; [by apply open_file_sim|..]; cbn [phantom]; rewrite Nat.add_0_r; cbn [LogSpec.run x_call].
  - apply (close_file_ok o w G g Hi Hg).
  - destruct (s_stream G) as [x|] eqn:Es.
    + unfold log_stream. rewrite bind_get, (i_user _ _ _ Hi), Es. by apply (internal_sim o w G g (Some t_logstream) t_already).
    + destruct (mem o) eqn:Hm.
      * destruct (open_stream_ok o w G g ident s Hi Hg Es Hm) as (w' & E & H & T). exists w'. split; [done|]. split; [done|]. by rewrite app_nil_r.
      * cbn [sim]. unfold log_stream, allocs. by rewrite bind_get, (i_user _ _ _ Hi), Es, Hm.
  - apply (close_stream_ok o w G g Hi Hg).
  - destruct (s_syslog G) eqn:Es.
    + unfold log_syslog. rewrite bind_get, (i_sys _ _ _ Hi), Es. by apply (internal_sim o w G g (Some t_syslog) t_sysopen).
    + by apply (open_syslog_ok o w G g ident).
  - apply (close_syslog_ok o w G g Hi Hg).
  - apply (close_all_ok o w G g Hi Hg).
  - by apply deliver_sim.
  - by apply deliver_sim.
  - by apply warning_sim.
  - cbn [sim]. eexists. split; [reflexivity|]. split; [|by rewrite app_nil_r].
    assert (Eb : (n =? 2) = bool_decide (n = 2)) by (destruct (Z.eqb_spec n 2); [by rewrite bool_decide_eq_true_2|by rewrite bool_decide_eq_false_2]).
    rewrite Eb. destruct w, G, Hi. cbn in *. subst. by constructor.
  - rewrite code_ok. unfold log_set_facility. destruct (find_name facilities name) as [v|] eqn:Ev.
    + cbn [sim]. eexists. split; [reflexivity|]. split; [|by rewrite app_nil_r]. destruct w, G, Hi. cbn in *. subst. by constructor.
    + by apply (fatal_sim o w G g (Some t_setfac) (name ++ t_invalid)).
  - cbn [sim]. eexists. split; [reflexivity|]. split; [|by rewrite app_nil_r].
    assert (Eb : x_base <$> name = after_last_slash <$> name) by (destruct name as [s|]; [cbn; by rewrite l_base_ok|done]).
    rewrite Eb. destruct w, G, Hi. cbn in *. subst. by constructor.
Qed.
Lemma step_of_sim w x k r a (c : os * lop) : ltr w = l_trace x -> sim w k r a ->
  Trace.call_ok eq (fun _ => False) lR c (lstepped (fun _ : unit => None) w r) (l_acted x None k a).
Proof.
  intros Ht H. unfold sim in H. destruct a as [[es [G'|[?| |]]]| | | |]; try done.
  - destruct H as (w' & -> & Hi & T). cbn. rewrite T, drop_app. split; [|done]. split; [done|]. cbn. split; [by rewrite T, Ht|done].
  - destruct H as (w' & -> & T). cbn. rewrite T, drop_app. split; [|done]. split; [done|]. cbn. split; [by rewrite T, Ht|done].
  - destruct H as (w' & -> & T). cbn. rewrite T, drop_app. split; [|done]. split; [done|]. cbn. split; [by rewrite T, Ht|done].
  - by rewrite H.
  - by rewrite H.
Qed.
Lemma log_step_ok st x c : lR st x -> llegal x c -> Trace.call_ok eq (fun _ => False) lR c (lstep st c) (lspec x c).
Proof.
  destruct st as [w ended], c as [o c]. intros (H1 & H2 & H3) (L1 & L2 & L3). cbn [fst snd] in *. specialize (H3 L1).
  cbn [lstep lspec]. destruct c as [c| | |r m|r m|r m].
  - eapply step_of_sim; [done|by apply call_sim].
  - unfold log_get_facility. rewrite bind_get, (i_fac _ _ _ H3), name_ok. generalize (find_val facilities (s_fac (l_sinks x))). intros v. cbn. rewrite drop_all. split; [|done].
    split; [done|]. cbn. rewrite app_nil_r. done.
  - unfold err_program_name. rewrite bind_get. cbn. rewrite drop_all. rewrite (i_prog _ _ _ H3). split; [|done].
    split; [done|]. cbn. rewrite app_nil_r. done.
  - eapply step_of_sim; [done|by apply fatal_sim].
  - eapply step_of_sim; [done|by apply fatal_errno_sim].
  - eapply step_of_sim; [done|by apply internal_sim].
Qed.
(** what is left: the log of everything done, the count of open sinks, the buffers *)
Definition lfinal (st : lstate * bool) (x : lsp) : Prop :=
  st.2 = l_ended x /\ ltr st.1 = l_trace x /\
  (l_ended x = false -> lopen st.1 = open_sinks (l_sinks x) + Z.of_nat (l_empty x) /\
     llive st.1 = (2 * (l_empty x + if s_file (l_sinks x) then 1 else 0))%nat).
Lemma logs_ok cs : Trace.lawful lspec llegal l_start cs ->
  Trace.refines eq (fun _ => False) lfinal cs (Trace.run lstep (lstart, false) cs) (Trace.run lspec l_start cs).
Proof.
  intros Hl. eapply Trace.refines_Q; [|eapply Trace.run_refines; [apply log_step_ok| |exact Hl]].
  - intros st x (H1 & H2 & H3). split; [done|]. split; [done|]. intros He. specialize (H3 He). split; apply H3.
  - split; [done|]. split; [done|]. intros _. apply linv_start.
Qed.
