(** What the log does, in terms of its sinks. *)
From Verif Require Import Base CStr LogModel.
From Coq Require Import String Ascii.
Notation length := List.length.
Delimit Scope string_scope with str.
Local Open Scope Z_scope.

(** the sinks: an open log file (descriptor, its present name, the format of the name),
    a stream, syslog; and the settings *)
Record sinks := Sk {
  s_file : option (N * list N * list N); s_stream : option stream; s_syslog : bool;
  s_ident : option (list N); s_host : option (list N); s_brief : bool; s_fac : Z; s_prog : option (list N) }.
Definition nosinks : sinks := Sk None None false None None false 8 None.

(** the calls, all of them returning nothing *)
Inductive lcall :=
| COpenFile (ident format : list N) | CCloseFile
| COpenStream (ident : list N) (s : stream) | CCloseStream
| COpenSyslog (ident : list N) | CCloseSyslog
| CCloseAll
| CError (routine : option (list N)) (msg : list N) | CInfo (msg : list N) | CWarning (routine : option (list N)) (msg : list N)
| COption (n : Z) | CFacility (name : list N) | CProgram (name : option (list N)).
Definition run (o : os) (c : lcall) : M unit :=
  match c with
  | COpenFile i f => log_file o (Some i) (Some f) | CCloseFile => log_file o None None
  | COpenStream i s => log_stream o (Some i) (Some s) | CCloseStream => log_stream o None None
  | COpenSyslog i => log_syslog o (Some i) | CCloseSyslog => log_syslog o None
  | CCloseAll => log_close o
  | CError r m => log_error o r m | CInfo m => log_info o m | CWarning r m => err_warning o r m
  | COption n => log_option n | CFacility n => log_set_facility o n | CProgram p => err_set_program_name p
  end.

(** the proper ancestors of a path, outermost first: its prefixes before a '/' *)
Definition ancestors (p : list N) (ds : list (list N)) : Prop :=
  (forall d, d ∈ ds <-> d <> [] /\ exists q, p = d ++ 47%N :: q) /\
  (forall i j d e, (i < j)%nat -> ds !! i = Some d -> ds !! j = Some e -> (length d < length e)%nat).

(** ** The line of a message: time, host, program[pid], routine, text, newline; the text is
    cut after 4095 bytes, the part before the routine after 319, the line after 8191 *)
Definition cut (n : N) (s : list N) : list N := take (N.to_nat n) s.
Definition stamp (o : os) (G : sinks) : list N :=
  if s_brief G then [] else
  cut 319 (replicate (24 - length (cut 24 (c_time o (t_line o)))) 32%N ++ cut 24 (c_time o (t_line o)) ++ [32%N] ++
    cut 64 (default [] (s_host G)) ++ [32%N] ++ default [] (s_ident G) ++ [91%N] ++ pid o ++ [93; 58; 32]%N).
Definition line (o : os) (G : sinks) (routine : option (list N)) (msg : list N) : list N :=
  cut 8191 (stamp o G ++ match routine with Some r => [40%N] ++ r ++ [41; 32]%N | None => [] end ++ cut 4095 msg ++ [10%N]).

(** ** Where a message goes *)
Definition expansion (o : os) (fmt : list N) : list N := strf o (t_file o) fmt.
(** switching the log file: what happens before the write, and the descriptor written to *)
Definition switched (o : os) (fd : N) (name fmt : list N) : N * list N :=
  if decide (expansion o fmt = name) then (fd, name) else (default fd (open_r o (expansion o fmt)), expansion o fmt).
Definition to_file (o : os) (ds : list (list N)) (fd : N) (name fmt : list N) (text : list N) : list event :=
  (if decide (expansion o fmt = name) then [] else
     [EClose fd] ++ (EMkdir <$> ds) ++ [EOpen (expansion o fmt) (open_r o (expansion o fmt))]) ++
  replicate (eintr o) (EWrite (switched o fd name fmt).1 text None) ++ [EWrite (switched o fd name fmt).1 text (write_r o)].
Definition to_stream (s : stream) (msg text : list N) : list event :=
  [ESeekEnd s; EPrint s (match s with File _ => text | _ => cut 4095 msg end); EFlush s].
(** [ds]: the directories made *)
Definition delivered (o : os) (ds : list (list N)) (G : sinks) (routine : option (list N)) (prio : Z) (msg : list N) : list event :=
  match s_file G with Some (fd, name, fmt) => to_file o ds fd name fmt (line o G routine msg) | None => [] end ++
  match s_stream G with Some s => to_stream s msg (line o G routine msg) | None => [] end ++
  (if s_syslog G then [ESyslog prio msg] else []).
Definition set_file (G : sinks) x := Sk x (s_stream G) (s_syslog G) (s_ident G) (s_host G) (s_brief G) (s_fac G) (s_prog G).
Definition set_stream (G : sinks) x := Sk (s_file G) x (s_syslog G) (s_ident G) (s_host G) (s_brief G) (s_fac G) (s_prog G).
Definition set_syslog (G : sinks) x := Sk (s_file G) (s_stream G) x (s_ident G) (s_host G) (s_brief G) (s_fac G) (s_prog G).
Definition after_message (o : os) (G : sinks) : sinks :=
  match s_file G with
  | Some (fd, name, fmt) => set_file G (Some (switched o fd name fmt, fmt))
  | None => G
  end.

(** the name of the host up to the first dot *)
Fixpoint upto_dot (h : list N) : list N :=
  match h with [] => [] | c :: h' => if decide (c = 46%N) then [] else c :: upto_dot h' end.
Definition with_host (o : os) (G : sinks) : sinks :=
  Sk (s_file G) (s_stream G) (s_syslog G) (s_ident G) (match s_host G with None => Some (upto_dot (cut 63 (host o))) | h => h end)
     (s_brief G) (s_fac G) (s_prog G).
Definition set_ident (G : sinks) (i : list N) : sinks :=
  Sk (s_file G) (s_stream G) (s_syslog G) (Some i) (s_host G) (s_brief G) (s_fac G) (s_prog G).

(** the part of a path after the last slash *)
Definition basename (s b : list N) : Prop := exists p, s = p ++ b /\ (p = [] \/ last p = Some 47%N) /\ 47%N ∉ b.

(** the sinks after a call that returns *)
Definition after (o : os) (c : lcall) (G : sinks) (G' : sinks) : Prop :=
  match c with
  | COpenFile i fmt =>
      let G1 := with_host o (set_ident G i) in
      G' = match expansion o fmt with [] => G1 | name => set_file G1 (match open_r o name with Some fd => Some (fd, name, fmt) | None => None end) end
  | CCloseFile => G' = set_file G None
  | COpenStream i s => G' = set_stream (with_host o (set_ident G i)) (Some s)
  | CCloseStream => G' = set_stream G None
  | COpenSyslog i => G' = set_syslog G true
  | CCloseSyslog => G' = set_syslog G false
  | CCloseAll => G' = set_syslog (set_stream (set_file G None) None) false
  | CError _ _ | CInfo _ | CWarning _ _ => G' = after_message o G
  | COption n => G' = Sk (s_file G) (s_stream G) (s_syslog G) (s_ident G) (s_host G) (bool_decide (n = 2)) (s_fac G) (s_prog G)
  | CFacility n => exists v, (n, v) ∈ facilities /\
      G' = Sk (s_file G) (s_stream G) (s_syslog G) (s_ident G) (s_host G) (s_brief G) v (s_prog G)
  | CProgram p => exists b, match p, b with Some s, Some b => basename s b | None, None => True | _, _ => False end /\
      G' = Sk (s_file G) (s_stream G) (s_syslog G) (s_ident G) (s_host G) (s_brief G) (s_fac G) b
  end.
(** opened with a name that expands to nothing: no file is opened, but the call counts *)
Definition phantom (o : os) (c : lcall) : nat :=
  match c with COpenFile _ fmt => if decide (expansion o fmt = []) then 1 else 0 | _ => 0 end%nat.
Definition open_sinks (G : sinks) : Z :=
  (match s_file G with Some _ => 1 | None => 0 end) + (match s_stream G with Some _ => 1 | None => 0 end) + (if s_syslog G then 1 else 0).

(** ** When the log file can be written to and opened *)
(** the name expands to one that fits its buffer and, if it changed, the file opens *)
Definition can_write (o : os) (G : sinks) : Prop :=
  match s_file G with
  | None => True
  | Some (fd, name, fmt) =>
      Z.of_nat (length (expansion o fmt)) < Z.of_nat (length fmt) * 3 + 1024 /\
      (expansion o fmt = name \/ (mem o = true /\ is_Some (open_r o (expansion o fmt))))
  end.
(** opening a log file: the name fits; it is empty (and then nothing is opened) or the file opens *)
Definition can_open (o : os) (fmt : list N) : Prop :=
  Z.of_nat (length (expansion o fmt)) < Z.of_nat (length fmt) * 3 + 1024 /\ mem o = true /\
  (expansion o fmt = [] \/ is_Some (open_r o (expansion o fmt))).

(** ** Histories *)
(** lengths for which strlen(format)*3+1024 is an int *)
Definition call_ok (c : lcall) : Prop := match c with COpenFile _ f => (Z.of_nat (length f) < 2 ^ 29)%Z | _ => True end.
(** fewer than two billion log files opened with an empty name *)
Definition small (g : nat) : Prop := Z.of_nat g < 2000000000.
(** [log_history w G g]: [w] is reached by calls that returned; [G] are the sinks then, [g]
    the number of log files opened with an empty name *)
Inductive log_history : lstate -> sinks -> nat -> Prop :=
| lh_start : log_history lstart nosinks 0
| lh_call w G g o c w' G' :
    log_history w G g -> call_ok c -> small g -> run o c w = Ret (w', Go tt) -> after o c G G' ->
    log_history w' G' (g + phantom o c).

(** the directories for the log file of [G] at the time of [o] *)
Definition dirs_for (o : os) (G : sinks) (ds : list (list N)) : Prop :=
  match s_file G with Some (_, _, fmt) => ancestors (expansion o fmt) ds | None => ds = [] end.
(** what happens to the log file if it cannot be written: nothing else is done *)
Definition cannot_write {A} (o : os) (G : sinks) (r : res (lstate * ctl A)) : Prop :=
  match s_file G with
  | None => False
  | Some (fd, name, fmt) =>
      if decide (Z.of_nat (length fmt) * 3 + 1024 <= Z.of_nat (length (expansion o fmt))) then r = UB
      else if mem o then open_r o (expansion o fmt) = None /\ exists w', r = Ret (w', Exits 1)
      else r = Fatal
  end.

(** ** Texts *)
Fixpoint bytes (s : string) : list N :=
  match s with EmptyString => [] | String a s' => N_of_ascii a :: bytes s' end.
Definition nl : list N := [10%N].
(** "program (routine): ", without the parts that are NULL *)
Definition prefix_text (prog routine : option (list N)) : list N :=
  match prog, routine with
  | Some p, Some r => p ++ bytes " (" ++ r ++ bytes "): "
  | Some p, None => p ++ bytes ": "
  | None, Some r => r ++ bytes ": "
  | None, None => []
  end.
(** nothing is printed for an empty prefix *)
Definition prefix_events (prog routine : option (list N)) : list event :=
  match prog, routine with None, None => [] | _, _ => [EPrint Stderr (prefix_text prog routine)] end.
Definition facility_names : list (list N) := bytes <$>
  ["auth"; "authpriv"; "cron"; "daemon"; "ftp"; "lpr"; "mail"; "news"; "syslog"; "user"; "uucp"; "local0"; "local1"; "local2"; "local3";
   "local4"; "local5"; "local6"; "local7"]%string.
