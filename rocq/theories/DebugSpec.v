(** What a call that logs while it works is supposed to do: C91, C92. *)
From Verif Require Import Base CStr LogModel LogSpec DebugModel.
From Verif Require Import LogProofs.
Local Open Scope Z_scope.

(** The state of the log after calls of log.c and error.c that returned ([log_history] of LogSpec.v), with
    other output to the streams in between: sinks and number of log files opened with an empty name. *)
Inductive log_used : lstate -> sinks -> nat -> Prop :=
| lu_start : log_used lstart nosinks 0
| lu_call w G g o c w' G' :
    log_used w G g -> call_ok c -> small g -> run o c w = Ret (w', Go tt) -> after o c G G' ->
    log_used w' G' (g + phantom o c)
| lu_print w G g s b : log_used w G g -> log_used (tr_app w [EPrint s b]) G g
| lu_flush w G g s : log_used w G g -> log_used (tr_app w [EFlush s]) G g.

(** What a call has to say: a debugging message for the log, a debugging text for stdout; a text for a
    stream, a flush, a warning, a message of perror *)
Inductive note :=
| ToLog (m : list N) | ToStdout (m : list N)
| Prints (s : stream) (b : list N) | Flushes (s : stream) | Warns (routine : option (list N)) (m : list N) | Perror (name : list N).
(** [told o on ns tr G tr' G']: when all of [ns] is said in turn, after the events [tr] and with the sinks
    [G], then the events are [tr'] and the sinks [G'].  Debugging messages and texts are said only if [on].
    A log file may be switched on the way ([after_message]). *)
Inductive told (o : system) (on : bool) : list note -> list event -> sinks -> list event -> sinks -> Prop :=
| told_nil tr G : told o on [] tr G tr G
| told_off n ns tr G tr' G' : on = false -> (exists m, n = ToLog m \/ n = ToStdout m) ->
    told o on ns tr G tr' G' -> told o on (n :: ns) tr G tr' G'
| told_log m ns tr G ds tr' G' : on = true -> dirs_for (o tr) G ds ->
    told o on ns (tr ++ delivered (o tr) ds G None 6 m) (after_message (o tr) G) tr' G' ->
    told o on (ToLog m :: ns) tr G tr' G'
| told_stdout m ns tr G tr' G' : on = true -> told o on ns (tr ++ [EPrint Stdout m]) G tr' G' ->
    told o on (ToStdout m :: ns) tr G tr' G'
| told_prints s b ns tr G tr' G' : told o on ns (tr ++ [EPrint s b]) G tr' G' -> told o on (Prints s b :: ns) tr G tr' G'
| told_flushes s ns tr G tr' G' : told o on ns (tr ++ [EFlush s]) G tr' G' -> told o on (Flushes s :: ns) tr G tr' G'
| told_warns r m ns tr G ds tr' G' o' : o' = o tr -> dirs_for o' G ds ->
    told o on ns (tr ++ [EFlush Stdout; EFlush Stderr] ++ prefix_events (s_prog G) r ++ [EPrint Stderr m; EPrint Stderr nl] ++ delivered o' ds G r 3 m)
      (after_message o' G) tr' G' ->
    told o on (Warns r m :: ns) tr G tr' G'
| told_perror n ns tr G tr' G' : told o on ns (tr ++ [EPrint Stderr (n ++ [58; 32]%N ++ strerr (o tr) ++ nl)]) G tr' G' ->
    told o on (Perror n :: ns) tr G tr' G'.
(** [does o on m r ns]: from every state of the log, the call [m] ends as [r] does - with the same result,
    or failing in the same way - and if it returns it has said [ns] *)
Definition does {A} (o : system) (on : bool) (m : M A) (r : res A) (ns : list note) : Prop :=
  forall w G g, log_used w G g -> small g ->
  match r with
  | Ret a => exists w' G', m w = Ret (w', Go a) /\ log_used w' G' g /\ told o on ns (ltr w) G (ltr w') G'
  | Fatal => m w = Fatal
  | Abort => m w = Abort
  | UB => m w = UB
  | Diverge => m w = Diverge
  end.
(** the log file can always be written to, and opened when its name changes *)
Definition lets_write (o : system) : Prop := forall tr G, can_write (o tr) G.
(** the debugging messages among the notes, and what is printed on the stream [st] *)
Fixpoint logged (ns : list note) : list (list N) :=
  match ns with [] => [] | ToLog m :: ns => m :: logged ns | _ :: ns => logged ns end.
Fixpoint printed (st : stream) (ns : list note) : list N :=
  match ns with [] => [] | Prints st' b :: ns => (if decide (st' = st) then b else []) ++ printed st ns | _ :: ns => printed st ns end.
