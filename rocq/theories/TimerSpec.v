(** Timers as a map from names to what was measured. *)
From Verif Require Import Base CStr TimerModel.
Local Open Scope Z_scope.

(** times as gettimeofday and getrusage give them *)
Definition wf_time (t : timeval) : Prop := 0 <= tv_sec t < 2 ^ 62 /\ 0 <= tv_usec t < 1000000.
Definition wf_clock (c : clock) : Prop :=
  wf_time (c_real c) /\ wf_time (c_utime c) /\ wf_time (c_stime c) /\ wf_time (c_cutime c) /\ wf_time (c_cstime c).
(** the time in microseconds *)
Definition micros (t : timeval) : Z := 1000000 * tv_sec t + tv_usec t.
(** what a timer says: the difference of the seconds *)
Definition secs (now thn : timeval) : Z := tv_sec now - tv_sec thn.

(** a timer: the clock when it was last started; wall, user and system time reported.
    User and system time are those of the process plus those of its children *)
Record timer := Tm { started : clock; wall : Z; user : Z; system : Z }.
Notation timers := (gmap (list N) timer).
Definition start (c : clock) (o : option timer) : timer :=
  match o with None => Tm c 0 0 0 | Some t => Tm c (wall t) (user t) (system t) end.
Definition stop (c : clock) (t : timer) : timer :=
  let m := started t in
  Tm m (secs (c_real c) (c_real m)) (secs (c_utime c) (c_utime m) + secs (c_cutime c) (c_cutime m))
     (secs (c_stime c) (c_stime m) + secs (c_cstime c) (c_cstime m)).
Definition reset (t : timer) : timer := Tm (started t) 0 0 0.

(** an allocator for entries and one for table nodes *)
Definition talloc_ok (al : talloc) : Prop := HashModel.halloc_ok (t_hash al) /\ malloc_ok (t_ent al).

(** states reached by calls that return, with the timers then *)
Inductive tim_history : tstate -> timers -> Prop :=
| th_init : tim_history tstart ∅
| th_start al s M c n rest s' : tim_history s M -> talloc_ok al -> wf_clock c -> str_ok n ->
    tim_start al s c (Some (n ++ 0%N :: rest)) = Ret s' -> tim_history s' (<[n := start c (M !! n)]> M)
| th_stop al s M c n t rest s' : tim_history s M -> talloc_ok al -> wf_clock c -> str_ok n -> M !! n = Some t ->
    tim_stop al s c (Some (n ++ 0%N :: rest)) = Ret s' -> tim_history s' (<[n := stop c t]> M)
| th_reset al s M n t rest s' : tim_history s M -> talloc_ok al -> str_ok n -> M !! n = Some t ->
    tim_reset al s (Some (n ++ 0%N :: rest)) = Ret s' -> tim_history s' (<[n := reset t]> M)
| th_get f al s M n rest s' r : tim_history s M -> talloc_ok al -> str_ok n ->
    tim_get f al s (Some (n ++ 0%N :: rest)) = Ret (s', r) -> tim_history s' M
| th_print al s M s' out : tim_history s M -> talloc_ok al -> tim_print_timers al s = Ret (s', out) -> tim_history s' M
| th_shutdown s M s' nodes : tim_history s M -> tim_shutdown s = Ret (s', nodes) -> tim_history s' ∅.
