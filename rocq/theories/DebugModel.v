(** The macro PRINTF of maa.h: a debugging message, sent to the log when its flag is on. *)
From Verif Require Import Base FlagModel LogModel.

(** PRINTF (maa.h:443): [if (dbg_test(flag)) { log_info arg; }].  [msg]: the formatted message;
    [o]: what the system answers. *)
Definition PRINTF (o : os) (s : fstate) (flag : N) (msg : list N) : M unit := fun w =>
  t ← dbg_test s flag;
  if (t =? 0)%Z then Ret (w, Go tt) else log_info o msg w.

(** ** calls that log while they work *)
(** a part of the function that does not log *)
Definition lift {A} (r : res A) : M A := fun w => a ← r; Ret (w, Go a).
(** what the system answers to a message; it may depend on all that happened before *)
Notation system := (list event -> os).
(** PRINTF in the middle of a function.  The arguments of the message are evaluated only if the flag is
    on; [m]: the formatted message, or the undefined behaviour of formatting it. *)
Definition say (o : system) (s : fstate) (flag : N) (m : res (list N)) : M unit := fun w =>
  t ← dbg_test s flag;
  if (t =? 0)%Z then Ret (w, Go tt) else msg ← m; log_info (o (ltr w)) msg w.
(** err_warning in the middle of a function *)
Definition warn (o : system) (routine : option (list N)) (msg : list N) : M unit := fun w => err_warning (o (ltr w)) routine msg w.
(** [if (dbg_test(flag)) printf(...)] in the middle of a function (source.c:180-187): the message goes
    to stdout, not to the log *)
Definition say_stdout (s : fstate) (flag : N) (m : res (list N)) : M unit :=
  t <- lift (dbg_test s flag) ;
  if (t =? 0)%Z then ret tt else msg <- lift m ; emit (EPrint Stdout msg).
