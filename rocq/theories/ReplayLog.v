(** tests/err/errtest.c with tests/err/test.mk, tests/log/logtest.c with
    tests/log/logtest.sh, tests/debug/debugtest.c and tests/basics/basicstest.c.
    The system answers with the placeholders the tests' awk programs put in: the
    date, the host name and the process id.  Of the version numbers only the form
    of the line is replayed (mk/test.mk replaces them by 999). *)
From Coq Require Import String.
From Verif Require Import Base CStr Alloc LogModel HashModel FlagModel MaaModel Replay.
Notation length := List.length.
Local Open Scope Z_scope.

(** what went to a stream, and to a file descriptor *)
Definition to_stream (s : stream) (tr : list event) : bytes :=
  List.concat ((fun e => match e with EPrint s' b => if decide (s' = s) then b else [] | _ => [] end) <$> tr).
Definition to_fd (fd : N) (tr : list event) : bytes :=
  List.concat ((fun e => match e with EWrite fd' b (Some k) => if (fd' =? fd)%N then take k b else [] | _ => [] end) <$> tr).
Definition sys (date hostname pid err : string) : os :=
  OS 0 0 (fun _ f => f) (fun _ => text date ++ nl) (text hostname) (text pid) (fun _ => Some 3%N) 0 (Some 1000%nat) (text err) true.

(** ** errtest *)
Definition o : os := sys "ddd mmm DD hh:mm:ss YYYY" "hostname" "nnnn" "Bad file descriptor".
Definition main : option bytes := Some (text "main").
Definition msg (s : string) (n : Z) : bytes := text s ++ num n.
Definition body (n : nat) : M unit :=
  match n with
  | 1%nat => err_fatal o main (msg "fatal error #" 56)
  | 2%nat => err_fatal o None (msg "fatal error #" 711)
  | 3%nat => err_set_program_name None ;> err_fatal o None (msg "fatal error #" 75)
  | 4%nat => err_fatal_errno o main (msg "fatal error #" 17)
  | 5%nat => err_warning o main (msg "warning #" 11)
  | 6%nat => err_warning o None (msg "warning #" 11)
  | 7%nat => err_internal o None (msg "internal error #" 71)
  | _ => err_internal o None (msg "internal error #" 71)
  end.
(** errtest.c:3-20: one run; maa_init sets the program name.  The output is what
    went to stderr and the exit status as the shell shows it; the file is what
    went to the log file, opened for appending *)
Definition status {A} (c : ctl A) : Z := match c with Go _ => 0 | Exits n => n | Aborts => 134 end.
Definition errtest (n : nat) : res (bytes * bytes) :=
  '(w, c) ← (err_set_program_name (Some (text "/obj/errtest")) ;> log_file o (Some (text "errtest")) (Some (text "log.log")) ;> body n) lstart;
  Ret (line "=== errtest " (num (Z.of_nat n)) ++ to_stream Stderr (ltr w) ++
       (if (n =? 4)%nat then [] else line "$?=" (num (status c))), to_fd 3 (ltr w)).
Fixpoint errtests (ns : list nat) : res (bytes * bytes) :=
  match ns with [] => Ret ([], []) | n :: ns' => '(a, b) ← errtest n; '(a', b') ← errtests ns'; Ret (a ++ a', b ++ b') end.
Definition errtest_all : res bytes :=
  '(a, b) ← errtests (seq 1 8);
  Ret (a ++ line "==================== log file ====================" [] ++ b).
Example errtest_expect : errtest_all = Ret (text "=== errtest 1
errtest (main): fatal error #56
$?=1
=== errtest 2
errtest: fatal error #711
$?=1
=== errtest 3
fatal error #75
$?=1
=== errtest 4
errtest (main): fatal error #17 main: Bad file descriptor
=== errtest 5
errtest (main): warning #11
$?=0
=== errtest 6
errtest: warning #11
$?=0
=== errtest 7
errtest: Internal error
     internal error #71
Aborting errtest...
$?=134
=== errtest 8
errtest: Internal error
     internal error #71
Aborting errtest...
$?=134
==================== log file ====================
ddd mmm DD hh:mm:ss YYYY hostname errtest[nnnn]: (main) fatal error #56
ddd mmm DD hh:mm:ss YYYY hostname errtest[nnnn]: fatal error #711
ddd mmm DD hh:mm:ss YYYY hostname errtest[nnnn]: fatal error #75
ddd mmm DD hh:mm:ss YYYY hostname errtest[nnnn]: (main) fatal error #17
ddd mmm DD hh:mm:ss YYYY hostname errtest[nnnn]: (main) main: Bad file descriptor
ddd mmm DD hh:mm:ss YYYY hostname errtest[nnnn]: (main) warning #11
ddd mmm DD hh:mm:ss YYYY hostname errtest[nnnn]: warning #11
ddd mmm DD hh:mm:ss YYYY hostname errtest[nnnn]: internal error #71
ddd mmm DD hh:mm:ss YYYY hostname errtest[nnnn]: internal error #71
").
Proof. vm_compute. reflexivity. Qed.

(** ** logtest; logtest.sh replaces the digits left *)
Definition digit (c : N) : bool := ((48 <=? c) && (c <=? 57))%N.
Fixpoint nn (s : bytes) : bytes :=
  match s with
  | [] => []
  | c :: s' => if digit c then match s' with
                               | d :: s'' => if digit d then text "NN" ++ nn s'' else text "NN" ++ nn s'
                               | [] => text "NN"
                               end
               else c :: nn s'
  end.
Definition o' : os := sys "Day Mth NN NN:NN:NN NNNN" "HOSTNAME" "NNNNN" "".
Definition logprog : M unit :=
  err_set_program_name (Some (text "_log_file.txt")) ;>
  log_file o' (Some (text "logtest")) (Some (text "_log_file.txt")) ;>
  log_error o' main (text "Error??? No-o-o-o... :-)") ;>
  log_set_facility o' (text "syslog") ;>
  f <- log_get_facility ;
  log_error o' main (text "log_facility: " ++ default (text "(null)") f) ;>
  log_info o' (msg "five: " 5) ;>
  log_syslog o' (Some (text "ident")) ;>
  log_syslog o' None ;>
  log_close o'.
Definition logtest : res bytes :=
  '(w, c) ← logprog lstart;
  match c with Go _ => if decide (to_stream Stderr (ltr w) = []) then Ret (nn (to_fd 3 (ltr w))) else UB | _ => UB end.
Example logtest_expect : logtest = Ret (text "Day Mth NN NN:NN:NN NNNN HOSTNAME logtest[NNNNN]: (main) Error??? No-o-o-o... :-)
Day Mth NN NN:NN:NN NNNN HOSTNAME logtest[NNNNN]: (main) log_facility: syslog
Day Mth NN NN:NN:NN NNNN HOSTNAME logtest[NNNNN]: five: NN
").
Proof. vm_compute. reflexivity. Qed.

(** ** debugtest without arguments (as in the expected output), and with -d *)
Definition dal (n : nat) : halloc HashFnProofs.skey N := HA bump (fun _ => true).
Definition dnames : list (N * list N) :=
  [(MAA_MEMORY, t_memory); (MAA_TIME, t_time); (MAA_PR, t_pr); (MAA_SL, t_sl); (MAA_SRC, t_src); (MAA_PARSE, t_parse)].
Fixpoint dsets (d : fstate) (args : list bytes) : res fstate :=
  match args with [] => Ret d | a :: args' => d ← dbg_set d (Some (a ++ [0%N])); dsets d args' end.
Definition debugtest (args : list bytes) : res bytes :=
  d ← register_all dal fempty dnames;
  d ← dbg_register (dal 0) d 1 (Some (text "verbose" ++ [0%N]));
  d ← dbg_register (dal 0) d 2 (Some (text "test" ++ [0%N]));
  d ← dsets d args;
  v ← dbg_test d 1; t ← dbg_test d 2;
  Ret (line (if v =? 0 then "Verbose not set" else "Verbose set") [] ++ line (if t =? 0 then "Test not set" else "Test set") []).
Example debugtest_expect : debugtest [] = Ret (text "Verbose not set
Test not set
").
Proof. vm_compute. reflexivity. Qed.
Example debugtest_more :
  debugtest [text "test"] = Ret (text "Verbose not set
Test set
") /\ debugtest [text "all"; text "-test"] = Ret (text "Verbose set
Test not set
").
Proof. vm_compute. split; reflexivity. Qed.

Definition basicstest (major minor teeny : Z) : bytes :=
  text "version: " ++ num (maa_version_major major) ++ text "." ++ num (maa_version_minor minor) ++ text "." ++ num (maa_version_teeny teeny) ++ nl.
Example basicstest_expect : basicstest 999 999 999 = text "version: 999.999.999
".
Proof. vm_compute. reflexivity. Qed.
