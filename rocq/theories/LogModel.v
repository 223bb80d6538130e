(** Model of maa/error.c and maa/log.c (the two call each other).
    Messages are given formatted ([msg]: the bytes vfprintf/vsnprintf produce from format
    and arguments, no NUL among them).  Output and system calls are recorded in a trace;
    what the system answers (clock, strftime, open, write...) is an argument [os].
    Interned strings (str_find) are represented by their contents: str_destroy is not
    called while the log is open.  The contents of the static line buffers are not kept. *)
From Verif Require Import Base CStr.
Local Open Scope Z_scope.

Inductive stream := Stdout | Stderr | File (p : positive).
Global Instance stream_eq : EqDecision stream.
Proof. solve_decision. Defined.
Inductive event :=
| EPrint (s : stream) (bs : list N) | EFlush (s : stream) | ESeekEnd (s : stream) | EFclose (s : stream)
| EMkdir (p : list N) | EOpen (p : list N) (r : option N) | EClose (fd : N)
| EWrite (fd : N) (bs : list N) (r : option nat)      (* r: bytes taken, None: error *)
| EOpenlog (ident : list N) (fac : Z) | ECloselog | ESyslog (prio : Z) (bs : list N).
(** answers of the system during one call *)
Record os := OS {
  t_line : Z; t_file : Z;                       (* time() in _log_base_va and in _log_check_filename *)
  strf : Z -> list N -> list N;                 (* strftime with localtime *)
  c_time : Z -> list N;                         (* ctime *)
  host : list N; pid : list N;                  (* gethostname; getpid in decimal *)
  open_r : list N -> option N;                  (* open: descriptor or error *)
  eintr : nat; write_r : option nat;            (* interrupted writes, then the last answer *)
  strerr : list N;                              (* strerror(errno) *)
  mem : bool                                    (* do allocations succeed? *)
}.
(** the static variables of log.c:40-53 and error.c:36; [llive]: log-name buffers
    allocated and not freed *)
Record lstate := LS {
  lfd : option N; luser : option stream; lsys : Z; lbrief : bool; lopen : Z; lfac : Z;
  lident : option (list N); lorig : option (list N); lname : option (list N); ltmp : bool; llen : Z;
  lhost : option (list N); llive : nat; lprog : option (list N); ltr : list event
}.
(** initial values (log.c:40-53): logFacility = LOG_USER *)
Definition lstart : lstate := LS None None 0 false 0 8 None None None false 0 None 0 None [].

(** how a call ends: it returns, exit(status), or abort() *)
Inductive ctl (A : Type) := Go (a : A) | Exits (status : Z) | Aborts.
Arguments Go {A} _. Arguments Exits {A} _. Arguments Aborts {A}.
Definition M (A : Type) := lstate -> res (lstate * ctl A).
Definition ret {A} (a : A) : M A := fun w => Ret (w, Go a).
Definition bind {A B} (m : M A) (f : A -> M B) : M B := fun w =>
  '(w', c) ← m w;
  match c with Go a => f a w' | Exits n => Ret (w', Exits n) | Aborts => Ret (w', Aborts) end.
Notation "x <- m ; f" := (bind m (fun x => f)) (at level 60, right associativity).
Notation "m ;> f" := (bind m (fun _ => f)) (at level 60, right associativity).
Definition emit (e : event) : M unit := fun w =>
  Ret (LS (lfd w) (luser w) (lsys w) (lbrief w) (lopen w) (lfac w) (lident w) (lorig w) (lname w) (ltmp w) (llen w) (lhost w) (llive w) (lprog w) (ltr w ++ [e]), Go tt).
Fixpoint emits (es : list event) : M unit :=
  match es with [] => ret tt | e :: es' => emit e ;> emits es' end.
Definition get : M lstate := fun w => Ret (w, Go w).
Definition fails {A} (r : res (lstate * ctl A)) : M A := fun _ => r.

Definition put_fd (x : option N) : M unit := fun w => Ret (LS x (luser w) (lsys w) (lbrief w) (lopen w) (lfac w) (lident w) (lorig w) (lname w) (ltmp w) (llen w) (lhost w) (llive w) (lprog w) (ltr w), Go tt).
Definition put_user (x : option stream) : M unit := fun w => Ret (LS (lfd w) x (lsys w) (lbrief w) (lopen w) (lfac w) (lident w) (lorig w) (lname w) (ltmp w) (llen w) (lhost w) (llive w) (lprog w) (ltr w), Go tt).
Definition add_sys (d : Z) : M unit := fun w => x ← sint (lsys w + d); Ret (LS (lfd w) (luser w) x (lbrief w) (lopen w) (lfac w) (lident w) (lorig w) (lname w) (ltmp w) (llen w) (lhost w) (llive w) (lprog w) (ltr w), Go tt).
Definition add_open (d : Z) : M unit := fun w => x ← sint (lopen w + d); Ret (LS (lfd w) (luser w) (lsys w) (lbrief w) x (lfac w) (lident w) (lorig w) (lname w) (ltmp w) (llen w) (lhost w) (llive w) (lprog w) (ltr w), Go tt).
Definition put_ident (x : option (list N)) : M unit := fun w => Ret (LS (lfd w) (luser w) (lsys w) (lbrief w) (lopen w) (lfac w) x (lorig w) (lname w) (ltmp w) (llen w) (lhost w) (llive w) (lprog w) (ltr w), Go tt).
Definition put_host (x : option (list N)) : M unit := fun w => Ret (LS (lfd w) (luser w) (lsys w) (lbrief w) (lopen w) (lfac w) (lident w) (lorig w) (lname w) (ltmp w) (llen w) x (llive w) (lprog w) (ltr w), Go tt).
Definition put_name (x : option (list N)) : M unit := fun w => Ret (LS (lfd w) (luser w) (lsys w) (lbrief w) (lopen w) (lfac w) (lident w) (lorig w) x (ltmp w) (llen w) (lhost w) (llive w) (lprog w) (ltr w), Go tt).
Definition put_names (o n : option (list N)) (t : bool) (l : Z) (live : nat) : M unit := fun w => Ret (LS (lfd w) (luser w) (lsys w) (lbrief w) (lopen w) (lfac w) (lident w) o n t l (lhost w) live (lprog w) (ltr w), Go tt).
Definition put_brief (x : bool) : M unit := fun w => Ret (LS (lfd w) (luser w) (lsys w) x (lopen w) (lfac w) (lident w) (lorig w) (lname w) (ltmp w) (llen w) (lhost w) (llive w) (lprog w) (ltr w), Go tt).
Definition put_fac (x : Z) : M unit := fun w => Ret (LS (lfd w) (luser w) (lsys w) (lbrief w) (lopen w) x (lident w) (lorig w) (lname w) (ltmp w) (llen w) (lhost w) (llive w) (lprog w) (ltr w), Go tt).
Definition put_prog (x : option (list N)) : M unit := fun w => Ret (LS (lfd w) (luser w) (lsys w) (lbrief w) (lopen w) (lfac w) (lident w) (lorig w) (lname w) (ltmp w) (llen w) (lhost w) (llive w) x (ltr w), Go tt).
(** xmalloc, xstrdup, str_find: exit fatally without memory (xmalloc.c:30-43) *)
Definition allocs (o : os) : M unit := if mem o then ret tt else fails Fatal.

(** ** literal texts *)
Definition t_openp : list N := [32; 40]%N.                       (* " (" *)
Definition t_closep : list N := [41; 58; 32]%N.                  (* "): " *)
Definition t_colon : list N := [58; 32]%N.                       (* ": " *)
Definition t_nl : list N := [10]%N.
Definition t_internal : list N :=                                (* "Internal error\n     " *)
  [73;110;116;101;114;110;97;108;32;101;114;114;111;114;10;32;32;32;32;32]%N.
Definition t_aborting : list N := [65;98;111;114;116;105;110;103]%N.   (* "Aborting" *)
Definition t_dots : list N := [46; 46; 46; 10]%N.                      (* "...\n" *)
Definition t_cannot : list N := [67;97;110;110;111;116;32;111;112;101;110;32;34]%N. (* Cannot open <quote> *)
Definition t_append : list N := [34;32;102;111;114;32;97;112;112;101;110;100]%N.    (* <quote> for append *)
Definition t_check : list N :=                                   (* _log_check_filename *)
  [95;108;111;103;95;99;104;101;99;107;95;102;105;108;101;110;97;109;101]%N.

(** the prefix printed by err_fatal, err_fatal_errno and err_warning (error.c:77-84,
    112-119, 148-155) *)
Definition err_prefix (prog routine : option (list N)) : list event :=
  match prog, routine with
  | Some p, Some r => [EPrint Stderr (p ++ t_openp ++ r ++ t_closep)]
  | Some p, None => [EPrint Stderr (p ++ t_colon)]
  | None, Some r => [EPrint Stderr (r ++ t_colon)]
  | None, None => []
  end.

(** err_fatal_errno (error.c:105-135); a NULL routine is handed to %s: undefined.
    [log] is log_error_va. *)
Definition err_fatal_errno_with {A} (log : os -> option (list N) -> list N -> M unit)
    (o : os) (routine : option (list N)) (msg : list N) : M A :=
  w <- get ;
  emit (EFlush Stdout) ;> emits (err_prefix (lprog w) routine) ;>
  emit (EPrint Stderr msg) ;> log o routine msg ;>
  match routine with
  | None => fails UB
  | Some r =>
      emit (EPrint Stderr ([32%N] ++ r ++ t_colon ++ strerr o ++ t_nl)) ;>
      log o routine (r ++ t_colon ++ strerr o) ;>
      emit (EFlush Stderr) ;> emit (EFlush Stdout) ;>
      (fun w => Ret (w, Exits 1))
  end.

(** log_mkpath (log.c:185-199): mkdir at every '/' except a leading one *)
Fixpoint mkpath_loop (tmp : list N) (n : nat) (i : nat) : list event :=
  match n with
  | O => []
  | S n' => (if decide (tmp !! i = Some 47%N /\ i <> 0%nat) then [EMkdir (take i tmp)] else []) ++ mkpath_loop tmp n' (S i)
  end.
Definition log_mkpath (o : os) (filename : list N) : M unit :=
  allocs o ;> emits (mkpath_loop filename (length filename) 0).

Section check.
Context (fatal : os -> option (list N) -> list N -> M unit).
(** _log_check_filename (log.c:201-220).  An expansion that does not fit leaves the buffer
    indeterminate. *)
Definition log_check_filename (o : os) : M unit :=
  w <- get ;
  match lname w, lorig w with
  | None, _ => ret tt
  | Some name, orig =>
      if negb (ltmp w) || (llen w =? 0) then ret tt else
      match orig with
      | None => fails UB
      | Some fmt =>
          let f := strf o (t_file o) fmt in
          if llen w <=? Z.of_nat (length f) then fails UB else
          if decide (f = name) then ret tt else
          put_name (Some f) ;>
          (match lfd w with Some fd => emit (EClose fd) | None => ret tt end) ;>
          log_mkpath o f ;>
          emit (EOpen f (open_r o f)) ;> put_fd (open_r o f) ;>
          match open_r o f with
          | Some _ => ret tt
          | None => fatal o (Some t_check) (t_cannot ++ f ++ t_append)
          end
      end
  end.
(** "%24.24s" *)
Definition field24 (s : list N) : list N := let t := take 24 s in replicate (24 - length t) 32%N ++ t.
(** the preamble (log.c:316-320) and the whole line (log.c:326-333); sizes 320, 4096, 8192 *)
Definition preamble (w : lstate) (o : os) (ident : list N) : list N :=
  if lbrief w then [] else
  take 319 (field24 (c_time o (t_line o)) ++ [32%N] ++ take 64 (default [] (lhost w)) ++ [32%N] ++ ident ++ [91%N] ++ pid o ++ [93; 58; 32]%N).
Definition log_text (pre : list N) (routine : option (list N)) (main : list N) : list N :=
  take (N.to_nat 8191) (pre ++ match routine with Some r => [40%N] ++ r ++ [41; 32]%N | None => [] end ++ main ++ t_nl).
(** _log_base_va (log.c:294-356).  logIdent is NULL only if no file or stream was opened. *)
Definition log_base_va (o : os) (routine : option (list N)) (prio : Z) (msg : list N) : M unit :=
  w <- get ;
  if lopen w =? 0 then ret tt else
  (match lfd w, luser w with
   | None, None => ret tt
   | _, _ =>
       match (if lbrief w then Some [] else lident w) with
       | None => fails UB
       | Some ident =>
           let main := take (N.to_nat 4095) msg in
           let buf := log_text (preamble w o ident) routine main in
           (match lfd w with
            | None => ret tt
            | Some _ =>
                log_check_filename o ;>
                w1 <- get ;
                match lfd w1 with
                | None => fails UB
                | Some fd =>
                    emits (replicate (eintr o) (EWrite fd buf None)) ;>
                    emit (EWrite fd buf (write_r o))
                end
            end) ;>
           (match luser w with
            | None => ret tt
            | Some st =>
                emit (ESeekEnd st) ;>
                emit (EPrint st (if decide (st = Stdout \/ st = Stderr) then main else buf)) ;>
                emit (EFlush st)
            end)
       end
   end) ;>
  (if lsys w =? 0 then ret tt else emit (ESyslog prio msg)).
End check.

(** The recursion log -> err_fatal_errno -> log ends because the descriptor is then -1. *)
Definition no_fatal (o : os) (routine : option (list N)) (msg : list N) : M unit := fails UB.
Definition log_closed (o : os) (routine : option (list N)) (msg : list N) : M unit := log_base_va no_fatal o routine 3 msg.
Definition open_failed (o : os) (routine : option (list N)) (msg : list N) : M unit := err_fatal_errno_with log_closed o routine msg.
(** log_error_va, log_error (log.c:358-370): LOG_ERR = 3; log_info (372-384): LOG_INFO = 6 *)
Definition log_error (o : os) (routine : option (list N)) (msg : list N) : M unit := log_base_va open_failed o routine 3 msg.
Definition log_info (o : os) (msg : list N) : M unit := log_base_va open_failed o None 6 msg.

(** ** error.c *)
(** err_set_program_name (error.c:42-55): the name is the bytes from the pointer *)
Definition after_last_slash (s : list N) : list N :=
  match list_find (fun c => c = 47%N) (rev s) with
  | Some (i, _) => drop (length s - i) s       (* strrchr(s, '/') + 1 *)
  | None => s
  end.
Definition err_set_program_name (p : option (list N)) : M unit := put_prog (after_last_slash <$> p).
(** err_program_name (error.c:61-64) *)
Definition err_program_name : M (option (list N)) := w <- get ; ret (lprog w).
(** err_fatal (error.c:71-98) *)
Definition err_fatal {A} (o : os) (routine : option (list N)) (msg : list N) : M A :=
  w <- get ;
  emit (EFlush Stdout) ;> emits (err_prefix (lprog w) routine) ;>
  emit (EPrint Stderr msg) ;> emit (EPrint Stderr t_nl) ;>
  log_error o routine msg ;>
  emit (EFlush Stderr) ;> emit (EFlush Stdout) ;>
  (fun w => Ret (w, Exits 1)).
(** err_fatal_errno (error.c:105-135) *)
Definition err_fatal_errno {A} (o : os) (routine : option (list N)) (msg : list N) : M A :=
  err_fatal_errno_with log_error o routine msg.
(** err_warning (error.c:141-165) *)
Definition err_warning (o : os) (routine : option (list N)) (msg : list N) : M unit :=
  w <- get ;
  emit (EFlush Stdout) ;> emit (EFlush Stderr) ;> emits (err_prefix (lprog w) routine) ;>
  emit (EPrint Stderr msg) ;> emit (EPrint Stderr t_nl) ;>
  log_error o routine msg.
(** err_internal (error.c:171-204) *)
Definition err_internal {A} (o : os) (routine : option (list N)) (msg : list N) : M A :=
  w <- get ;
  emit (EFlush Stdout) ;>
  emit (EPrint Stderr
    (match lprog w, routine with
     | Some p, Some r => p ++ t_openp ++ r ++ t_closep
     | Some p, None => p ++ t_colon
     | None, Some r => r ++ t_colon
     | None, None => []
     end ++ t_internal)) ;>
  emit (EPrint Stderr msg) ;> emit (EPrint Stderr t_nl) ;>
  log_error o routine msg ;>
  w1 <- get ;
  emit (EPrint Stderr (t_aborting ++ match lprog w1 with Some p => [32%N] ++ p | None => [] end ++ t_dots)) ;>
  emit (EFlush Stderr) ;> emit (EFlush Stdout) ;>
  (fun w => Ret (w, Aborts)).

(** ** log.c *)
(** facilitynames (log.c:60-123) with the values of <syslog.h>; LOG_KERN is 0, so #if
    LOG_KERN leaves "kern" out.  (HAVE_SYSLOG_NAMES is not defined by the build.) *)
Definition facilities : list (list N * Z) :=
  [([97;117;116;104]%N, 32); ([97;117;116;104;112;114;105;118]%N, 80); ([99;114;111;110]%N, 72);
   ([100;97;101;109;111;110]%N, 24); ([102;116;112]%N, 88); ([108;112;114]%N, 48); ([109;97;105;108]%N, 16);
   ([110;101;119;115]%N, 56); ([115;121;115;108;111;103]%N, 40); ([117;115;101;114]%N, 8); ([117;117;99;112]%N, 64);
   ([108;111;99;97;108;48]%N, 128); ([108;111;99;97;108;49]%N, 136); ([108;111;99;97;108;50]%N, 144); ([108;111;99;97;108;51]%N, 152);
   ([108;111;99;97;108;52]%N, 160); ([108;111;99;97;108;53]%N, 168); ([108;111;99;97;108;54]%N, 176); ([108;111;99;97;108;55]%N, 184)].
(** log_set_facility (log.c:138-149), log_get_facility (151-158); the name is a string,
    compared with strcmp *)
Fixpoint find_name (l : list (list N * Z)) (n : list N) : option Z :=
  match l with [] => None | (m, v) :: l' => if decide (m = n) then Some v else find_name l' n end.
Fixpoint find_val (l : list (list N * Z)) (v : Z) : option (list N) :=
  match l with [] => None | (m, v') :: l' => if decide (v' = v) then Some m else find_val l' v end.
Definition t_invalid : list N := [32;105;115;32;110;111;116;32;97;32;118;97;108;105;100;32;102;97;99;105;108;105;116;121;32;110;97;109;101]%N.
Definition t_setfac : list N := [108;111;103;95;115;101;116;95;102;97;99;105;108;105;116;121]%N.
Definition log_set_facility (o : os) (n : list N) : M unit :=
  match find_name facilities n with
  | Some v => put_fac v
  | None => err_fatal o (Some t_setfac) (n ++ t_invalid)
  end.
Definition log_get_facility : M (option (list N)) := w <- get ; ret (find_val facilities (lfac w)).
(** log_option (log.c:160-164): LOG_OPTION_NO_FULL = 2 *)
Definition log_option (option : Z) : M unit := put_brief (option =? 2).
(** log_syslog (log.c:166-183) *)
Definition t_syslog : list N := [108;111;103;95;115;121;115;108;111;103]%N.
Definition t_sysopen : list N := [83;121;115;108;111;103;32;102;97;99;105;108;105;116;121;32;97;108;114;101;97;100;121;32;111;112;101;110]%N.
Definition log_syslog (o : os) (ident : option (list N)) : M unit :=
  w <- get ;
  match ident with
  | Some i =>
      if negb (lsys w =? 0) then err_internal o (Some t_syslog) t_sysopen else
      emit (EOpenlog i (lfac w)) ;> add_open 1 ;> add_sys 1
  | None =>
      if lsys w =? 0 then ret tt else
      emit ECloselog ;> add_open (-1) ;> add_sys (-1)
  end.
(** _log_set_hostname (log.c:125-136): at most 63 bytes, up to the first '.' *)
Definition short_host (h : list N) : list N :=
  let h := take 63 h in
  match list_find (fun c => c = 46%N) h with Some (i, _) => take i h | None => h end.
Definition log_set_hostname (o : os) : M unit :=
  w <- get ; match lhost w with None => put_host (Some (short_host (host o))) | Some _ => ret tt end.
(** log_file (log.c:222-258) *)
Definition t_logfile : list N := [108;111;103;95;102;105;108;101]%N.
Definition t_lf1 : list N := [76;111;103;32;102;105;108;101;32;34]%N.                       (* Log file <quote> *)
Definition t_lf2 : list N := [34;32;111;112;101;110;32;119;104;101;110;32;116;114;121;105;110;103;32;116;111;32;111;112;101;110;32;34]%N.
Definition log_file (o : os) (ident filename : option (list N)) : M unit :=
  w <- get ;
  match ident, filename with
  | Some i, Some fn =>
      match lfd w with
      | Some _ => err_internal o (Some t_logfile) (t_lf1 ++ default [] (lname w) ++ t_lf2 ++ fn ++ [34%N])
      | None =>
          allocs o ;> put_ident (Some i) ;>
          let len := to_int (Z.of_nat (length fn) * 3 + 1024) in
          put_names (Some fn) (Some []) true len (llive w + 2) ;>
          log_check_filename open_failed o ;>
          log_set_hostname o ;>
          add_open 1
      end
  | _, _ =>
      match lfd w with
      | None => ret tt
      | Some fd =>
          emit (EClose fd) ;> put_fd None ;>
          let live := (llive w - (if lname w then 1 else 0) - (if ltmp w then 1 else 0))%nat in
          put_names (lorig w) None false 0 live ;>
          add_open (-1)
      end
  end.
(** log_stream (log.c:260-285) *)
Definition t_logstream : list N := [108;111;103;95;115;116;114;101;97;109]%N.
Definition t_already : list N := [85;115;101;114;32;115;116;114;101;97;109;32;97;108;114;101;97;100;121;32;111;112;101;110]%N.
Definition log_stream (o : os) (ident : option (list N)) (st : option stream) : M unit :=
  w <- get ;
  match ident, st with
  | Some i, Some s =>
      match luser w with
      | Some _ => err_internal o (Some t_logstream) t_already
      | None =>
          put_user (Some s) ;> allocs o ;> put_ident (Some i) ;>
          log_set_hostname o ;> add_open 1
      end
  | _, _ =>
      match luser w with
      | None => ret tt
      | Some s =>
          (if decide (s = Stdout \/ s = Stderr) then ret tt else emit (EFclose s)) ;>
          put_user None ;> add_open (-1)
      end
  end.
(** log_close (log.c:287-292) *)
Definition log_close (o : os) : M unit := log_file o None None ;> log_stream o None None ;> log_syslog o None.
