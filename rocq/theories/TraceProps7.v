(** Whole programs of log.c and error.c (C47, C48, C52-C54).  See TraceProps.v for [run], [lawful] and
    [refines].  LogTrace.v has the calls and [lspec]: the sinks and settings, and for each call what it
    does, in order, and how it ends. *)
From Verif Require Import Base CStr LogModel LogSpec LogHist LogProps LogProps2 LogTrace.
From Verif Require Import Trace.
From Coq Require Import String.
Notation length := List.length.
Local Open Scope Z_scope.

(** Every program of these calls, whatever the clock, strftime, open, write and the memory answer,
    does what the specification says; nothing happens after exit or abort (such programs make no
    further call). *)
Theorem C52_programs : forall cs, lawful lspec llegal l_start cs ->
  refines eq (fun _ => False) lfinal cs (run lstep (lstart, false) cs) (run lspec l_start cs).
Proof. exact logs_ok. Qed.
Print Assumptions C52_programs.
(** The directories made are the proper ancestors of the name, outermost first. *)
Theorem C53_parents : forall p, ancestors p (parents p).
Proof. exact parents_spec. Qed.
Print Assumptions C53_parents.

(** ** a program: the file is switched, then a name cannot be opened *)
Definition ex_lcalls : list (os * lop) :=
  [(os_at 50, LCall (CProgram (Some (bytes "/bin/prog")))); (os_at 50, LProgramName);
   (os_at 50, LCall (CError None (bytes "nobody hears")));
   (os_at 50, LCall (COpenFile (bytes "me") fmt0)); (os_at 60, LCall (CInfo (bytes "one")));
   (os_at 150, LCall (CError (Some (bytes "f")) (bytes "two"))); (os_at 160, LCall (COption 2));
   (os_at 160, LCall (CFacility (bytes "local3"))); (os_at 160, LGetFacility);
   (os_at 160, LCall (COpenSyslog (bytes "sys"))); (os_at 170, LCall (CWarning None (bytes "three")));
   (os_at 170, LCall CCloseFile); (os_at 170, LCall CCloseFile); (os_at 180, LCall (COpenStream (bytes "me") Stdout));
   (os_full 200, LCall (COpenFile (bytes "me") fmt0))].
Fixpoint lall (x : lsp) (cs : list (os * lop)) : bool :=
  match cs with
  | [] => true
  | c :: cs' => negb (l_ended x) && match c.2 with LCall (COpenFile _ f) => (Z.of_nat (length f) <? 2 ^ 29)%Z | _ => true end &&
      (Z.of_nat (l_empty x) <? 2000000000)%Z && match lspec x c with Ret (x', _) => lall x' cs' | _ => true end
  end.
Lemma lall_ok cs : forall x, lall x cs = true -> lawful lspec llegal x cs.
Proof.
  induction cs as [|c cs IH]; intros x H; [done|]. cbn [lall] in H. apply andb_prop in H as [H H4]. apply andb_prop in H as [H H3].
  apply andb_prop in H as [H1 H2]. cbn [lawful]. split.
  - split; [by apply negb_true_iff|]. split; [|unfold small; lia]. destruct (c.2) as [[]| | | | |]; try exact I. unfold LogSpec.call_ok. apply Z.ltb_lt in H2. exact H2.
  - destruct (lspec x c) as [[x' r]| | | |]; try done. by apply IH.
Qed.
Example ex_lcalls_ok : lawful lspec llegal l_start ex_lcalls.
Proof. apply lall_ok. vm_compute. reflexivity. Qed.
Definition stamp1 : list N := bytes "Thu Jan  1 00:00:00 1970 box me[7]: ".
Definition cannot2 : list N := bytes "Cannot open " ++ quote ++ bytes "/var/log/a2" ++ quote ++ bytes " for append".
Example ex_lcalls_results :
  (run lspec l_start ex_lcalls).1 =
   [([], RReturns None); ([], RReturns (Some (bytes "prog"))); ([], RReturns None);
    ([EMkdir (bytes "/var"); EMkdir (bytes "/var/log"); EOpen (bytes "/var/log/a1") (Some 3%N)], RReturns None);
    ([EWrite 3 (stamp1 ++ bytes "one" ++ nl) None; EWrite 3 (stamp1 ++ bytes "one" ++ nl) (Some 10%nat)], RReturns None);
    ([EClose 3; EMkdir (bytes "/var"); EMkdir (bytes "/var/log"); EOpen (bytes "/var/log/a2") (Some 4%N);
      EWrite 4 (stamp1 ++ bytes "(f) two" ++ nl) None; EWrite 4 (stamp1 ++ bytes "(f) two" ++ nl) (Some 10%nat)], RReturns None);
    ([], RReturns None); ([], RReturns None); ([], RReturns (Some (bytes "local3")));
    ([EOpenlog (bytes "sys") 152], RReturns None);
    ([EFlush Stdout; EFlush Stderr; EPrint Stderr (bytes "prog: "); EPrint Stderr (bytes "three"); EPrint Stderr nl;
      EWrite 4 (bytes "three" ++ nl) None; EWrite 4 (bytes "three" ++ nl) (Some 10%nat); ESyslog 3 (bytes "three")], RReturns None);
    ([EClose 4], RReturns None); ([], RReturns None); ([], RReturns None);
    ([EMkdir (bytes "/var"); EMkdir (bytes "/var/log"); EOpen (bytes "/var/log/a2") None;
      EFlush Stdout; EPrint Stderr (bytes "prog (_log_check_filename): "); EPrint Stderr cannot2;
      ESeekEnd Stdout; EPrint Stdout cannot2; EFlush Stdout; ESyslog 3 cannot2;
      EPrint Stderr (bytes " _log_check_filename: No space left" ++ nl);
      ESeekEnd Stdout; EPrint Stdout (bytes "_log_check_filename: No space left"); EFlush Stdout; ESyslog 3 (bytes "_log_check_filename: No space left");
      EFlush Stderr; EFlush Stdout], RExits 1)] /\
  (run lstep (lstart, false) ex_lcalls).1 = (run lspec l_start ex_lcalls).1 /\
  llegal l_start (os_at 50, LCall (COpenFile (bytes "me") fmt0)).
Proof. split; [vm_compute; reflexivity|]. split; [vm_compute; reflexivity|]. split; [reflexivity|]. split; [reflexivity|]. unfold small. cbn. lia. Qed.
