(** Whole programs on flags (C43-C45, C63) and on timers (C49, C64, C65).  See TraceProps.v for [run],
    [lawful] and [refines].  FlagTrace.v has the calls of flags.c and debug.c and [fspec]: the names
    with their flags, and a truth value for every bit of every set; TimerTrace.v has the timer calls
    and [tspec]: a map from names to what was measured. *)
From Verif Require Import Base Trace Alloc CStr ListLemmas PrimeModel HashModel HashSpec HashProofs HashOps HashOps2 HashIter HashHist HashFnModel HashFnProofs NameTab.
From Verif Require Import FlagModel FlagSpec FlagProofs FlagHist FlagProps FlagTrace.
From Verif Require TimerModel TimerSpec TimerProofs TimerProps TimerTrace.
Local Open Scope N_scope.

Theorem C43_programs : forall (dbg : bool) cs, lawful (fspec dbg) (flegal dbg) (None, fun _ _ => false) cs ->
  refines feq fcan (fun _ _ => True) cs (run (fstep dbg) fempty cs) (run (fspec dbg) (None, fun _ _ => false) cs).
Proof. exact flags_ok. Qed.
Print Assumptions C43_programs.

Section timers.
Import TimerModel TimerSpec TimerProofs TimerTrace.
(** in addition: after a shutdown the module is as it was at the start *)
Theorem C49_programs : forall cs, lawful tspec tlegal ∅ cs ->
  refines teq tcan (fun s _ => last cs = Some TShutdown -> s = tstart) cs (run tstep tstart cs) (run tspec ∅ cs).
Proof. exact timers_ok. Qed.
End timers.
Print Assumptions C49_programs.

(** ** a debug program: "ab" is bit 0 of set 0, "cd" bit 3 of set 1, "ef" a user flag, registered twice *)
Definition ex_fcalls : list fop :=
  [FRegister ex_fal (fl 0 0) [97; 98] []; FRegister ex_fal (fl 3 2) [99; 100] [7]; FUser ex_fal (fl 1 5) [101; 102] []; FUser ex_fal (fl 0 6) [101; 102] [];
   FRegister ex_fal (fl 0 0) [103] []; FTest (fl 0 0); FSet [97; 98] []; FTest (fl 0 0); FSet [43; 101; 102] []; FTest (fl 1 5); FTest (fl 0 6);
   FSet [97; 108; 108] []; FSet [45; 97; 98] []; FTest (fl 0 0); FTest (fl 0 1); FOff (fl 3 2); FTest (fl 2 2); FTest (fl 2 3); FName (fl 3 2); FName (fl 0 6);
   FName (fl 0 0); FList; FDestroy; FTest (fl 0 1); FList].
Example ex_fcalls_ok : lawful (fspec true) (flegal true) (None, fun _ _ => false) ex_fcalls.
Proof.
  assert (Hal : halloc_ok ex_fal) by apply bump_ok.
  assert (Hs : forall s, forallb (fun c => (0 <? c)%N && (c <? 256)%N) s = true -> str_ok s).
  { intros s H. apply Forall_forall. intros x Hx. apply elem_of_list_In in Hx. rewrite forallb_forall in H. specialize (H x Hx). lia. }
  assert (Hr : forall S f n rest, forallb (fun c => (0 <? c)%N && (c <? 256)%N) n = true -> (f <? 2 ^ 64) = true -> flegal true S (FRegister ex_fal f n rest)).
  { intros S f n rest H1 H2. split; [exact Hal|]. split; [by apply Hs|lia]. }
  assert (Hu : forall S f n rest, forallb (fun c => (0 <? c)%N && (c <? 256)%N) n = true -> (f <? 2 ^ 64) = true -> flegal true S (FUser ex_fal f n rest)).
  { intros S f n rest H1 H2. split; [done|]. split; [exact Hal|]. split; [by apply Hs|lia]. }
  assert (Ht : forall S c n rest, forallb (fun c => (0 <? c)%N && (c <? 256)%N) (c :: n) = true -> flegal true S (FSet (c :: n) rest)).
  { intros S c n rest H1. split; [by apply Hs|done]. }
  assert (Hg : forall S g, (g <? 2 ^ 32) = true -> flegal true S (FTest g)) by (intros S g H; cbn [flegal]; lia).
  assert (Hf : forall S f, (f <? 2 ^ 64) = true -> flegal true S (FOff f)) by (intros S f H; cbn [flegal]; split; [done|lia]).
  unfold ex_fcalls.
  repeat (first [eapply lawful_cons; [|vm_compute; reflexivity|]; [first [apply Hr; vm_compute; reflexivity|apply Hu; vm_compute; reflexivity|apply Ht; vm_compute; reflexivity
    |apply Hg; vm_compute; reflexivity|apply Hf; vm_compute; reflexivity|exact I]|]|apply lawful_last; [exact I|reflexivity]]).
Qed.
Example ex_fcalls_results :
  (run (fspec true) (None, fun _ _ => false) ex_fcalls).1 =
   [RDone; RDone; RDone; RDone; RDone; ROn false; RDone; ROn true; RDone; ROn true; ROn false;
    RDone; RDone; ROn false; ROn true; RDone; ROn false; ROn true; RAny [[99; 100]]; RAny [];
    RAny [[103]; [97; 98]]; RLists [[103]; [101; 102]; [97; 98]] [[99; 100]]; RLeft false; ROn false] /\
  (run (fstep true) fempty ex_fcalls).2 = Abort.
Proof. split; vm_compute; reflexivity. Qed.

(** ** a timer program *)
Section timer_example.
Import TimerModel TimerSpec TimerProofs TimerProps TimerTrace.
Definition ex_tcalls : list top :=
  [TStart ex_tal (ck 10 1 2 3 4 5) [97] []; TReal ex_tal [97] [9]; TStop ex_tal (ck 25 4 3 3 5 1) [97] []; TStart ex_tal (ck 30 4 3 3 5 1) [98; 99] [];
   TReal ex_tal [97] []; TUser ex_tal [97] []; TSystem ex_tal [97] []; TStop ex_tal (ck 31 4 3 3 5 2) [98; 99] []; TPrint ex_tal [98; 99] [];
   TPrintAll ex_tal; TReset ex_tal [97] []; TPrint ex_tal [97] []; TShutdown; TPrintAll ex_tal; TReal ex_tal [97] []].
Example ex_tcalls_ok : lawful tspec tlegal ∅ ex_tcalls.
Proof.
  pose proof ex_tal_ok as Hal. assert (Ha : str_ok [97]) by (repeat constructor; lia). assert (Hb : str_ok [98; 99]) by (repeat constructor; lia).
  unfold ex_tcalls. repeat (first [eapply lawful_cons; [|vm_compute; reflexivity|]; [cbn [tlegal]; repeat split; first [exact Hal|exact Ha|exact Hb|apply ck_ok; lia|idtac]; try apply Hal; cbn; try lia|]
    |apply lawful_last; [cbn [tlegal]; split; [exact Hal|exact Ha]|reflexivity]]).
Qed.
Example ex_tcalls_results :
  (run tstep tstart ex_tcalls).1 =
   [TDone; TTime 0; TDone; TDone; TTime 15; TTime 3; TTime 2; TDone; TThree 1 0 0; TLines [([98; 99], (1, 0, 0)%Z); ([97], (15, 3, 2)%Z)];
    TDone; TThree 0 0 0; TDone; TLines []] /\ (run tstep tstart ex_tcalls).2 = Abort.
Proof. split; vm_compute; reflexivity. Qed.
End timer_example.
