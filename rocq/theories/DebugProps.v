(** Property C89: debugging messages (the macro PRINTF of maa.h).
    FlagTrace.v and LogTrace.v have the specifications of debug.c and of log.c/error.c; DebugTrace.v
    puts them together: [dspec]. *)
From Verif Require Import Base CStr Alloc HashModel HashSpec HashProofs HashOps HashHist HashFnModel HashFnProofs NameTab FlagModel FlagSpec FlagHist FlagProps FlagTrace.
From Verif Require Import LogModel LogSpec LogProofs LogHist LogProps LogProps2 LogTrace TraceProps7 DebugModel DebugTrace.
From Verif Require Import Trace.
From Coq Require Import String.
Notation length := List.length.

(** The flag is off: nothing happens, the log is as it was.  [s] is any state of the flags, [l] the
    names, [ev] what was done to the flags; [w] any state of the log. *)
Theorem C89_off s l ev f o m w : flag_history true s l ev -> (f < 2 ^ 32)%N ->
  (forall i, (i < 30)%N -> N.testbit f i = true -> lit ev (seen f) i = false) ->
  PRINTF o s f m w = Ret (w, Go tt).
Proof.
  intros Hh Hf Hoff. destruct (C43_test true s l ev f Hh Hf) as (r & E & _ & Hr). unfold PRINTF. rewrite E. cbn [mbind res_bind].
  destruct (r =? 0)%Z eqn:Er; [done|]. exfalso. assert (r <> 0%Z) as H by lia. apply Hr in H as (i & Hi & Hb & Hl).
  by rewrite (Hoff i Hi Hb) in Hl.
Qed.
(** One of its bits is on: the message is sent to each of the sinks that are open and nowhere else, as
    log_info does ([delivered]: LogSpec.v; [ds]: the directories made for a new file). *)
Theorem C89_on s l ev f i o m w G g : flag_history true s l ev -> (f < 2 ^ 32)%N ->
  (i < 30)%N -> N.testbit f i = true -> lit ev (seen f) i = true ->
  log_history w G g -> can_write o G ->
  exists w' ds, PRINTF o s f m w = Ret (w', Go tt) /\ dirs_for o G ds /\ ltr w' = ltr w ++ delivered o ds G None 6 m.
Proof.
  intros Hh Hf Hi Hb Hl Hw Hc. destruct (C43_test true s l ev f Hh Hf) as (r & E & _ & Hr). unfold PRINTF. rewrite E. cbn [mbind res_bind].
  assert (Hn : r <> 0%Z) by (apply Hr; eauto). destruct (r =? 0)%Z eqn:Er; [lia|]. exact (C52_info w G g o m Hw Hc).
Qed.
(** With no sink open the flags do not matter. *)
Theorem C89_no_log s l ev f o m w G g : flag_history true s l ev -> (f < 2 ^ 32)%N -> log_history w G g -> open_sinks G = 0%Z ->
  exists w', PRINTF o s f m w = Ret (w', Go tt) /\ ltr w' = ltr w.
Proof.
  intros Hh Hf Hw Hn. destruct (C43_test true s l ev f Hh Hf) as (r & E & _ & _). unfold PRINTF. rewrite E. cbn [mbind res_bind].
  destruct (r =? 0)%Z; [by eexists|]. unfold open_sinks in Hn.
  assert (Hc : can_write o G) by (unfold can_write; destruct (s_file G) as [[[]]|]; [destruct (s_stream G), (s_syslog G); cbn in Hn; lia|exact I]).
  destruct (C52_info w G g o m Hw Hc) as (w' & ds & E2 & _ & T). exists w'. split; [done|]. rewrite T.
  unfold delivered. destruct (s_file G) as [[[]]|], (s_stream G), (s_syslog G); cbn in Hn; try lia. cbn. by rewrite app_nil_r.
Qed.
(** Every program of calls of debug.c, log.c, error.c and PRINTF does what the specification says. *)
Theorem C89_programs : forall cs, lawful dspec dlegal d_start cs ->
  refines deq dcan dfinal cs (run dstep (fempty, (lstart, false)) cs) (run dspec d_start cs).
Proof. exact debugs_ok. Qed.
Print Assumptions C89_off.
Print Assumptions C89_on.
Print Assumptions C89_no_log.
Print Assumptions C89_programs.

(** ** a program: messages under two flags *)
Definition fa : N := fl 0 0.
Definition fb : N := fl 3 4.
Definition ex_dcalls : list dop :=
  [DPrintf (os_at 40) fa (bytes "early"); DFlag (FRegister ex_fal fa [97; 98]%N []); DFlag (FRegister ex_fal fb [99; 100]%N []);
   DLog (os_at 50, LCall (COpenFile (bytes "me") fmt0)); DPrintf (os_at 60) fa (bytes "off");
   DFlag (FSet [97; 98]%N []); DPrintf (os_at 60) fa (bytes "one"); DPrintf (os_at 60) fb (bytes "off"); DFlag (FOn fb);
   DPrintf (os_at 150) fb (bytes "two"); DFlag (FSet [45; 97; 98]%N []); DPrintf (os_at 160) fa (bytes "off"); DPrintf (os_at 160) fb (bytes "three");
   DLog (os_at 170, LCall CCloseFile); DPrintf (os_at 170) fb (bytes "nobody hears"); DLog (os_at 170, LFatal None (bytes "end"))].
Example ex_dcalls_ok : lawful dspec dlegal d_start ex_dcalls.
Proof.
  assert (Hal : halloc_ok ex_fal) by apply bump_ok.
  assert (Hs : forall s, forallb (fun c => (0 <? c)%N && (c <? 256)%N) s = true -> str_ok s).
  { intros s H. apply Forall_forall. intros x Hx. apply elem_of_list_In in Hx. rewrite forallb_forall in H. specialize (H x Hx). lia. }
  assert (Hr : forall F l f n rest, l_ended l = false -> forallb (fun c => (0 <? c)%N && (c <? 256)%N) n = true -> (f <? 2 ^ 64)%N = true -> dlegal (F, l) (DFlag (FRegister ex_fal f n rest))).
  { intros F l f n rest He H1 H2. split; [done|]. split; [exact Hal|]. split; [by apply Hs|lia]. }
  assert (Ht : forall F l c n rest, l_ended l = false -> forallb (fun c => (0 <? c)%N && (c <? 256)%N) (c :: n) = true -> dlegal (F, l) (DFlag (FSet (c :: n) rest))).
  { intros F l c n rest He H1. split; [done|]. split; [by apply Hs|done]. }
  assert (Ho : forall F l f, l_ended l = false -> (f <? 2 ^ 64)%N = true -> dlegal (F, l) (DFlag (FOn f))).
  { intros F l f He H. split; [done|]. split; [done|lia]. }
  assert (Hp : forall F l o f m, l_ended l = false -> (f <? 2 ^ 32)%N = true -> dlegal (F, l) (DPrintf o f m)).
  { intros F l o f m He H. split; [done|lia]. }
  assert (Hl : forall F l o c, l_ended l = false -> (Z.of_nat (l_empty l) <? 2000000000)%Z = true ->
    match c with LCall (COpenFile _ f) => (Z.of_nat (length f) <? 2 ^ 29)%Z | _ => true end = true -> dlegal (F, l) (DLog (o, c))).
  { intros F l o c He H1 H2. split; [done|]. split; [|unfold small; lia]. destruct c as [[]| | | | |]; try exact I. unfold LogSpec.call_ok. apply Z.ltb_lt in H2. exact H2. }
  unfold ex_dcalls, d_start.
  repeat (eapply lawful_cons; [|vm_compute; reflexivity|];
    [first [apply Hr; vm_compute; reflexivity|apply Ht; vm_compute; reflexivity|apply Ho; vm_compute; reflexivity|apply Hp; vm_compute; reflexivity|apply Hl; vm_compute; reflexivity]|]).
  exact I.
Qed.
Example ex_dcalls_results :
  (run dspec d_start ex_dcalls).1 =
   [DLogged ([], RReturns None); DFlagged RDone; DFlagged RDone;
    DLogged ([EMkdir (bytes "/var"); EMkdir (bytes "/var/log"); EOpen (bytes "/var/log/a1") (Some 3%N)], RReturns None);
    DLogged ([], RReturns None); DFlagged RDone;
    DLogged ([EWrite 3 (stamp1 ++ bytes "one" ++ nl) None; EWrite 3 (stamp1 ++ bytes "one" ++ nl) (Some 10%nat)], RReturns None);
    DLogged ([], RReturns None); DFlagged RDone;
    DLogged ([EClose 3; EMkdir (bytes "/var"); EMkdir (bytes "/var/log"); EOpen (bytes "/var/log/a2") (Some 4%N);
      EWrite 4 (stamp1 ++ bytes "two" ++ nl) None; EWrite 4 (stamp1 ++ bytes "two" ++ nl) (Some 10%nat)], RReturns None);
    DFlagged RDone; DLogged ([], RReturns None);
    DLogged ([EWrite 4 (stamp1 ++ bytes "three" ++ nl) None; EWrite 4 (stamp1 ++ bytes "three" ++ nl) (Some 10%nat)], RReturns None);
    DLogged ([EClose 4], RReturns None); DLogged ([], RReturns None);
    DLogged ([EFlush Stdout; EPrint Stderr (bytes "end"); EPrint Stderr nl; EFlush Stderr; EFlush Stdout], RExits 1)].
Proof. vm_compute. reflexivity. Qed.
Example ex_dcalls_model : (run dstep (fempty, (lstart, false)) ex_dcalls).1 = (run dspec d_start ex_dcalls).1.
Proof. vm_compute. reflexivity. Qed.
(** ** the hypotheses of [C89_off] and [C89_on] *)
Example C89_example : exists s l,
  flag_history true s (Some l) [ESet (fl 1 3)] /\ lit [ESet (fl 1 3)] (seen (fl 1 3)) 3 = true /\ N.testbit (fl 1 3) 3 = true /\
  lit [ESet (fl 1 3)] (seen (fl 0 0)) 0 = false /\ log_history LogProps.ex4 exG 0 /\ can_write (os_at 200) exG.
Proof.
  destruct (C43_reachable true) as (l & Hh & _). destruct (C43_set_flag FlagProps.ex1 (Some l) [] 1 3 Hh eq_refl eq_refl) as (s & _ & Hh2 & _).
  exists s, l. split; [exact Hh2|]. split; [reflexivity|]. split; [reflexivity|]. split; [reflexivity|].
  split; [exact C52_example_history|]. exact (proj1 C53_example_can_write).
Qed.
