(** C89, whole programs: any sequence of calls of debug.c, log.c, error.c and PRINTF. *)
From Verif Require Import Base CStr FlagModel FlagSpec FlagHist FlagTrace.
From Verif Require Import LogModel LogSpec LogProofs LogHist LogProps LogProps2 LogTrace DebugModel.
From Verif Require Trace.

(** The calls: those of debug.c, those of log.c and error.c, and PRINTF. *)
Inductive dop :=
| DFlag (c : fop)
| DLog (c : os * lop)
| DPrintf (o : os) (flag : N) (msg : list N).
Inductive dres := DFlagged (r : fres) | DLogged (r : lout).

(** ** the model *)
Definition dstep (st : fstate * (lstate * bool)) (c : dop) : res (fstate * (lstate * bool) * dres) :=
  let '(s, w) := st in
  match c with
  | DFlag c => '(s', r) ← fstep true s c; Ret (s', w, DFlagged r)
  | DLog c => '(w', r) ← lstep w c; Ret (s, w', DLogged r)
  | DPrintf o f m => '(w', r) ← lstepped (fun _ : unit => None) w.1 (PRINTF o s f m w.1); Ret (s, w', DLogged r)
  end.

(** ** the specification: the names and the bits that are on; the sinks *)
(** is one of the thirty low bits of the flag on, in the set that the flag is tested in? *)
Definition flag_on (F : fspst) (f : N) : bool := existsb (fun i => N.testbit f i && F.2 (seen f) i) bits30.
Definition dspec (x : fspst * lsp) (c : dop) : res (fspst * lsp * dres) :=
  let '(F, l) := x in
  match c with
  | DFlag c => '(F', r) ← fspec true F c; Ret (F', l, DFlagged r)
  | DLog c => '(l', r) ← lspec l c; Ret (F, l', DLogged r)
  | DPrintf o f m =>
      if flag_on F f then '(l', r) ← l_acted l None (l_empty l) (deliver o (l_sinks l) None 6 m); Ret (F, l', DLogged r)
      else Ret (F, l, DLogged ([], RReturns None))
  end.
(** no call after the end; PRINTF gets a flag of 32 bits *)
Definition dlegal (x : fspst * lsp) (c : dop) : Prop :=
  let '(F, l) := x in
  match c with
  | DFlag c => l_ended l = false /\ flegal true F c
  | DLog c => llegal l c
  | DPrintf _ f _ => l_ended l = false /\ (f < 2 ^ 32)%N
  end.
Definition dcan (c : dop) : Prop := match c with DFlag c => fcan c | _ => False end.
Definition deq (r r' : dres) : Prop :=
  match r, r' with DFlagged r, DFlagged r' => feq r r' | DLogged r, DLogged r' => r = r' | _, _ => False end.
Definition drel (st : fstate * (lstate * bool)) (x : fspst * lsp) : Prop := frel st.1 x.1 /\ lR st.2 x.2.

(** what dbg_test answers *)
Lemma test_on s F f : frel s F -> (f < 2 ^ 32)%N -> exists t, dbg_test s f = Ret t /\ (t =? 0)%Z = negb (flag_on F f).
Proof.
  intros H Hf. pose proof (fstep_ok true s F (FTest f) H Hf) as E. unfold flag_on. destruct F as [l on]. cbn [snd fstep fspec] in *.
  set (b := existsb _ _) in *. clearbody b.
  destruct (dbg_test s f) as [t| | | |]; cbn in E; try done. destruct E as [_ E]. injection E as E. exists t. split; [done|].
  by rewrite <- E, negb_involutive.
Qed.
Lemma debug_step_ok st x c : drel st x -> dlegal x c -> Trace.call_ok deq dcan drel c (dstep st c) (dspec x c).
Proof.
  destruct st as [s w], x as [F l]. intros [HF HL] Hc. cbn [fst snd] in HF, HL. destruct c as [c|c|o f m]; cbn [dstep dspec] in *.
  - destruct Hc as [He Hc]. pose proof (fstep_ok true s F c HF Hc) as E. destruct (fstep true s c) as [[s' r]| | | |], (fspec true F c) as [[F' r']| | | |]; cbn in *; try done.
    destruct E as [E1 E2]. by split.
  - pose proof (log_step_ok w l c HL Hc) as E. destruct (lstep w c) as [[w' r]| | | |], (lspec l c) as [[l' r']| | | |]; cbn in *; try done.
    destruct E as [E1 E2]. by split.
  - destruct Hc as [He Hf]. destruct (test_on s F f HF Hf) as (t & E & Et). unfold PRINTF. rewrite E. cbn [mbind res_bind]. rewrite Et.
    destruct HL as (H1 & H2 & H3). specialize (H3 He). destruct (flag_on F f); cbn [negb].
    + pose proof (step_of_sim w.1 l (l_empty l) _ _ (o, LGetFacility) H2 (deliver_sim o w.1 (l_sinks l) (l_empty l) None 6 m H3)) as E2.
      unfold log_info. destruct (lstepped _ _ _) as [[w' r]| | | |], (l_acted _ _ _ _) as [[l' r']| | | |]; cbn in *; try done.
      destruct E2 as [E1 E2]. by split.
    + cbn. rewrite drop_all. split; [|done]. split; [done|]. split; [exact (eq_sym He)|]. split; [exact H2|]. intros _. exact H3.
Qed.

(** what is left of the log *)
Definition dfinal (st : fstate * (lstate * bool)) (x : fspst * lsp) : Prop := lfinal st.2 x.2.
Definition d_start : fspst * lsp := ((None, fun _ _ => false), l_start).
Lemma debugs_ok cs : Trace.lawful dspec dlegal d_start cs ->
  Trace.refines deq dcan dfinal cs (Trace.run dstep (fempty, (lstart, false)) cs) (Trace.run dspec d_start cs).
Proof.
  intros Hl. eapply Trace.refines_Q; [|eapply Trace.run_refines; [apply debug_step_ok| |exact Hl]].
  - intros st x [_ (H1 & H2 & H3)]. split; [done|]. split; [done|]. intros He. specialize (H3 He). split; apply H3.
  - split; [exists []; split; [apply finv_start|done]|]. split; [done|]. split; [done|]. intros _. apply linv_start.
Qed.
