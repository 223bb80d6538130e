(** Whole programs (C22, C28, C33).  [run step s cs] (Trace.v) performs the calls
    [cs] in order; [kspec], [lspec] and [xspec] (StackTrace.v, ListTrace.v,
    SkipTrace.v) are the same calls on mathematical sequences.  [refines]: the
    results are equal and so is the end (a fatal exit, an abort, undefined
    behaviour, or a final state), unless a call that can run out of memory does. *)
From Verif Require Import Base Trace Alloc StackModel StackProofs ObjModel ObjProofs ListModel ListProofs ListHist ListProps SkipModel SkipSpec SkipProofs SkipWorld SkipHist SkipProps StackTrace ListTrace SkipTrace.
Local Open Scope nat_scope.

(** a program that destroys all its stacks leaves no memory behind *)
Theorem C22_programs : forall cs, lawful kspec klegal [] cs ->
  refines eq kcan (fun st g => (forall i, ~ alive g i) -> st.2 = sempty) cs (run kstep ([], sempty) cs) (run kspec [] cs).
Proof. exact stacks_ok. Qed.
Print Assumptions C22_programs.

(** a program that destroys all its lists can shut the pool down, which frees everything *)
Theorem C28_programs : forall cs, lawful lspec llegal (LSp [] 0 0) cs ->
  refines eq lcan (fun st g => (forall i, ~ alive (lists g) i) ->
    exists w', lst_shutdown st.2 = Ret w' /\ oblk (lobj w') = ∅ /\ lhs w' = ∅) cs
    (run lstep ([], lempty) cs) (run lspec (LSp [] 0 0) cs).
Proof. exact lists_ok. Qed.
Print Assumptions C28_programs.

Theorem C33_programs : forall K (cs : list (xcall K)), lawful xspec xlegal ([], 0) cs ->
  refines eq xcan (fun st s => (forall i, ~ alive s.1 i) ->
    exists w', sl_shutdown st.2 = Ret w' /\ oblk (sobj w') = ∅ /\ sent w' = ∅) cs
    (run xstep ([], sempty_world) cs) (run xspec ([], 0) cs).
Proof. exact @skips_ok. Qed.
Print Assumptions C33_programs.

(** ** programs with every kind of call *)
Definition P (p : positive) : ptr := Some p.
Definition ex_kcalls : list kcall :=
  [KCreate bump; KCreate bump; KIsEmpty 0; KTop 0; KPop 0; KPush bump 0 (P 7); KPush bump 1 (P 8); KPush bump 0 None; KIsEmpty 0;
   KTop 0; KPop 0; KPop 0; KPop 0; KDestroy 0; KCreate bump; KPush bump 2 (P 9); KTop 1; KTop 2; KDestroy 1; KDestroy 2].
Example ex_kcalls_ok : lawful kspec klegal [] ex_kcalls.
Proof.
  assert (Hb : forall A, (forall h : gmap positive A, bump h <> None)) by done.
  unfold ex_kcalls. repeat (first [exact I
    | eapply lawful_cons; [cbn [klegal]; first [exact bump_ok | eexists; reflexivity | split; [exact bump_ok|split; [apply Hb|eexists; reflexivity]]]|vm_compute; reflexivity|]]).
Qed.
Example ex_kcalls_results :
  (run kspec [] ex_kcalls).1 = [KDone; KDone; KInt 1; KPtr None; KPtr None; KDone; KDone; KDone; KInt 0;
    KPtr None; KPtr None; KPtr (P 7); KPtr None; KDone; KDone; KDone; KPtr (P 8); KPtr (P 9); KDone; KDone] /\
  (run kstep ([], sempty) ex_kcalls).1 = (run kspec [] ex_kcalls).1.
Proof. split; vm_compute; reflexivity. Qed.

Notation la := ex_lal.
Definition ex_lcalls : list lcall :=
  [LCreate la; LCreate la; LAppend la 0 (P 1); LAppend la 0 (P 2); LPush la 0 (P 3); LAppend la 1 (P 9); LIterate 0; LTop 0; LLength 0;
   LNthGet 0 2; LNthGet 0 4; LNthGet 0 0; LNthSet 0 2 (P 5); LMember 0 (P 5); LMember 0 (P 1); LPop la 0; LAppend la 0 (P 6); LAppend la 0 (P 7);
   LIterate 0; LSetPos 0 4 (P 8); LCutPos la 0 2; LIterate 0; LTruncate la 0 1; LIterate 0; LAppend la 0 (P 4); LTotal; LIterate 1;
   LDestroy la 0; LDestroy la 1; LShutdown; LCreate la; LAppend la 2 (P 1); LNthSet 2 2 (P 1)].
Example ex_lcalls_ok : lawful lspec llegal (LSp [] 0 0) ex_lcalls.
Proof.
  destruct ex_lal_ok as [Hal Hn].
  assert (Hd : forall L : list (option (list ptr)), forallb (fun o => match o with None => true | _ => false end) L = true -> forall i, ~ alive L i).
  { intros L HL i [v Hi]. rewrite forallb_forall in HL. specialize (HL _ (proj1 (elem_of_list_In _ _) (elem_of_list_lookup_2 _ _ _ Hi))). discriminate. }
  unfold ex_lcalls. repeat (first [exact I
    | eapply lawful_cons; [cbn [llegal lists added bytes];
        first [exact I | eexists; vm_compute; reflexivity | split; [exact Hal|first [split; [exact Hn|first [eexists; vm_compute; reflexivity|split; [reflexivity|split; [reflexivity|eexists; vm_compute; reflexivity]]]]|reflexivity]]
              | apply Hd; reflexivity]|vm_compute; reflexivity|]
    | split; [eexists; reflexivity|vm_compute; exact I]]).
Qed.
Example ex_lcalls_results :
  run lspec (LSp [] 0 0) ex_lcalls =
   ([LDone; LDone; LDone; LDone; LDone; LDone; LData [P 3; P 1; P 2]; LPtr (P 3); LInt 3;
     LPtr (P 1); LPtr None; LPtr None; LDone; LInt 1; LInt 0; LPtr (P 3); LDone; LDone;
     LData [P 5; P 2; P 6; P 7]; LDone; LDone; LData [P 5; P 2]; LDone; LData [P 5]; LDone; LInt 176; LData [P 9];
     LDone; LDone; LDone; LDone; LDone], Fatal) /\
  run lstep ([], lempty) ex_lcalls = ((run lspec (LSp [] 0 0) ex_lcalls).1, Fatal).
Proof. split; vm_compute; reflexivity. Qed.

Notation sa := ex_sal.
Definition ex_xcalls : list (xcall Z) :=
  [XCreate sa zcmp zkey; XInsert sa (ones 3) 0 (P 5); XInsert sa (ones 0) 0 (P 9); XCreate sa (fun a b => zcmp b a) zkey;
   XInsert sa (ones 40) 0 (P 2); XInsert sa (ones 1) 1 (P 2); XInsert sa (ones 2) 1 (P 4); XIterate 0; XIterate 1; XFind 0 9%Z; XFind 0 4%Z;
   XDelete 0 (P 5); XFind 0 5%Z; XIterate 0; XDestroy sa 1; XDestroy sa 0; XShutdown; XCreate sa zcmp zkey; XInsert sa (ones 1) 2 (P 5); XInsert sa (ones 1) 2 (P 5)].
Lemma zcmp_rev : order (fun a b => zcmp b a).
Proof. destruct zcmp_order as [H1 H2]. constructor; [intros a b; apply H1|intros a b c Hab Hbc; exact (H2 _ _ _ Hbc Hab)]. Qed.
Example ex_xcalls_ok : lawful xspec xlegal ([], 0) ex_xcalls.
Proof.
  destruct SkipProps.ex_sal_ok as [Hal Hn].
  assert (Hd : forall L : list (option (glist Z)), forallb (fun o => match o with None => true | _ => false end) L = true -> forall i, ~ alive L i).
  { intros L HL i [v Hi]. rewrite forallb_forall in HL. specialize (HL _ (proj1 (elem_of_list_In _ _) (elem_of_list_lookup_2 _ _ _ Hi))). discriminate. }
  assert (Hc : forall s cmp key, order cmp -> (Z.of_nat s.2 <? 2 ^ 31 - 1)%Z = true -> xlegal s (XCreate sa cmp key)).
  { intros s cmp key Ho Hs. split; [exact Hal|]. split; [exact Hn|]. split; [exact Ho|]. lia. }
  assert (Hi : forall s i d rnd, (match s.1 !! i with Some (Some g) => (Z.of_nat (length (g_data g)) <? 2 ^ 31 - 2)%Z | _ => false end) = true -> xlegal s (XInsert sa rnd i d)).
  { intros s i d rnd Hs. split; [exact Hal|]. destruct (s.1 !! i) as [[g|]|]; try discriminate. exists g. split; [done|lia]. }
  unfold ex_xcalls. repeat (first [exact I
    | eapply lawful_cons; [first [apply Hc; [first [exact zcmp_order|exact zcmp_rev]|reflexivity] | apply Hi; vm_compute; reflexivity
        | cbn [xlegal]; first [eexists; reflexivity | split; [exact Hal|split; [exact Hn|eexists; reflexivity]] | apply Hd; reflexivity]]|vm_compute; reflexivity|]
    | eapply lawful_last; [apply Hi; vm_compute; reflexivity|vm_compute; reflexivity]]).
Qed.
Example ex_xcalls_results :
  (run xspec ([], 0) ex_xcalls).1 =
   [XDone; XDone; XDone; XDone; XDone; XDone; XDone; XData [P 2; P 5; P 9]; XData [P 4; P 2]; XPtr (P 9); XPtr None;
    XDone; XPtr None; XData [P 2; P 9]; XDone; XDone; XDone; XDone; XDone] /\
  run xstep ([], sempty_world) ex_xcalls = ((run xspec ([], 0) ex_xcalls).1, Abort).
Proof. split; vm_compute; reflexivity. Qed.
