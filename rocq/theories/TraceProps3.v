(** Whole programs on object pools (C23) and on string memories (C25).  See TraceProps.v for [run],
    [lawful] and [refines].  ObjTrace.v has the calls on object pools and [ospec]: a pool is the list
    of the contents of its objects, numbered in the order in which they were first handed out, and
    the stack of the returned ones; MemTrace.v has the calls on string memories and [mspec]: a
    memory is the list of the byte strings it has handed out. *)
From Verif Require Import Base Trace Alloc CStr StackModel StackProofs ObjModel ObjProofs ObjHist ObjProps ObjTrace.
From Verif Require Import MemModel MemProofs MemHist MemProps MemTrace.
Local Open Scope nat_scope.

(** A hand-out is the object returned last, if one is returned, with what was stored in it before;
    otherwise a new object.  A program that destroys all its pools leaves no memory behind. *)
Theorem C23_programs : forall cs, lawful ospec olegal [] cs ->
  refines oeq ocan (fun st L => (forall i, ~ alive L i) ->
      oblk st.2 = ∅ /\ oinf st.2 = ∅ /\ stks (osh st.2) = ∅ /\ nodes (osh st.2) = ∅) cs
    (run ostep ([], [], oempty) cs) (run ospec [] cs).
Proof. exact objects_ok. Qed.
Print Assumptions C23_programs.

Theorem C25_programs : forall cs, lawful mspec mlegal [] cs ->
  refines eq mcan (fun st L => (forall i, ~ alive L i) ->
      mblk st.2 = ∅ /\ minf st.2 = ∅ /\ stks (msh st.2) = ∅ /\ nodes (msh st.2) = ∅) cs
    (run mstep ([], [], mempty) cs) (run mspec [] cs).
Proof. exact string_memories_ok. Qed.
Print Assumptions C25_programs.

(** ** C88: what was returned last is handed out first, unchanged, and malloc is not asked *)
Theorem C88_last_returned_first : forall al al' w P i g a, obj_history w P -> oal_ok al -> nodes_fine al -> P !! i = Some g ->
  a ∈ p_live g -> (Z.of_nat (length (p_log g)) < 2 ^ 31 - 1)%Z ->
  exists w1 w2, mem_free_object al w i (Some a) = Ret w1 /\ mem_get_object al' w1 i = Ret (w2, a) /\ oblk w2 = oblk w.
Proof. exact free_get. Qed.
Print Assumptions C88_last_returned_first.
(** ** a program with two pools: objects 0, 1, 2 of the first; 0 and 2 are returned, and come back in
    the opposite order with what they held *)
Notation oa := ex_oal.
Definition ex_ocalls : list oop :=
  [OCreate oa 3; OGet oa 0; OGetEmpty oa 0; OGet oa 0; OWrite 0 0 [1; 2; 3]%N; OWrite 0 2 [7; 8; 9]%N; OCreate oa 1; OGetEmpty oa 1;
   OFree oa 0 0; OFree oa 0 2; OStat true 0; OGet oa 0; ORead 0 2; OGetEmpty oa 0; ORead 0 0; ORead 0 1; OGet oa 0; ORead 0 3; ORead 1 0;
   OStat true 0; OStat true 1; ODestroy 0; ORead 1 0; ODestroy 1].
Lemma ex_oal_nodes : nodes_fine oa.
Proof. intros h. done. Qed.
Definition in_free (n : nat) (l : list nat) : bool := existsb (Nat.eqb n) l.
Lemma in_free_ok n l : in_free n l = false -> n ∉ l.
Proof.
  intros H Hn. apply elem_of_list_In in Hn. assert (in_free n l = true) as E; [|congruence].
  apply existsb_exists. exists n. split; [done|]. apply Nat.eqb_refl.
Qed.
(** [olegal] can be computed, but for what the allocator does *)
Definition ochk (L : list (option osp)) (c : oop) : bool :=
  let got (i n : nat) (f : osp -> bool) :=
    match L !! i with Some (Some P) => (n <? length (z_objs P)) && negb (in_free n (z_free P)) && f P | _ => false end in
  let al i := match L !! i with Some (Some _) => true | _ => false end in
  match c with
  | OCreate _ _ => true
  | OGet _ i | OGetEmpty _ i => match L !! i with Some (Some P) => (Z.of_nat (z_hand P) <? 2 ^ 31 - 1)%Z | _ => false end
  | OFree _ i n | ORead i n => got i n (fun _ => true)
  | OWrite i n b => got i n (fun P => (N.of_nat (length b) =? z_bytes P)%N)
  | OStat _ i | ODestroy i => al i
  end.
Definition oalc (c : oop) : Prop :=
  match c with OCreate al _ => oal_ok al | OGet al _ | OGetEmpty al _ | OFree al _ _ => oal_ok al /\ nodes_fine al | _ => True end.
Lemma ochk_ok L c : oalc c -> ochk L c = true -> olegal L c.
Proof.
  assert (Hg : forall i n (f : osp -> bool) (g : osp -> Prop), (forall P, f P = true -> g P) ->
    match L !! i with Some (Some P) => (n <? length (z_objs P)) && negb (in_free n (z_free P)) && f P | _ => false end = true -> holds_obj L i n g).
  { intros i n f g Hfg H. destruct (L !! i) as [[P|]|] eqn:E; try discriminate. apply andb_prop in H as [H1 H3]. apply andb_prop in H1 as [H1 H2].
    exists P. split; [exact E|]. split; [by apply Nat.ltb_lt|]. split; [apply in_free_ok; by destruct (in_free n (z_free P))|by apply Hfg]. }
  assert (Hv : forall i, (match L !! i with Some (Some _) => true | _ => false end) = true -> alive L i).
  { intros i H. destruct (L !! i) as [[P|]|] eqn:E; try discriminate. by exists P. }
  destruct c as [al z|al i|al i|al i n|i n b|i n|mem i|i]; cbn [oalc ochk olegal]; intros Ha H; try (by eauto).
  - destruct Ha as [A1 A2]. split; [done|]. split; [done|]. destruct (L !! i) as [[P|]|] eqn:E; try discriminate. exists P. split; [done|]. lia.
  - destruct Ha as [A1 A2]. split; [done|]. split; [done|]. destruct (L !! i) as [[P|]|] eqn:E; try discriminate. exists P. split; [done|]. lia.
  - destruct Ha as [A1 A2]. split; [done|]. split; [done|]. by apply (Hg i n (fun _ => true)).
  - apply (Hg i n (fun P => (N.of_nat (length b) =? z_bytes P)%N)); [|exact H]. intros P. apply N.eqb_eq.
  - by apply (Hg i n (fun _ => true)).
Qed.
Fixpoint oall_chk (L : list (option osp)) (cs : list oop) : bool :=
  match cs with [] => true | c :: cs' => ochk L c && match ospec L c with Ret (L', _) => oall_chk L' cs' | _ => true end end.
Lemma oall_chk_ok cs : forall L, Forall oalc cs -> oall_chk L cs = true -> lawful ospec olegal L cs.
Proof.
  induction cs as [|c cs IH]; intros L Ha; cbn [oall_chk lawful]; [done|]. apply Forall_cons in Ha as [Ha Ha'].
  intros [H1 H2]%andb_prop. split; [by apply ochk_ok|]. destruct (ospec L c) as [[L' r]| | | |]; try exact I. by apply IH.
Qed.
Example ex_ocalls_ok : lawful ospec olegal [] ex_ocalls.
Proof.
  apply oall_chk_ok; [|vm_compute; reflexivity]. unfold ex_ocalls.
  repeat (apply Forall_cons; split; [first [exact (conj ex_oal_ok ex_oal_nodes)|exact ex_oal_ok|exact I]|]). apply Forall_nil. exact I.
Qed.
Example ex_ocalls_results :
  (run ospec [] ex_ocalls).1 =
   [ODone; OObj 0; OObj 1; OObj 2; ODone; ODone; ODone; OObj 0;
    ODone; ODone; OCounts 3 1 0 3; OObj 2; OBytes [7; 8; 9]%N; OObj 0; OBytes [0; 0; 0]%N; OBytes [0; 0; 0]%N; OObj 3; OSome 3; OBytes [0]%N;
    OCounts 4 4 2 3; OCounts 1 1 0 1; ODone; OBytes [0]%N; ODone] /\
  Forall2 oeq (run ostep ([], [], oempty) ex_ocalls).1 (run ospec [] ex_ocalls).1.
Proof.
  split; [vm_compute; reflexivity|].
  destruct (C23_programs ex_ocalls ex_ocalls_ok) as [[H _]|(H & o & Ho & Hc & _)]; [exact H|].
  exfalso. apply (f_equal (fun r => match r with Fatal => false | _ => true end)) in H. vm_compute in H. discriminate H.
Qed.

(** ** a program with two string memories *)
Notation ma := ex_mal.
Definition ex_mcalls : list mop :=
  [MCreate ma; MCopy ma 0 [97; 98]%N [5]%N; MGrow ma 0 [120; 1]%N 1; MCreate ma; MCopyn ma 1 [112; 113; 0]%N 1; MGrow ma 0 [121; 122]%N 2;
   MFinish ma 0; MFinish ma 0; MCopyn ma 0 [112; 0; 7]%N 1; MRead 0 0; MRead 0 1; MRead 0 2; MRead 0 3; MRead 1 0; MStats true 0; MStats true 1;
   MDestroy 0; MRead 1 0; MDestroy 1].
Definition mchk (L : list (option msp)) (c : mop) : bool :=
  let rm i n := match L !! i with Some (Some P) => (Z.of_nat (length (strs P)) + 1 <? 2 ^ 31)%Z && (mbytes P + n <? 2 ^ 31)%Z | _ => false end in
  match c with
  | MCreate _ => true
  | MCopy _ i s _ => forallb (fun c => (0 <? c)%N && (c <? 256)%N) s && rm i (Z.of_nat (length s) + 1)%Z
  | MCopyn _ i src len => (0 <=? len)%Z && (len <? Z.of_nat (length src))%Z && rm i (len + 1)%Z
  | MGrow _ i src len => (0 <=? len)%Z && (len <=? Z.of_nat (length src))%Z && rm i len
  | MFinish _ i => rm i 1%Z
  | MRead i _ | MStats _ i | MDestroy i => match L !! i with Some (Some _) => true | _ => false end
  end.
Definition malc (c : mop) : Prop :=
  match c with MCreate al => malloc_good al | MCopy al _ _ _ | MCopyn al _ _ _ | MGrow al _ _ _ | MFinish al _ => mal_ok al | _ => True end.
Lemma mchk_ok L c : malc c -> mchk L c = true -> mlegal L c.
Proof.
  assert (Hs : forall s, forallb (fun c => (0 <? c)%N && (c <? 256)%N) s = true -> str_ok s).
  { intros s H. apply Forall_forall. intros x Hx. apply elem_of_list_In in Hx. rewrite forallb_forall in H. specialize (H x Hx). lia. }
  assert (Hr : forall i n, (match L !! i with Some (Some P) => (Z.of_nat (length (strs P)) + 1 <? 2 ^ 31)%Z && (mbytes P + n <? 2 ^ 31)%Z | _ => false end) = true -> mroom L i n).
  { intros i n H. destruct (L !! i) as [[P|]|] eqn:E; try discriminate. apply andb_prop in H as [H1 H2]. exists P. split; [exact E|]. lia. }
  assert (Hv : forall i, (match L !! i with Some (Some _) => true | _ => false end) = true -> alive L i).
  { intros i H. destruct (L !! i) as [[P|]|] eqn:E; try discriminate. by exists P. }
  destruct c; cbn [malc mchk mlegal]; intros Ha H; repeat match goal with H : _ && _ = true |- _ => apply andb_prop in H as [H ?] end; eauto 10.
  - split; [done|]. split; [lia|eauto].
  - split; [done|]. split; [lia|eauto].
Qed.
Fixpoint mall_chk (L : list (option msp)) (cs : list mop) : bool :=
  match cs with [] => true | c :: cs' => mchk L c && match mspec L c with Ret (L', _) => mall_chk L' cs' | _ => true end end.
Lemma mall_chk_ok cs : forall L, Forall malc cs -> mall_chk L cs = true -> lawful mspec mlegal L cs.
Proof.
  induction cs as [|c cs IH]; intros L Ha; cbn [mall_chk lawful]; [done|]. apply Forall_cons in Ha as [Ha Ha'].
  intros [H1 H2]%andb_prop. split; [by apply mchk_ok|]. destruct (mspec L c) as [[L' r]| | | |]; try exact I. by apply IH.
Qed.
Example ex_mcalls_ok : lawful mspec mlegal [] ex_mcalls.
Proof.
  apply mall_chk_ok; [|vm_compute; reflexivity]. destruct ex_mal_ok as (Hal & Hn & _). unfold ex_mcalls.
  repeat (apply Forall_cons; split; [first [exact (conj Hal Hn)|exact Hal|exact I]|]). apply Forall_nil. exact I.
Qed.
Example ex_mcalls_results :
  (run mspec [] ex_mcalls).1 =
   [MDone; MName 0; MDone; MDone; MName 0; MDone;
    MName 1; MName 2; MName 3; MBytes [97; 98; 0]%N; MBytes [120; 121; 122; 0]%N; MBytes [0]%N; MBytes [112; 0]%N; MBytes [112; 113]%N; MCount 4 10; MCount 1 2;
    MDone; MBytes [112; 113]%N; MDone] /\
  (run mstep ([], [], mempty) ex_mcalls).1 = (run mspec [] ex_mcalls).1.
Proof. split; vm_compute; reflexivity. Qed.
