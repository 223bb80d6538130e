(** Whole programs on string pools (C36).  See TraceProps.v for [run], [lawful] and [refines], and
    StrTrace.v for the calls and for [pspec], the same calls on lists of byte strings: a pool is the
    list of the strings it has handed out, numbered in the order in which the program first saw
    them, and a finite map from contents to the number of the interned string.  So two calls return
    the same pointer exactly when [pspec] says so, and what every pointer shows is in [PRead]. *)
From Verif Require Import Base Trace Alloc CStr StackModel StackProofs ObjModel ObjProofs MemModel MemProofs MemHist.
From Verif Require Import HashModel HashProofs HashFnModel StrModel StrProofs StrHist StrProps StrTrace.
Local Open Scope nat_scope.

(** a program that destroys all its pools leaves no memory behind *)
Theorem C36_programs : forall cs, lawful pspec plegal [] cs ->
  refines peq pcan (fun st L => (forall i, ~ alive L i) ->
      pools st.2 = ∅ /\ mblk (pmem st.2) = ∅ /\ minf (pmem st.2) = ∅ /\
      stks (msh (pmem st.2)) = ∅ /\ nodes (msh (pmem st.2)) = ∅) cs
    (run pstep ([], [], pempty) cs) (run pspec [] cs).
Proof. exact strings_ok. Qed.
Print Assumptions C36_programs.

(** ** a program: "ab" and "b" in two pools; the pieces "a" and "b" grown to "ab" *)
Notation pa := ex_pal.
Notation A := 97%N. Notation B := 98%N.
Definition ex_pcalls : list pop :=
  [PCreate pa; PFind pa 0 [A; B] [7]%N; PFind pa 0 [B] []; PFind pa 0 [A; B] []; PCreate pa; PFind pa 1 [A; B] [];
   PExists 0 [A] []; PExists 0 [B] [5]%N; PCopy pa 0 [A; B] []; PCopyn pa 0 [A; B; A] 1%Z; PGrow pa 0 [A; A] 1%Z; PGrow pa 0 [B] 1%Z;
   PFinish pa 0; PFind pa 0 [A; B] []; PGrow pa 0 [A; 0; B]%N 3%Z; PFinish pa 0; PFind pa 0 [A] [];
   PRead 0 0; PRead 0 2; PRead 0 3; PRead 0 4; PRead 0 5; PRead 1 0; PAll 0; PStats pa 0; PStats pa 1; PDestroy 0; PRead 1 0; PDestroy 1].
(** [plegal] can be computed, but for what the allocator does *)
Definition chk (L : list (option psp)) (c : pop) : bool :=
  let al i := match L !! i with Some (Some _) => true | _ => false end in
  let str s := forallb (fun c => (0 <? c)%N && (c <? 256)%N) s in
  let rm i n := match L !! i with Some (Some P) => (Z.of_nat (length (objs P)) + 1 <? 2 ^ 31)%Z && (nbytes P + n <? 2 ^ 31)%Z | _ => false end in
  match c with
  | PCreate _ => true
  | PDestroy i | PAll i | PRead i _ => al i
  | PFind _ i s _ | PCopy _ i s _ => str s && rm i (Z.of_nat (length s) + 1)%Z
  | PExists i s _ => str s && al i
  | PCopyn _ i src len => (0 <=? len)%Z && (len <? Z.of_nat (length src))%Z && rm i (len + 1)%Z
  | PGrow _ i src len => (0 <=? len)%Z && (len <=? Z.of_nat (length src))%Z && forallb (fun c => (c <? 256)%N) (take (Z.to_nat len) src) && rm i len
  | PFinish _ i => rm i 2%Z
  | PStats _ i => match L !! i with Some (Some P) => (Z.of_nat (length (objs P)) <? 2 ^ 31)%Z | _ => false end
  end.
Definition alc (c : pop) : Prop :=
  match c with PCreate al | PFind al _ _ _ | PCopy al _ _ _ | PCopyn al _ _ _ | PGrow al _ _ _ | PFinish al _ => palloc_ok al | _ => True end.
Lemma chk_ok L c : alc c -> chk L c = true -> plegal L c.
Proof.
  assert (Hs : forall s, forallb (fun c => (0 <? c)%N && (c <? 256)%N) s = true -> str_ok s).
  { intros s H. apply Forall_forall. intros x Hx. apply elem_of_list_In in Hx. rewrite forallb_forall in H. specialize (H x Hx). lia. }
  assert (Hb : forall s, forallb (fun c => (c <? 256)%N) s = true -> Forall byte_ok s).
  { intros s H. apply Forall_forall. intros x Hx. apply elem_of_list_In in Hx. rewrite forallb_forall in H. specialize (H x Hx). unfold byte_ok. lia. }
  assert (Hr : forall i n, (match L !! i with Some (Some P) => (Z.of_nat (length (objs P)) + 1 <? 2 ^ 31)%Z && (nbytes P + n <? 2 ^ 31)%Z | _ => false end) = true -> proom L i n).
  { intros i n H. destruct (L !! i) as [[P|]|] eqn:E; try discriminate. apply andb_prop in H as [H1 H2]. exists P. split; [exact E|]. lia. }
  assert (Hv : forall i, (match L !! i with Some (Some _) => true | _ => false end) = true -> alive L i).
  { intros i H. destruct (L !! i) as [[P|]|] eqn:E; try discriminate. by exists P. }
  destruct c; cbn [alc chk plegal]; intros Ha H; repeat match goal with H : _ && _ = true |- _ => apply andb_prop in H as [H ?] end; eauto 10.
  - split; [done|]. split; [lia|eauto].
  - split; [done|]. split; [lia|eauto].
  - destruct (L !! i) as [[P|]|]; try discriminate. exists P. split; [done|lia].
Qed.
Fixpoint all_chk (L : list (option psp)) (cs : list pop) : bool :=
  match cs with [] => true | c :: cs' => chk L c && match pspec L c with Ret (L', _) => all_chk L' cs' | _ => true end end.
Lemma all_chk_ok cs : forall L, Forall alc cs -> all_chk L cs = true -> lawful pspec plegal L cs.
Proof.
  induction cs as [|c cs IH]; intros L Ha; cbn [all_chk lawful]; [done|]. apply Forall_cons in Ha as [Ha Ha'].
  intros [H1 H2]%andb_prop. split; [by apply chk_ok|]. destruct (pspec L c) as [[L' r]| | | |]; try exact I. by apply IH.
Qed.
Example ex_pcalls_ok : lawful pspec plegal [] ex_pcalls.
Proof.
  apply all_chk_ok; [|vm_compute; reflexivity]. destruct ex_pal_ok as [Hal _].
  unfold ex_pcalls. repeat (apply Forall_cons; split; [first [exact Hal|exact I]|]). apply Forall_nil. exact I.
Qed.
(** the grown "ab" is a new string although "ab" was interned already, and [PFind] goes on returning
    the first; a grown string with a zero in it is interned under what precedes the zero *)
Example ex_pcalls_results :
  (run pspec [] ex_pcalls).1 =
   [PDone; PName 0; PName 1; PName 0; PDone; PName 0;
    PInt 0; PInt 1; PName 2; PName 3; PDone; PDone;
    PName 4; PName 0; PDone; PName 5; PName 5;
    PBytes [A; B; 0]%N; PBytes [A; B; 0]%N; PBytes [A; B]%N; PBytes [A; B; 0; 0]%N; PBytes [A; 0; B; 0; 0]%N; PBytes [A; B; 0]%N;
    PNames [5; 1; 0]; PCount 6 19; PCount 1 3; PDone; PBytes [A; B; 0]%N; PDone] /\
  Forall2 peq (run pstep ([], [], pempty) ex_pcalls).1 (run pspec [] ex_pcalls).1.
Proof.
  split; [vm_compute; reflexivity|].
  destruct (C36_programs ex_pcalls ex_pcalls_ok) as [[H _]|(H & o & Ho & Hc & _)]; [exact H|].
  exfalso. apply (f_equal (fun r => match r with Fatal => false | _ => true end)) in H. vm_compute in H. discriminate H.
Qed.
