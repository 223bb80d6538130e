(** Whole programs on argument lists (C40-C42).  See TraceProps.v for [run], [lawful] and [refines].
    ArgTrace.v has the calls and [aspec]: a list is the list of the byte strings of its items;
    arg_argify makes one with the words that the grammar of ArgSpec.v ([line]) gives the text. *)
From Verif Require Import Base Trace Alloc CStr StackModel StackProofs ObjModel ObjProofs MemModel MemProofs MemHist.
From Verif Require Import ArgModel ArgProofs ArgSpec ArgHist ArgProps ArgTrace.
Local Open Scope nat_scope.

(** Pointers returned by arg_get stay good until their list is destroyed, whatever is done to it and
    to the others; the vector has all items and ends with NULL; out of range, arg_get aborts.  A
    program that destroys all its lists leaves no memory behind. *)
Theorem C40_programs : forall cs, lawful aspec alegal ([], []) cs ->
  refines eq acan (fun st S => (forall i, ~ alive S.1 i) ->
      args st.2 = ∅ /\ mblk (amem st.2) = ∅ /\ minf (amem st.2) = ∅ /\ stks (msh (amem st.2)) = ∅ /\ nodes (msh (amem st.2)) = ∅) cs
    (run astep ([], [], aempty) cs) (run aspec ([], []) cs).
Proof. exact arg_lists_ok. Qed.
Print Assumptions C40_programs.

(** ** a program with two lists; the last call aborts *)
Notation aa := ex_aal.
Definition ex_line2 : list N := [97; 98; 32; 34; 99; 32; 34; 92; 100; 9]%N.
Definition ex_acalls : list aop :=
  [ACreate aa; AAdd aa 0 [120; 121]%N [9]%N; AGet 0 0; AGrow aa 0 [112; 113]%N 1; AArgify aa ex_line2 [1; 2]%N 0 [[97; 98]; [99; 32; 100]]%N;
   AGrow aa 0 [114; 115]%N 2; AFinish aa 0; AGet 1 1; AAddn aa 1 [122; 0; 3]%N 1; AAdd aa 1 [] []; AFinish aa 1; AVector 1; ARead 0; ARead 1; ACount 0;
   ADestroy 0; ARead 1; AGet 1 5].
Definition achk (S : aspecs) (c : aop) : bool :=
  let '(L, K) := S in
  let rm i n := match L !! i with Some (Some P) => (Z.of_nat (length (titems P)) + 2 <? 2 ^ 30)%Z && (tbytes P + n <? 2 ^ 31)%Z | _ => false end in
  let lv i := match L !! i with Some (Some _) => true | _ => false end in
  match c with
  | ACreate _ => true
  | AArgify _ s _ _ _ => forallb (fun c => (0 <? c)%N && (c <? 256)%N) s && (Z.of_nat (length s) + 3 <? 2 ^ 30)%Z
  | AAdd _ i s _ => forallb (fun c => (0 <? c)%N && (c <? 256)%N) s && rm i (Z.of_nat (length s) + 1)%Z
  | AAddn _ i src len => (0 <=? len)%Z && (len <? Z.of_nat (length src))%Z && rm i (len + 1)%Z
  | AGrow _ i src len => (0 <=? len)%Z && (len <=? Z.of_nat (length src))%Z && rm i len
  | AFinish _ i => rm i 1%Z
  | AGet i _ | ACount i | AVector i | ADestroy i => lv i
  | ARead k => match K !! k with Some (i, _) => lv i | None => false end
  end.
Definition aalc (c : aop) : Prop :=
  match c with
  | ACreate al | AAdd al _ _ _ | AAddn al _ _ _ | AGrow al _ _ _ | AFinish al _ => aalloc_ok al
  | AArgify al s _ style ws => aalloc_ok al /\ line (escapes style) (quotes style) s ws
  | _ => True
  end.
Lemma achk_ok S c : aalc c -> achk S c = true -> alegal S c.
Proof.
  destruct S as [L K].
  assert (Hs : forall s, forallb (fun c => (0 <? c)%N && (c <? 256)%N) s = true -> str_ok s).
  { intros s H. apply Forall_forall. intros x Hx. apply elem_of_list_In in Hx. rewrite forallb_forall in H. specialize (H x Hx). lia. }
  assert (Hr : forall i n, (match L !! i with Some (Some P) => (Z.of_nat (length (titems P)) + 2 <? 2 ^ 30)%Z && (tbytes P + n <? 2 ^ 31)%Z | _ => false end) = true -> aroom L i n).
  { intros i n H. destruct (L !! i) as [[P|]|] eqn:E; try discriminate. apply andb_prop in H as [H1 H2]. exists P. split; [exact E|]. lia. }
  assert (Hv : forall i, (match L !! i with Some (Some _) => true | _ => false end) = true -> alive L i).
  { intros i H. destruct (L !! i) as [[P|]|] eqn:E; try discriminate. by exists P. }
  destruct c as [al|al s rest style ws|al i s rest|al i src len|al i src len|al i|i n|k|i|i|i]; cbn [aalc achk alegal]; intros Ha H;
    repeat match goal with H : _ && _ = true |- _ => apply andb_prop in H as [H ?] end; eauto 10.
  - destruct Ha. split; [done|]. split; [by apply Hs|]. split; [lia|done].
  - split; [done|]. split; [lia|eauto].
  - split; [done|]. split; [lia|eauto].
  - destruct (K !! k) as [[i n]|] eqn:E; [|discriminate]. exists i, n. split; [done|]. by apply Hv.
Qed.
Fixpoint aall_chk (S : aspecs) (cs : list aop) : bool :=
  match cs with [] => true | c :: cs' => achk S c && match aspec S c with Ret (S', _) => aall_chk S' cs' | _ => true end end.
Lemma aall_chk_ok cs : forall S, Forall aalc cs -> aall_chk S cs = true -> lawful aspec alegal S cs.
Proof.
  induction cs as [|c cs IH]; intros S Ha; cbn [aall_chk lawful]; [done|]. apply Forall_cons in Ha as [Ha Ha'].
  intros [H1 H2]%andb_prop. split; [by apply achk_ok|]. destruct (aspec S c) as [[S' r]| | | |]; try exact I. by apply IH.
Qed.
Lemma line_of_tok esc quo s ws : tok esc quo Out None s = ws -> line esc quo s ws.
Proof. destruct (line_total esc quo s) as [ws' H]. intros <-. by rewrite (line_tok _ _ _ _ H). Qed.
Example ex_acalls_ok : lawful aspec alegal ([], []) ex_acalls.
Proof.
  apply aall_chk_ok; [|vm_compute; reflexivity]. destruct ex_aal_ok as [Hal _]. unfold ex_acalls.
  repeat (apply Forall_cons; split; [first [exact Hal|exact I|split; [exact Hal|apply line_of_tok; vm_compute; reflexivity]]|]). apply Forall_nil. exact I.
Qed.
Example ex_acalls_results :
  run aspec ([], []) ex_acalls =
   ([ADone; ADone; ABytes [120; 121; 0]%N; ADone; ADone;
     ADone; ADone; ABytes [99; 32; 100; 0]%N; ADone; ADone; ADone;
     AVec 5 [Some [97; 98; 0]; Some [99; 32; 100; 0]; Some [122; 0]; Some [0]; Some [0]; None]%N; ABytes [120; 121; 0]%N; ABytes [99; 32; 100; 0]%N; ANum 2;
     ADone; ABytes [99; 32; 100; 0]%N], Abort) /\
  run astep ([], [], aempty) ex_acalls = (((run aspec ([], []) ex_acalls).1), Abort).
Proof. split; vm_compute; reflexivity. Qed.
