(** Whole programs of the source manager and the concrete names (C50, C51, C59, C66-C71).  See
    TraceProps.v for [run], [lawful] and [refines].  SrcTrace.v has the calls and [sspec]: the current
    place, the lines and tokens since src_create, the registrations. *)
From Verif Require Import Base Trace Alloc CStr StackModel ObjModel MemModel StrModel ArgModel ArgSpec ArgProps PrsModel PrsSpec SourceModel SourceSpec SourceProps SrcTrace.
From Verif Require StrProps.
From Coq Require Import String.
Notation length := List.length.
Local Open Scope Z_scope.

(** A token keeps saying what it said, and messages quote its line and place, until src_destroy; the
    first line after src_create is out of bounds when 1000 lines or more came before.  Nothing is left
    of the lines and tokens after src_destroy, and never anything of the argument lists that
    src_cpp_line makes. *)
Theorem C50_programs : forall cs, lawful sspec slegal x_start cs ->
  refines eq scan (fun st x => no_args st.2 /\ (x_on x = false -> released st.2)) cs (run sstep ([], src_start) cs) (run sspec x_start cs).
Proof. exact sources_ok. Qed.
Print Assumptions C50_programs.

(** ** a program: # 7 "f.c", two tokens, a message, another session; the last call is a fatal error *)
Definition ex_cpp : list N := text "# 7 " ++ [34%N] ++ text "f.c" ++ [34%N].
Definition ex_scalls : list sop :=
  [SConcrete (text "T_A") []; SCreate ex_sal;
   SCpp ex_sal (ex_cpp ++ [0%N]) 9 ex_cpp [text "#"; text "7"; text "f.c"] 7;
   SLine ex_sal ex_text [1; 2]%N 6; SGet ex_sal 1; SAdvance 1; SGet ex_sal 1; SLine ex_sal (text "next") [] 4;
   SFilename (Some 0%nat); SLinenumber (Some 1%nat); SOffset (Some 1%nat); SLength (Some 1%nat); SSourceLine (Some 1%nat); SLinenumber None;
   SRegister true StrProps.ex_pal (text "T_A") [] (text "+") []; SRegister false StrProps.ex_pal (text "T_A") [] (text "-") []; SConcrete (text "T_A") [9]%N;
   SParseError None (Some 1%nat) ex_msg [] (Some (text "bad `+' or `T_B' `('")); SPrintMessage 3 (Some 0%nat) (Some (text "hi")); SStats;
   SDestroy; SStats; SNewLine 3; SLine ex_sal (text "x") [] 1; SGet ex_sal 1; SPrintLine (Some 0%nat); SDestroy; SGet ex_sal 1].
Definition str_b (s : list N) : bool := forallb (fun c => (0 <? c)%N && (c <? 256)%N) s.
Definition int_b (z : Z) : bool := (- 2 ^ 31 <=? z) && (z <? 2 ^ 31).
Definition room_b (x : xsp) (k n : Z) : bool := (Z.of_nat (length (x_names x)) + k <? 2 ^ 31) && (nbytes (x_names x) + n <? 2 ^ 31).
Definition text_b (x : xsp) (k : option nat) : bool :=
  match k ≫= (fun k => x_toks x !! k) with Some t => match k_text t with Some _ => true | None => false end | None => true end.
Definition schk (x : xsp) (c : sop) : bool :=
  match c with
  | SLine _ s rest len => str_b s && (Z.of_nat (length s) <=? len) && (len <? Z.of_nat (length (s ++ 0%N :: rest))) &&
      (Z.of_nat (x_before x + length (x_lines x)) + 1001 <? 2 ^ 31) && (x_bytes x + len + 1 <? 2 ^ 31) && (x_line x + 1 <? 2 ^ 31)
  | SFile _ s _ => str_b s && room_b x 1 (Z.of_nat (length s) + 1)
  | SNewLine n => int_b n
  | SAdvance n => int_b (x_offset x + n)
  | SCpp _ src n s ws _ => str_b s && (Z.of_nat (length s) + 3 <? 2 ^ 30) && (n <? 2 ^ 31 - 1) &&
      match ws with _ :: _ :: v2 :: _ => room_b x 1 (Z.of_nat (length v2) + 1) | _ => true end
  | SGet _ n => int_b n && int_b (x_offset x + n) && (Z.of_nat (length (x_toks x)) <? 2 ^ 31 - 1)
  | SSourceLine k | SPrintLine k | SPrintError _ k _ => text_b x k
  | SParseError _ k s _ _ => text_b x k && str_b s
  | SRegister _ _ sym _ con _ => str_b sym && str_b con && room_b x 2 (Z.of_nat (length sym) + Z.of_nat (length con) + 2)
  | SConcrete sym _ => str_b sym
  | _ => true
  end.
(** what is not computed *)
Definition sside (x : xsp) (c : sop) : Prop :=
  match c with
  | SCreate al | SLine al _ _ _ | SFile al _ _ | SGet al _ => salloc_ok al
  | SCpp al src n s ws z => salloc_ok al /\ first_bytes src n s /\ line true true s ws /\ match ws with _ :: v1 :: _ => number v1 z | _ => True end
  | SParseError _ _ s rest m => match m with Some m => massage (x_reg x) s m | None => runaway s /\ rest = [] end
  | SRegister _ al _ _ _ _ => StrProofs.palloc_ok al
  | _ => True
  end.
Lemma schk_ok x c : sside x c -> schk x c = true -> slegal x c.
Proof.
  assert (Hs : forall s, str_b s = true -> str_ok s).
  { intros s H. apply Forall_forall. intros y Hy. apply elem_of_list_In in Hy. unfold str_b in H. rewrite forallb_forall in H. specialize (H y Hy). lia. }
  assert (Hi : forall z, int_b z = true -> is_int z) by (intros z; unfold int_b, is_int; lia).
  assert (Hr : forall k n, room_b x k n = true -> pool_room x k n) by (intros k n; unfold room_b, pool_room; lia).
  assert (Ht : forall k, text_b x k = true -> has_text x k).
  { intros k. unfold text_b, has_text. destruct (k ≫= _) as [t|]; [|done]. by destruct (k_text t). }
  destruct c; cbn [sside schk slegal]; intros Hc H; repeat match goal with H : _ && _ = true |- _ => apply andb_prop in H as [H ?] end; auto 10.
  - split; [done|]. split; [auto|]. lia.
  - destruct Hc as (H4 & H5 & H6 & H7). split; [done|]. split; [done|]. split; [auto|]. split; [lia|]. split; [lia|]. split; [done|].
    destruct ws as [|v0 [|v1 vs]]; [done|done|]. split; [done|]. destruct vs; [done|]. auto.
  - split; [done|]. split; [auto|]. split; [auto|]. lia.
Qed.
Fixpoint sall (x : xsp) (cs : list sop) : Prop :=
  match cs with
  | [] => True
  | c :: cs' => sside x c /\ schk x c = true /\ match sspec x c with Ret (x', _) => sall x' cs' | _ => True end
  end.
Lemma sall_ok cs : forall x, sall x cs -> lawful sspec slegal x cs.
Proof.
  induction cs as [|c cs IH]; intros x H; [done|]. destruct H as (H1 & H2 & H3). split; [by apply schk_ok|]. destruct (sspec x c) as [[x' r]| | | |]; auto.
Qed.
Lemma sall_cons x c cs x' r : sside x c -> schk x c = true -> sspec x c = Ret (x', r) -> sall x' cs -> sall x (c :: cs).
Proof. intros H1 H2 H3 H4. cbn [sall]. split; [done|]. split; [done|]. by rewrite H3. Qed.
Lemma sall_last x c : sside x c -> schk x c = true -> match sspec x c with Ret _ => False | _ => True end -> sall x [c].
Proof. intros H1 H2 H3. cbn [sall]. split; [done|]. split; [done|]. by destruct (sspec x c). Qed.
Lemma line_of_tok (s : list N) (ws : list (list N)) : ArgHist.tok true true ArgHist.Out None s = ws -> line true true s ws.
Proof. destruct (ArgHist.line_total true true s) as [ws' H]. intros <-. by rewrite (ArgHist.line_tok _ _ _ _ H). Qed.
Lemma m_symbol_is R name (c s out s' out' : list N) : concrete_of R name = c -> massage R s out -> forallb (fun b => negb (b =? 39)%N) name = true ->
  firstn 2 name = [84; 95]%N -> (N.of_nat (length name) <? 1024)%N = true -> s' = 96%N :: name ++ 39%N :: s -> out' = 96%N :: c ++ 39%N :: out ->
  massage R s' out'.
Proof.
  intros <- H Hn Hp Hl -> ->. apply m_symbol; try done; [| |lia].
  - intros H1. apply elem_of_list_In in H1. rewrite forallb_forall in Hn. specialize (Hn _ H1). done.
  - exists (skipn 2 name ++ [39%N]). rewrite <- (firstn_skipn 2 name) at 1. rewrite Hp. done.
Qed.
Lemma m_chars R (l s out : list N) : forallb (fun b => negb (b =? 96)%N) l = true -> massage R s out -> massage R (l ++ s) (l ++ out).
Proof.
  induction l as [|c l IH]; intros Hl H; [done|]. cbn [forallb] in Hl. apply andb_prop in Hl as [Hc Hl]. cbn [app]. apply m_char; [|auto].
  intros ->. done.
Qed.
Lemma ex_massage : massage [(text "T_A", text "+"); (text "T_A", text "-")] ex_msg (text "bad `+' or `T_B' `('").
Proof.
  change ex_msg with (text "bad " ++ text "`T_A' or `T_B' ``(''"). change (text "bad `+' or `T_B' `('") with (text "bad " ++ text "`+' or `T_B' `('").
  apply m_chars; [reflexivity|].
  eapply (m_symbol_is _ (text "T_A") (text "+") (text " or " ++ text "`T_B' ``(''") (text " or " ++ text "`T_B' `('")); try (vm_compute; reflexivity).
  apply m_chars; [reflexivity|].
  eapply (m_symbol_is _ (text "T_B") (text "T_B") (text " " ++ text "``(''") (text " " ++ text "`('")); try (vm_compute; reflexivity).
  apply m_chars; [reflexivity|]. apply (m_constant _ 40%N [] []); [discriminate|]. apply m_nil.
Qed.
Lemma ex_cpp_side : first_bytes (ex_cpp ++ [0%N]) 9 ex_cpp /\ line true true ex_cpp [text "#"; text "7"; text "f.c"] /\ number (text "7") 7.
Proof.
  split; [|split].
  - exists [0%N]. split; [reflexivity|]. left. reflexivity.
  - apply line_of_tok. vm_compute. reflexivity.
  - change 7 with (value [55%N]). apply (num_plus [] [] [55%N] []); try done; [by left|]. repeat constructor; unfold digit; lia.
Qed.
Example ex_scalls_ok : lawful sspec slegal x_start ex_scalls.
Proof.
  apply sall_ok. unfold ex_scalls. destruct ex_cpp_side as (H1 & H2 & H3).
  repeat (eapply sall_cons; [first [exact I|exact (proj1 ex_sal_ok)|exact (proj1 StrProps.ex_pal_ok)|exact ex_massage|
    split; [exact (proj1 ex_sal_ok)|]; split; [exact H1|]; split; [exact H2|exact H3]]|vm_compute; reflexivity|vm_compute; reflexivity|]).
  apply sall_last; [exact (proj1 ex_sal_ok)|reflexivity|exact I].
Qed.
Definition nl : list N := [10%N].
Example ex_scalls_results :
  run sspec x_start ex_scalls =
   ([SStr None; SDone; SDone; SStr (Some (text "x + y" ++ nl)); STok 0; SDone; STok 1; SStr (Some (text "next"));
     SStr (Some (text "f.c")); SInt 7; SInt 2; SInt 1; SStr (Some (text "x + y" ++ nl)); SInt 0;
     SDone; SDone; SStr (Some (text "+"));
     SOut Stdout (text "f.c:7: bad `+' or `T_B' `('" ++ nl ++ text "f.c:7: x + y" ++ nl ++ text "f.c:7:   ^" ++ nl);
     SOut (Stream 3) (text "f.c:7: hi" ++ nl); SNumbers (2, 1000, 12, 2, 0, 24);
     SDone; SNumbers (0, 0, 0, 0, 0, 0); SDone; SStr (Some (text "x")); STok 0; SOut Stdout (text "f.c:4: x"); SDone], Fatal) /\
  run sstep ([], src_start) ex_scalls = ((run sspec x_start ex_scalls).1, Fatal).
Proof. split; vm_compute; reflexivity. Qed.
