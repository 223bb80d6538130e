(** C87: whole programs of calls on the global string pool; the first number of str_unique (C38). *)
From Verif Require Import Base Alloc Trace ListLemmas CStr StackModel StackProofs ObjModel MemModel MemProofs MemHist.
From Verif Require Import HashModel HashProofs HashFnModel StrModel StrProofs StrHist StrTrace GlobTrace StrProps.
Local Open Scope nat_scope.

(** ** the specification's own parts, said once more *)
(** decimal numerals: digits, of value [n], with no leading zero; there is only one such numeral *)
Theorem C87_decimal : forall n, (0 <= n < 2 ^ 31)%Z ->
  Forall is_digit (c_itoa n) /\ Z.of_N (dec_value (c_itoa n)) = n /\ c_itoa n <> [] /\ (head (c_itoa n) = Some 48%N -> n = 0%Z).
Proof.
  intros n Hn. destruct (itoa_spec n Hn) as (H1 & H2 & H3). split; [done|]. split; [done|]. split; [intros E; rewrite E in H3; cbn in H3; lia|].
  unfold c_itoa. destruct (Z.ltb_spec n 0); [lia|].
  assert (Hd : forall f m, (m < 10 ^ N.of_nat f)%N -> head (digits f m) = Some 48%N -> m = 0%N).
  { induction f as [|f IH]; intros m Hm; cbn [digits]; [done|]. destruct (N.ltb_spec m 10); [intros [= E]; lia|].
    assert (Hq : (m / 10 < 10 ^ N.of_nat f)%N). { apply N.div_lt_upper_bound; [lia|]. replace (N.of_nat (S f)) with (N.succ (N.of_nat f)) in Hm by lia. rewrite N.pow_succ_r' in Hm. exact Hm. }
    intros E. assert (Hz : (m / 10 = 0)%N). { apply IH; [exact Hq|]. destruct (digits f (m / 10)) eqn:Ed; [|exact E]. exfalso.
      destruct f as [|f']; [cbn in Hq; assert (1 <= m / 10)%N by (apply N.div_le_lower_bound; lia); lia|]. cbn [digits] in Ed. destruct (m / 10 <? 10)%N; [discriminate|]. by destruct (digits f' (m / 10 / 10)). }
    assert (1 <= m / 10)%N by (apply N.div_le_lower_bound; lia). lia. }
  intros E. apply Hd in E; [lia|]. change (10 ^ N.of_nat 10)%N with 10000000000%N. lia.
Qed.
Print Assumptions C87_decimal.
(** str_unique's number: the first from [n] on whose string is not interned *)
Theorem C87_first_free : forall P prefix n, (0 <= n)%Z -> (n + Z.of_nat (size (interned P)) < 2 ^ 31)%Z ->
  let m := free_from (size (interned P)) P prefix n in
  (n <= m <= n + Z.of_nat (size (interned P)))%Z /\ interned P !! (prefix ++ c_itoa m) = None /\
  forall i, (n <= i < m)%Z -> is_Some (interned P !! (prefix ++ c_itoa i)).
Proof.
  intros P pre n Hn Hb. cbn zeta.
  assert (Hf : forall f k, (k <= free_from f P pre k <= k + Z.of_nat f)%Z /\ (forall i, (k <= i < free_from f P pre k)%Z -> is_Some (interned P !! (pre ++ c_itoa i))) /\
     (interned P !! (pre ++ c_itoa (free_from f P pre k)) = None \/ free_from f P pre k = (k + Z.of_nat f)%Z)).
  { induction f as [|f IH]; intros k; cbn [free_from]; [split; [lia|split; [lia|right; lia]]|]. destruct (interned P !! (pre ++ c_itoa k)) as [x|] eqn:E.
    - destruct (IH (k + 1)%Z) as (I1 & I2 & I3). split; [lia|]. split; [|destruct I3 as [I3|I3]; [by left|right; lia]].
      intros i Hi. destruct (decide (i = k)) as [->|]; [rewrite E; eauto|apply I2; lia].
    - split; [lia|]. split; [lia|by left]. }
  destruct (Hf (size (interned P)) n) as (H1 & H2 & H3). split; [exact H1|]. split; [|exact H2]. destruct H3 as [H3|H3]; [exact H3|].
  destruct (interned P !! (pre ++ c_itoa (free_from (size (interned P)) P pre n))) as [x|] eqn:E; [|done]. exfalso.
  set (m := free_from (size (interned P)) P pre n) in *.
  (* too many taken numbers: they are different strings *)
  assert (Hle : length ((fun i : nat => pre ++ c_itoa (n + Z.of_nat i)) <$> seq 0 (S (size (interned P)))) <= size (interned P)).
  { transitivity (length (map_to_list (interned P)).*1); [|by rewrite fmap_length]. apply submseteq_length, NoDup_submseteq.
    - apply NoDup_fmap_2_strong; [|apply NoDup_seq]. intros i j Hi Hj Ee. rewrite elem_of_seq in Hi, Hj. apply app_inv_head in Ee.
      destruct (itoa_spec (n + Z.of_nat i) ltac:(lia)) as (_ & V1 & _). destruct (itoa_spec (n + Z.of_nat j) ltac:(lia)) as (_ & V2 & _). rewrite Ee in V1. lia.
    - intros y Hy. apply elem_of_list_fmap in Hy as (i & -> & Hi). apply elem_of_seq in Hi.
      assert (Hs : is_Some (interned P !! (pre ++ c_itoa (n + Z.of_nat i)))).
      { destruct (decide (n + Z.of_nat i = m)%Z) as [->|]; [rewrite E; eauto|apply H2; lia]. }
      destruct Hs as [v Hv]. apply elem_of_list_fmap. exists (pre ++ c_itoa (n + Z.of_nat i), v). split; [done|]. by apply elem_of_map_to_list. }
  rewrite fmap_length, seq_length in Hle. lia.
Qed.
Print Assumptions C87_first_free.
(** str_findn's string: the first [len] bytes, or fewer if a NUL comes first *)
Theorem C87_first_bytes : forall src len, (0 <= len)%Z -> readable src len ->
  str_ok (first_of src len) /\ exists tl, src = first_of src len ++ tl /\
    (len = Z.of_nat (length (first_of src len)) \/ ((Z.of_nat (length (first_of src len)) < len)%Z /\ exists tl', tl = 0%N :: tl')).
Proof. exact first_of_spec. Qed.
Print Assumptions C87_first_bytes.

(** ** the theorem *)
Theorem C87_programs : forall cs, lawful gspec glegal gstart cs ->
  refines peq gcan (fun st g => gpool g = None -> pools st.2 = ∅ /\ mblk (pmem st.2) = ∅ /\ minf (pmem st.2) = ∅ /\ stks (msh (pmem st.2)) = ∅ /\ nodes (msh (pmem st.2)) = ∅) cs
    (run gstep ([], pempty) cs) (run gspec gstart cs).
Proof. exact globals_ok. Qed.
Print Assumptions C87_programs.
(** the numbers of str_unique start at 1 *)
Theorem C38_starts_at_1 : forall al al2 s rest pre rest2, palloc_ok al -> palloc_ok al2 -> str_ok s -> str_ok pre ->
  (Z.of_nat (length s) + Z.of_nat (length pre) + 13 < 2 ^ 31)%Z -> s <> pre ++ [49%N] ->
  forall st1 r1, gstep ([], pempty) (GFind al s rest) = Ret (st1, r1) ->
  forall st2 r2, gstep st1 (GUnique al2 pre rest2) = Ret (st2, r2) ->
  gstep st2 (GRead 1) = Ret (st2, PBytes (pre ++ [49; 0]%N)) /\ r2 = PName 1.
Proof.
  intros al al2 s rest pre rest2 Hal Hal2 Hs Hpre Hlen Hne st1 r1 E1 st2 r2 E2.
  assert (R0 : grel ([], pempty) gstart) by (exists ∅; split; cbn [fst snd]; [apply rtc_refl|done]).
  pose proof (gstep_ok _ _ (GFind al s rest) R0 ltac:(cbn; lia || (split; [done|split; [done|split; cbn; lia]]))) as H1. rewrite E1 in H1. cbn [gspec gpool gstart default from_option find_in no_strings interned] in H1.
  unfold find_in in H1. cbn [no_strings interned] in H1. rewrite lookup_empty in H1. cbn [fst snd objs length next call_ok] in H1. destruct H1 as [R1 _].
  change (length (objs no_strings)) with 0 in R1. change (next gstart) with 1%Z in R1.
  set (P1 := intern (with_new no_strings (s ++ [0%N]) (Z.of_nat (length s) + 1)) s 0) in R1.
  assert (Hsz : size (interned P1) = 1%nat).
  { cbn [P1 intern with_new no_strings interned]. by rewrite insert_empty, map_size_singleton. }
  assert (Hlk : interned P1 !! (pre ++ [49%N]) = None).
  { cbn [P1 intern with_new no_strings interned]. by rewrite lookup_insert_ne. }
  assert (Hob : objs P1 = [s ++ [0%N]]) by reflexivity. assert (Hnb : nbytes P1 = (Z.of_nat (length s) + 1)%Z) by reflexivity. clearbody P1.
  pose proof (gstep_ok _ _ (GUnique al2 pre rest2) R1) as H2. cbn [glegal gpool next default from_option id] in H2. rewrite Hsz in H2.
  assert (Hl2 : palloc_ok al2 /\ str_ok pre /\ groom (GSp (Some P1) 1) (Z.of_nat (length pre) + 11) /\ (1 + Z.of_nat 1 + 1 < 2 ^ 31)%Z).
  { split; [done|]. split; [done|]. split; [|lia]. unfold groom. cbn [gpool default from_option id]. rewrite Hob, Hnb. cbn [length]. lia. }
  specialize (H2 Hl2). rewrite E2 in H2. cbn [gspec gpool next] in H2. rewrite Hsz in H2. cbn [free_from] in H2. change (c_itoa 1) with [49%N] in H2. rewrite Hlk in H2.
  change (c_itoa 1) with [49%N] in H2. unfold find_in in H2. rewrite Hlk in H2. cbn [fst snd call_ok peq] in H2. destruct H2 as [R2 Hr2]. rewrite Hob in Hr2. cbn [length] in Hr2. assert (r2 = PName 1) as -> by (destruct r2; done). split; [|reflexivity].
  pose proof (gstep_ok _ _ (GRead 1) R2 I) as H3. cbn [gspec gpool mbind option_bind intern with_new objs] in H3. rewrite Hob in H3. cbn [app lookup list_lookup] in H3.
  destruct st2 as [l2 w2]. cbn [gstep] in H3 |- *. destruct (l2 !! 1%nat) as [a|]; [|done]. destruct (hget (mblk (pmem w2)) a) as [b| | | |]; try done. cbn in H3 |- *. destruct H3 as [_ H3].
  injection H3 as ->. by rewrite <- app_assoc.
Qed.
Print Assumptions C38_starts_at_1.

(** ** a program: numbers already interned are skipped, and str_destroy does not start them again *)
Local Notation x := 120%N.
Local Notation d1 := 49%N.
Local Notation pa := ex_pal.
Definition ex_gcalls : list gop :=
  [GStats pa; GDestroy; GFind pa [x; d1] [7]%N; GUnique pa [x] []; GFindn pa [x; d1; d1]%N 2; GUnique pa [x] [5]%N; GExists [x] []; GCopy pa [x] [];
   GCopyn pa [x; d1; d1]%N 1; GGrow pa [x; x]%N 1; GGrow pa [d1; x]%N 2; GFinish pa; GFind pa [x; d1; x] []; GStats pa; GRead 1; GRead 2; GRead 4; GRead 5; GDestroy;
   GFinish pa; GUnique pa [x] []; GRead 1; GDestroy; GUnique pa [x] []; GStats pa].
Definition gchk (g : gsp) (c : gop) : bool :=
  let P := default no_strings (gpool g) in
  let str s := forallb (fun c => (0 <? c)%N && (c <? 256)%N) s in
  let byt s := forallb (fun c => (c <? 256)%N) s in
  let rm n := ((Z.of_nat (length (objs P)) + 1 <? 2 ^ 31)%Z && (nbytes P + n <? 2 ^ 31)%Z) in
  match c with
  | GFind _ s _ | GCopy _ s _ => str s && rm (Z.of_nat (length s) + 1)%Z
  | GFindn _ src len => (0 <=? len)%Z && (len <? 2 ^ 31 - 1)%Z && byt src && (len <=? Z.of_nat (length src))%Z && rm (Z.of_nat (length (first_of src len)) + 1)%Z
  | GExists s _ => str s
  | GCopyn _ src len => (0 <=? len)%Z && (len <? Z.of_nat (length src))%Z && rm (len + 1)%Z
  | GGrow _ src len => (0 <=? len)%Z && (len <=? Z.of_nat (length src))%Z && byt (take (Z.to_nat len) src) && rm len
  | GFinish _ => rm 2%Z
  | GUnique _ pre _ => str pre && rm (Z.of_nat (length pre) + 11)%Z && (next g + Z.of_nat (size (interned P)) + 1 <? 2 ^ 31)%Z
  | GDestroy | GRead _ => true
  | GStats _ => (Z.of_nat (length (objs P)) <? 2 ^ 31)%Z
  end.
Definition galc (c : gop) : Prop :=
  match c with GFind al _ _ | GFindn al _ _ | GCopy al _ _ | GCopyn al _ _ | GGrow al _ _ | GFinish al | GUnique al _ _ => palloc_ok al | _ => True end.
Lemma gchk_ok g c : galc c -> gchk g c = true -> glegal g c.
Proof.
  assert (Hs : forall s, forallb (fun c => (0 <? c)%N && (c <? 256)%N) s = true -> str_ok s).
  { intros s H. apply Forall_forall. intros y Hy. apply elem_of_list_In in Hy. rewrite forallb_forall in H. specialize (H y Hy). lia. }
  assert (Hb : forall s, forallb (fun c => (c <? 256)%N) s = true -> Forall byte_ok s).
  { intros s H. apply Forall_forall. intros y Hy. apply elem_of_list_In in Hy. rewrite forallb_forall in H. specialize (H y Hy). unfold byte_ok. lia. }
  set (P := default no_strings (gpool g)).
  assert (Hr : forall n, ((Z.of_nat (length (objs P)) + 1 <? 2 ^ 31)%Z && (nbytes P + n <? 2 ^ 31)%Z) = true -> groom g n).
  { intros n H. apply andb_prop in H as [H1 H2]. split; fold P; lia. }
  destruct c; cbn [galc gchk glegal]; fold P; intros Ha H; repeat match goal with H : _ && (_ && _) = true |- _ => apply andb_prop in H as [H ?] | H : (_ && _) && _ = true |- _ => apply andb_prop in H as [H ?] end.
  - eauto 10.
  - apply andb_prop in H as [H H']. split; [done|]. split; [lia|]. split; [split; [eauto|left; lia]|eauto].
  - eauto.
  - eauto 10.
  - apply andb_prop in H as [H H']. split; [done|]. split; [lia|eauto].
  - apply andb_prop in H as [H H']. split; [done|]. split; [lia|eauto].
  - eauto.
  - split; [done|]. split; [eauto|]. split; [eauto|lia].
  - done.
  - done.
  - lia.
Qed.
Fixpoint gall_chk (g : gsp) (cs : list gop) : bool :=
  match cs with [] => true | c :: cs' => gchk g c && match gspec g c with Ret (g', _) => gall_chk g' cs' | _ => true end end.
Lemma gall_chk_ok cs : forall g, Forall galc cs -> gall_chk g cs = true -> lawful gspec glegal g cs.
Proof.
  induction cs as [|c cs IH]; intros g Ha; cbn [gall_chk lawful]; [done|]. apply Forall_cons in Ha as [Ha Ha'].
  intros [H1 H2]%andb_prop. split; [by apply gchk_ok|]. destruct (gspec g c) as [[g' r]| | | |]; try exact I. by apply IH.
Qed.
Example ex_gcalls_ok : lawful gspec glegal gstart ex_gcalls.
Proof.
  apply gall_chk_ok; [|vm_compute; reflexivity]. destruct ex_pal_ok as [Hal _].
  unfold ex_gcalls. repeat (apply Forall_cons; split; [first [exact Hal|exact I]|]). apply Forall_nil. exact I.
Qed.
Example ex_gcalls_results :
  (run gspec gstart ex_gcalls).1 =
   [PCount 0 0; PDone; PName 0; PName 1; PName 0; PName 2; PInt 0; PName 3; PName 4; PDone; PDone; PName 5; PName 5; PCount 6 18;
    PBytes [x; 50; 0]%N; PBytes [x; 51; 0]%N; PBytes [x; d1]%N; PBytes [x; d1; x; 0; 0]%N; PDone; PName 0; PName 1; PBytes [x; 52; 0]%N; PDone] /\
  (match (run gspec gstart ex_gcalls).2 with UB => true | _ => false end) = true /\
  Forall2 peq (run gstep ([], pempty) ex_gcalls).1 (run gspec gstart ex_gcalls).1.
Proof.
  split; [vm_compute; reflexivity|]. split; [vm_compute; reflexivity|].
  destruct (C87_programs ex_gcalls ex_gcalls_ok) as [[H _]|(H & o & Ho & Hc & _)]; [exact H|].
  exfalso. apply (f_equal (fun r => match r with Fatal => false | _ => true end)) in H. vm_compute in H. discriminate H.
Qed.
