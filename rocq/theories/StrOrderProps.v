(** C97: the order in which str_pool_iterate hands out the strings of a pool is a
    function of the strings asked for, over whole programs. *)
From Verif Require Import Base Alloc Trace CStr StackModel ObjModel MemModel MemProofs HashModel HashProofs HashFnModel StrModel StrProofs StrHist StrTrace StrOrder StrProps TraceProps2.
Local Open Scope nat_scope.

(** [listed_as st L Os]: iterating any live pool now gives the pointers to its strings in the order of [Os] *)
Definition listed_as (st : pstate) (sp : list (option psp) * list sorder) : Prop :=
  length sp.2 = length sp.1 /\
  forall i p P o, st.1.1 !! i = Some p -> sp.1 !! i = Some (Some P) -> sp.2 !! i = Some o ->
  exists ks w', str_pool_iterate collect (pool_fuel st.2 p) st.2 (Some p) [] = Ret (Some <$> ks, w', 0%Z) /\
    Forall2 (fun s a => str_ok s /\ exists rest, mblk (pmem st.2) !! a = Some (s ++ 0%N :: rest)) o.1.2 ks /\
    forall s, s ∈ o.1.2 <-> is_Some (interned P !! s).

(** Whole programs over any number of pools, all eleven calls: every result, the
    order of every iteration included, is that of [pospec] (StrOrder.v), which
    knows nothing of memory. *)
Theorem C97_programs : forall cs, lawful pospec (fun sp => plegal sp.1) ([], []) cs ->
  refines eq pcan listed_as cs (run pstep ([], [], pempty) cs) (run pospec ([], []) cs).
Proof.
  intros cs Hl. eapply refines_Q; [|exact (orders_ok cs Hl)]. intros [[vs ns] w] [L Os] ((G & R) & Hlen & Hord). split; [done|]. cbn [fst snd] in *.
  intros i p P o Hp HP Ho. pose proof R as [Hh Hn _ _ _ _]. cbn [fst snd] in *.
  destruct (nm_get _ _ _ Hn i P HP) as (p' & Hp' & HG). rewrite Hp in Hp'. injection Hp' as <-. rewrite lookup_fmap in HG. apply fmap_Some in HG as (g & HG & ->).
  destruct (all_sorts w G Hh p g HG o (Hord i p _ o Hp HP Ho)) as (w' & ks & E & HF & _). exists ks, w'. split; [exact E|].
  assert (HF2 : Forall2 (fun s a => str_ok s /\ exists rest, mblk (pmem w) !! a = Some (s ++ 0%N :: rest)) o.1.2 ks).
  { eapply Forall2_impl; [exact HF|]. intros s a Ha. apply (int_memory w G Hh p g HG). by apply assoc_in. }
  split; [exact HF2|]. intros s. pose proof (int_nodup w G Hh p g HG) as [Hnd _]. rewrite (absp_int g Hnd), fmap_is_Some. split.
  - intros Hs. destruct (elem_of_list_lookup_1 _ _ Hs) as [j Hj]. destruct (Forall2_lookup_l _ _ _ _ _ HF Hj) as (a & _ & Ha). by exists a.
  - intros [a Ha]. destruct (collect_ok w G p g Hh HG) as (w2 & g' & l & E2 & Hlp & _). rewrite E in E2. injection E2 as Hks _.
    apply (fmap_inj Some (@Some_inj positive)) in Hks. subst l.
    assert (Hin : a ∈ ks). { rewrite Hlp. apply elem_of_list_fmap. exists (s, a). split; [done|by apply assoc_in]. }
    destruct (elem_of_list_lookup_1 _ _ Hin) as [j Hj]. destruct (Forall2_lookup_r _ _ _ _ _ HF Hj) as (s' & Hs' & Ha').
    destruct (int_nodup w G Hh p g HG) as [_ Hnd2]. assert (s' = s) as <-; [|by eapply elem_of_list_lookup_2].
    apply assoc_in in Ha, Ha'. apply elem_of_list_lookup in Ha as [n1 H1], Ha' as [n2 H2].
    assert (n1 = n2) as ->; [|congruence]. apply (NoDup_lookup _ n1 n2 a Hnd2); by rewrite list_lookup_fmap, ?H1, ?H2.
Qed.
Print Assumptions C97_programs.

(** So neither where malloc puts the strings and the nodes nor what follows the
    arguments in memory can be told from the results. *)
Theorem C97_same_calls : forall cs cs' rs rs' st st',
  lawful pospec (fun sp => plegal sp.1) ([], []) cs -> lawful pospec (fun sp => plegal sp.1) ([], []) cs' -> Forall2 psame_call cs cs' ->
  run pstep ([], [], pempty) cs = (rs, Ret st) -> run pstep ([], [], pempty) cs' = (rs', Ret st') -> rs = rs'.
Proof.
  intros cs cs' rs rs' st st' Hl Hl' Hc R R'.
  pose proof (orders_ok cs Hl) as H. rewrite R in H. pose proof (orders_ok cs' Hl') as H'. rewrite R' in H'.
  rewrite <- (porun_same cs cs' Hc) in H'.
  destruct H as [[H1 _]|[H1 _]]; [|discriminate H1]. destruct H' as [[H1' _]|[H1' _]]; [|discriminate H1'].
  cbn [fst] in H1, H1'. generalize dependent (run pospec ([], []) cs).1. intros qs H1 H1'.
  assert (Heq : forall xs ys : list pres, Forall2 eq xs ys -> xs = ys) by (intros xs ys HF; induction HF; congruence).
  apply Heq in H1. apply Heq in H1'. congruence.
Qed.
Print Assumptions C97_same_calls.

(** ** A concrete instance: the strings "a", "b", "ab", "ba", "abc" and a string grown *)
Definition ex_far : palloc :=
  PA bump (MA bump bump bump (fun n h => (fun a => (Pos.mul 3 a, replicate (N.to_nat n) 9%N)) <$> bump h)) (HA (fun h => Pos.mul 5 <$> bump h) (fun _ => true)).
Lemma bump_times {V} (k : positive) : malloc_ok (fun h : gmap positive V => Pos.mul k <$> bump h).
Proof.
  intros h a. unfold bump. cbn [fmap option_fmap option_map]. intros [= <-].
  assert (Hlt : forall b x, h !! b = Some x -> (b < map_fold (fun a _ m => Pos.max m (Pos.succ a)) 1 h)%positive).
  { apply (map_fold_ind (fun m h => forall b x, h !! b = Some x -> (b < m)%positive)).
    - intros b x. by rewrite lookup_empty.
    - intros i y h' m Hi IH b x Hb. destruct (decide (b = i)) as [->|Hne]; [lia|].
      rewrite lookup_insert_ne in Hb by done. specialize (IH b x Hb). lia. }
  destruct (h !! _) as [x|] eqn:E; [|done]. specialize (Hlt _ _ E). clear E. nia.
Qed.
Lemma ex_far_ok : palloc_ok ex_far.
Proof.
  constructor; [apply bump_ok| |intros h; discriminate|apply (bump_times 5)].
  constructor; [apply bump_ok..|]. intros n h a b. cbn [ex_far pa_mem m_blk]. destruct (bump h) as [a0|] eqn:E0; [|done]. cbn. intros [= <- <-]. split; [|apply replicate_length]. apply (bump_times 3 h). by rewrite E0.
Qed.
Definition ex_ocalls (al : palloc) (rest : list N) : list pop :=
  [PCreate al; PFind al 0 [A] rest; PFind al 0 [B] rest; PFind al 0 [A; B] rest; PAll 0; PFind al 0 [B; A] rest; PFind al 0 [A; B; 99]%N rest; PAll 0;
   PExists 0 [A; B] rest; PAll 0; PCreate al; PFind al 1 [B; A] rest; PGrow al 0 ([A; 99]%N ++ rest) 2%Z; PFinish al 0; PAll 0; PFind al 0 [A] rest; PAll 0;
   PAll 1; PCopy al 0 [A] rest; PAll 0; PDestroy 1; PAll 0; PRead 0 0; PStats al 0].
Fixpoint all_ochk (sp : list (option psp) * list sorder) (cs : list pop) : bool :=
  match cs with [] => true | c :: cs' => chk sp.1 c && match pospec sp c with Ret (sp', _) => all_ochk sp' cs' | _ => true end end.
Lemma all_ochk_ok cs : forall sp, Forall alc cs -> all_ochk sp cs = true -> lawful pospec (fun sp => plegal sp.1) sp cs.
Proof.
  induction cs as [|c cs IH]; intros sp Ha; cbn [all_ochk lawful]; [done|]. apply Forall_cons in Ha as [Ha Ha'].
  intros [H1 H2]%andb_prop. split; [by apply chk_ok|]. destruct (pospec sp c) as [[sp' r]| | | |]; try exact I. by apply IH.
Qed.
Lemma ex_alc al rest : palloc_ok al -> Forall alc (ex_ocalls al rest).
Proof. intros Hal. unfold ex_ocalls. repeat (apply Forall_cons; split; [first [exact Hal|exact I]|]). apply Forall_nil. exact I. Qed.
Example C97_lawful : lawful pospec (fun sp => plegal sp.1) ([], []) (ex_ocalls ex_pal []) /\ lawful pospec (fun sp => plegal sp.1) ([], []) (ex_ocalls ex_far [7; 8]%N).
Proof.
  split; (apply all_ochk_ok; [apply ex_alc; first [apply ex_pal_ok|exact ex_far_ok]|vm_compute; reflexivity]).
Qed.
Example C97_same : Forall2 psame_call (ex_ocalls ex_pal []) (ex_ocalls ex_far [7; 8]%N).
Proof. unfold ex_ocalls. repeat (apply List.Forall2_cons; [cbn [psame_call]; repeat split; reflexivity|]). apply List.Forall2_nil. Qed.
(** "ab" (2) and "abc" (4) share a bucket: asking for "ab" moves it to the front of that bucket *)
Example C97_results :
  (run pospec ([], []) (ex_ocalls ex_pal [])).1 =
   [PDone; PName 0; PName 1; PName 2; PNames [0; 2; 1]; PName 3; PName 4; PNames [3; 0; 4; 2; 1]; PInt 1;
    PNames [3; 0; 2; 4; 1]; PDone; PName 0; PDone; PName 5; PNames [3; 0; 2; 4; 1; 5]; PName 0; PNames [3; 0; 2; 4; 1; 5];
    PNames [0]; PName 6; PNames [3; 0; 2; 4; 1; 5]; PDone; PNames [3; 0; 2; 4; 1; 5]; PBytes [97; 0]%N; PCount 7 20] /\
  (run pstep ([], [], pempty) (ex_ocalls ex_pal [])).1 = (run pospec ([], []) (ex_ocalls ex_pal [])).1 /\
  (run pstep ([], [], pempty) (ex_ocalls ex_far [7; 8]%N)).1 = (run pospec ([], []) (ex_ocalls ex_pal [])).1.
Proof. split; [vm_compute; reflexivity|]. split; vm_compute; reflexivity. Qed.
Example C97_finishes : forall b, let r := run pstep ([], [], pempty) (if b : bool then ex_ocalls ex_pal [] else ex_ocalls ex_far [7; 8]%N) in (is_ret r.2 && (length r.1 =? 24)) = true.
Proof. intros [|]; vm_compute; reflexivity. Qed.
