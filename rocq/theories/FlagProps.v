(** Properties C43-C45 and C63: flags (flags.c) and debugging flags (debug.c).
    [dbg] chooses between the two; [s] is any state reached by any history of calls, [l]
    the registered names, [ev] what was done to the flags. *)
From Verif Require Import Base CStr ListLemmas PrimeModel HashModel HashSpec HashProofs HashOps HashHist HashFnModel HashFnProofs NameTab FlagModel FlagSpec FlagProofs FlagHist Alloc.
Local Open Scope N_scope.

(** ** C43 *)
(** The test of [g] is non-zero iff one of its low 30 bits is on in the set it looks at. *)
Theorem C43_test dbg s l ev g : flag_history dbg s l ev -> g < 2 ^ 32 ->
  exists r, dbg_test s g = Ret r /\ flg_test s g = Ret r /\
    (r <> 0%Z <-> exists i, i < 30 /\ N.testbit g i = true /\ lit ev (seen g) i = true).
Proof.
  intros Hh Hg. destruct (flag_inv _ _ _ _ Hh) as (_ & [Hl Hw] & _).
  destruct (test_ok (fset s) g Hl Hg) as (r & E & Hr). exists r. split; [done|]. split; [done|]. rewrite Hr.
  assert (Hs : seen g < 4). { unfold seen. pose proof (set_of_lt g Hg). destruct (_ =? 2); lia. }
  split; intros (i & Hi & Hb & Hx); exists i; (split; [done|]); (split; [done|]); [by rewrite <- Hw|by rewrite Hw].
Qed.

Lemma fl_lt k i : k < 4 -> i < 30 -> fl k i < 2 ^ 32.
Proof.
  intros Hk Hi. unfold fl. assert (2 ^ i < 2 ^ 30) by (apply N.pow_lt_mono_r; lia).
  assert (k * 2 ^ 30 <= 3 * 2 ^ 30) by (apply N.mul_le_mono_r; lia). lia.
Qed.
Lemma fl_set k i : i < 30 -> set_of (fl k i) = k.
Proof.
  intros Hi. unfold set_of, fl. assert (2 ^ i < 2 ^ 30) by (apply N.pow_lt_mono_r; lia).
  rewrite N.div_add_l by lia. rewrite N.div_small by done. lia.
Qed.
Lemma fl_bit k i j : i < 30 -> j < 30 -> N.testbit (fl k i) j = (i =? j).
Proof.
  intros Hi Hj. assert (Hlt : 2 ^ i < 2 ^ 30) by (apply N.pow_lt_mono_r; lia).
  rewrite <- (N.mod_pow2_bits_low _ 30) by done. unfold fl. rewrite N.add_comm, N.mod_add, N.mod_small by lia.
  apply N.pow2_bits_eqb.
Qed.

(** [s] has the flag [g] on *)
Definition on (s : fstate) (g : N) : Prop := exists r, dbg_test s g = Ret r /\ r <> 0%Z.

Lemma on_lit dbg s l ev g : flag_history dbg s l ev -> g < 2 ^ 32 ->
  on s g <-> exists i, i < 30 /\ N.testbit g i = true /\ lit ev (seen g) i = true.
Proof.
  intros Hh Hg. destruct (C43_test dbg s l ev g Hh Hg) as (r & E & _ & Hr). rewrite <- Hr. unfold on. split.
  - intros (r' & E' & H). rewrite E in E'. by injection E' as ->.
  - eauto.
Qed.
Lemma on_fl dbg s l ev k i : flag_history dbg s l ev -> k < 4 -> i < 30 ->
  on s (fl k i) <-> lit ev (if k =? 2 then 3 else k) i = true.
Proof.
  intros Hh Hk Hi. rewrite (on_lit dbg s l ev _ Hh) by (by apply fl_lt). unfold seen. rewrite fl_set by done. split.
  - intros (j & Hj & Hb & Hx). rewrite fl_bit in Hb by done. apply N.eqb_eq in Hb as ->. done.
  - intros H. exists i. rewrite fl_bit by done. rewrite N.eqb_refl. done.
Qed.

(** A flag of set 0, 1 or 3 is an independent boolean: setting or clearing one flag sets
    or clears it and leaves every other one alone. *)
Theorem C43_set_flag s l ev k i : flag_history true s l ev -> k < 4 -> i < 30 ->
  exists s', dbg_set_flag s (fl k i) = Ret s' /\ flag_history true s' l (ESet (fl k i) :: ev) /\
    forall k' i', k' < 4 -> k' <> 2 -> i' < 30 ->
      (on s' (fl k' i') <-> (k' = k /\ i' = i) \/ on s (fl k' i')).
Proof.
  intros Hh Hk Hi. destruct (flag_inv _ _ _ _ Hh) as (_ & Hw & _).
  destruct (set_bits_ok (fset s) ev (fl k i) Hw (fl_lt _ _ Hk Hi)) as (v' & E & _).
  assert (E2 : dbg_set_flag s (fl k i) = Ret (FS (fhash s) v' (fused s))) by (unfold dbg_set_flag; by rewrite E).
  eexists. split; [exact E2|]. assert (Hh' : flag_history true (FS (fhash s) v' (fused s)) l (ESet (fl k i) :: ev)).
  { eapply fh_set_flag; [exact Hh| |done|exact E2]. pose proof (fl_lt k i Hk Hi). lia. }
  split; [done|]. intros k' i' Hk' H2 Hi'. rewrite (on_fl _ _ _ _ _ _ Hh'), (on_fl _ _ _ _ _ _ Hh) by done.
  rewrite (proj2 (N.eqb_neq k' 2) H2). cbn [lit]. rewrite fl_set, fl_bit by done.
  destruct (N.eqb_spec k k'), (N.eqb_spec i i'); cbn [andb]; split; try tauto; try (intros [[? ?]|?]; [congruence|done]).
  intros _. left. done.
Qed.
Theorem C43_unset_flag s l ev k i : flag_history true s l ev -> k < 4 -> i < 30 ->
  exists s', dbg_unset_flag s (fl k i) = Ret s' /\ flag_history true s' l (EClear (fl k i) :: ev) /\
    forall k' i', k' < 4 -> k' <> 2 -> i' < 30 ->
      (on s' (fl k' i') <-> ~ (k' = k /\ i' = i) /\ on s (fl k' i')).
Proof.
  intros Hh Hk Hi. destruct (flag_inv _ _ _ _ Hh) as (_ & Hw & _).
  destruct (clear_bits_ok (fset s) ev (fl k i) Hw (fl_lt _ _ Hk Hi)) as (v' & E & _).
  assert (E2 : dbg_unset_flag s (fl k i) = Ret (FS (fhash s) v' (fused s))) by (unfold dbg_unset_flag; by rewrite E).
  eexists. split; [exact E2|]. assert (Hh' : flag_history true (FS (fhash s) v' (fused s)) l (EClear (fl k i) :: ev)).
  { eapply fh_unset_flag; [exact Hh| |done|exact E2]. pose proof (fl_lt k i Hk Hi). lia. }
  split; [done|]. intros k' i' Hk' H2 Hi'. rewrite (on_fl _ _ _ _ _ _ Hh'), (on_fl _ _ _ _ _ _ Hh) by done.
  rewrite (proj2 (N.eqb_neq k' 2) H2). cbn [lit]. rewrite fl_set, fl_bit by done.
  destruct (N.eqb_spec k k'), (N.eqb_spec i i'); cbn [andb]; split; try (intros [? ?]; done); try (intros ?; split; [intros [? ?]; congruence|done]).
  - intros [H _]. exfalso. apply H. done.
Qed.
(** "none" clears and "all" sets every flag of every set *)
Theorem C43_none_all dbg s l ev g rest : flag_history dbg s (Some l) ev -> g < 2 ^ 32 ->
  (exists s', set_call dbg s (Some ([110; 111; 110; 101] ++ 0 :: rest)) = Ret s' /\ ~ on s' g) /\
  (exists s', set_call dbg s (Some ([97; 108; 108] ++ 0 :: rest)) = Ret s' /\
     (on s' g <-> exists i, i < 30 /\ N.testbit g i = true)).
Proof.
  intros Hh Hg. pose proof (flag_inv _ _ _ _ Hh) as Hi. split.
  - pose proof (set_call_ok dbg s l ev _ rest Hi s_none_ok ltac:(right; left; done)) as Hm.
    assert (Ee : effect_of dbg (Some l) s_none = Does [ENone]) by (by destruct dbg). rewrite Ee in Hm.
    destruct Hm as [Hm _]. destruct (Hm ltac:(by constructor)) as (s' & E & _). exists s'. split; [exact E|].
    assert (Hh' := fh_set dbg s (Some l) ev s_none rest s' Hh s_none_ok ltac:(done) E). rewrite Ee in Hh'.
    rewrite (on_lit _ _ _ _ _ Hh' Hg). intros (i & _ & _ & Hx). done.
  - pose proof (set_call_ok dbg s l ev _ rest Hi s_all_ok ltac:(right; left; done)) as Hm.
    assert (Ee : effect_of dbg (Some l) s_all = Does [EAll]) by (by destruct dbg). rewrite Ee in Hm.
    destruct Hm as [Hm _]. destruct (Hm ltac:(by constructor)) as (s' & E & _). exists s'. split; [exact E|].
    assert (Hh' := fh_set dbg s (Some l) ev s_all rest s' Hh s_all_ok ltac:(done) E). rewrite Ee in Hh'.
    rewrite (on_lit _ _ _ _ _ Hh' Hg). split; [intros (i & Hi2 & Hb & Hx); eauto|intros (i & Hi2 & Hb); exists i; done].
Qed.
(** Set 2 does not work: setting one of its flags is not seen by any test of a single
    flag, and testing one reports the flag of the same bit in set 3. *)
Theorem C43_set2 s l ev i : flag_history true s l ev -> i < 30 ->
  (on s (fl 2 i) <-> on s (fl 3 i)) /\
  exists s', dbg_set_flag s (fl 2 i) = Ret s' /\
    forall k' i', k' < 4 -> i' < 30 -> (on s' (fl k' i') <-> on s (fl k' i')).
Proof.
  intros Hh Hi. split.
  - rewrite !(on_fl _ _ _ _ _ _ Hh) by lia. done.
  - destruct (C43_set_flag s l ev 2 i Hh ltac:(lia) Hi) as (s' & E & Hh' & H). exists s'. split; [done|].
    intros k' i' Hk' Hi'. rewrite (on_fl _ _ _ _ _ _ Hh'), (on_fl _ _ _ _ _ _ Hh) by done. cbn [lit].
    rewrite fl_set, fl_bit by done.
    destruct (N.eqb_spec k' 2) as [->|Hn]; [done|]. rewrite (proj2 (N.eqb_neq 2 k')) by done. done.
Qed.
(** Flags beyond 32 bits index the words out of bounds. *)
Theorem C43_wide_flag s l ev f : flag_history true s l ev -> 2 ^ 32 <= f ->
  dbg_set_flag s f = UB /\ dbg_unset_flag s f = UB.
Proof.
  intros Hh Hf. destruct (flag_inv _ _ _ _ Hh) as (_ & [Hl _] & _). unfold dbg_set_flag, dbg_unset_flag.
  destruct (wide_bits (fset s) f Hl Hf) as [-> ->]. done.
Qed.
Print Assumptions C43_test.
Print Assumptions C43_set_flag.
Print Assumptions C43_unset_flag.
Print Assumptions C43_none_all.
Print Assumptions C43_set2.
Print Assumptions C43_wide_flag.

(** ** C44 *)
(** one low-order bit *)
Definition single_low_bit (f : N) : Prop := exists i, i < 30 /\ f mod 2 ^ 30 = 2 ^ i.
Theorem C44_malformed al s f name : ~ single_low_bit f ->
  flg_register al s f name = Fatal /\ _dbg_register al s f name = Fatal /\ dbg_register al s f name = Fatal.
Proof.
  intros Hf. assert (Hm : malformed f = true).
  { destruct (malformed f) eqn:E; [done|]. exfalso. apply Hf. by apply malformed_spec. }
  assert (E : flg_register al s f name = Fatal) by (unfold flg_register; by rewrite Hm).
  split; [done|]. split; [done|]. unfold dbg_register. by destruct (_ =? _).
Qed.
Lemma both_bits f : N.land f 0xc0000000 = 0xc0000000 <-> N.testbit f 30 = true /\ N.testbit f 31 = true.
Proof.
  split.
  - intros H. assert (H30 : N.testbit (N.land f 0xc0000000) 30 = true) by (by rewrite H).
    assert (H31 : N.testbit (N.land f 0xc0000000) 31 = true) by (by rewrite H).
    rewrite N.land_spec in H30, H31. apply andb_true_iff in H30 as [? _], H31 as [? _]. done.
  - intros [H30 H31]. apply N.bits_inj. intros i. rewrite N.land_spec.
    destruct (N.eq_dec i 30) as [->|]; [by rewrite H30|]. destruct (N.eq_dec i 31) as [->|]; [by rewrite H31|].
    assert (Hz : N.testbit 0xc0000000 i = false); [|by rewrite Hz, andb_false_r].
    replace 0xc0000000 with (N.lxor (2 ^ 30) (2 ^ 31)) by done. rewrite N.lxor_spec, !N.pow2_bits_eqb.
    rewrite !(proj2 (N.eqb_neq _ _)) by congruence. done.
Qed.
Theorem C44_reserved al s f name : N.testbit f 30 = true -> N.testbit f 31 = true -> dbg_register al s f name = Fatal.
Proof.
  intros H1 H2. unfold dbg_register. by rewrite (proj2 (both_bits f) (conj H1 H2)).
Qed.
(** Any other registration succeeds unless memory runs out -- also when the flag is already
    registered under another name, and also beyond 32 bits -- and the name can then be set:
    it is bound to the flag it was first registered with. *)
Theorem C44_register dbg al s l ev f n rest : flag_history dbg s l ev -> halloc_ok al -> str_ok n ->
  single_low_bit f -> f < 2 ^ 64 ->
  ok (fun s' => exists l', flag_history dbg s' (Some l') ev /\
        (forall m, find_in (Some l') m = if decide (n = m) then Some (default f (find_in l n)) else find_in l m))
     (can_fail al) (flg_register al s f (Some (n ++ 0 :: rest))).
Proof.
  intros Hh Hal Hn Hf Hlt. apply malformed_spec in Hf.
  pose proof (register_ok al s l ev f n rest (flag_inv _ _ _ _ Hh) Hal Hn Hf) as Hr.
  destruct (flg_register al s f _) as [s'| | | |] eqn:E; try done. cbn [ok] in *.
  eexists. split; [eapply fh_register; [exact Hh|exact Hal|exact Hn|exact Hlt|exact E]|]. intros m. cbn [find_in].
  rewrite lookup_add. destruct l as [l|]; done.
Qed.
Theorem C44_dbg_register al s l ev f n rest : flag_history true s l ev -> halloc_ok al -> str_ok n ->
  single_low_bit f -> f < 2 ^ 64 -> ~ (N.testbit f 30 = true /\ N.testbit f 31 = true) ->
  ok (fun s' => exists l', flag_history true s' (Some l') ev /\
        (forall m, find_in (Some l') m = if decide (n = m) then Some (default f (find_in l n)) else find_in l m))
     (can_fail al) (dbg_register al s f (Some (n ++ 0 :: rest))).
Proof.
  intros Hh Hal Hn Hf Hlt Hb. unfold dbg_register. rewrite (proj2 (N.eqb_neq _ _)); [|by rewrite both_bits].
  by apply C44_register.
Qed.
(** In particular the second name of a flag is accepted. *)
Theorem C44_reuse_accepted dbg al s l ev f n n' rest : flag_history dbg s (Some l) ev -> halloc_ok al -> str_ok n' ->
  find_in (Some l) n = Some f -> single_low_bit f -> f < 2 ^ 64 -> n' <> n -> find_in (Some l) n' = None ->
  ok (fun s' => exists l', flag_history dbg s' (Some l') ev /\ find_in (Some l') n = Some f /\ find_in (Some l') n' = Some f)
     (can_fail al) (flg_register al s f (Some (n' ++ 0 :: rest))).
Proof.
  intros Hh Hal Hn Hf Hsb Hlt Hne Hnone. eapply ok_mono; [by apply (C44_register dbg al s (Some l) ev f n' rest)| |done].
  intros s' (l' & Hh' & Hl). exists l'. split; [done|]. rewrite !Hl. rewrite Hnone. cbn [default].
  rewrite decide_False by done. by rewrite decide_True.
Qed.
Print Assumptions C44_malformed.
Print Assumptions C44_reserved.
Print Assumptions C44_register.
Print Assumptions C44_dbg_register.
Print Assumptions C44_reuse_accepted.

(** ** C45 *)
(** [call] does [e] to the flags: exits for an invalid name; otherwise returns, unless the
    flag is one of those beyond 32 bits *)
Definition does (dbg : bool) (call : res fstate) (l : list (list N * N)) (ev : list fevent) (e : effect) : Prop :=
  match e with
  | Invalid => call = Fatal
  | Does e => (fits e -> exists s', call = Ret s' /\ flag_history dbg s' (Some l) (e ++ ev)) /\ (~ fits e -> call = UB)
  end.
Lemma meets_does dbg s l ev n rest : flag_history dbg s (Some l) ev -> str_ok n -> n <> [] ->
  does dbg (set_call dbg s (Some (n ++ 0 :: rest))) l ev (effect_of dbg (Some l) n).
Proof.
  intros Hh Hn Hne. pose proof (set_call_ok dbg s l ev n rest (flag_inv _ _ _ _ Hh) Hn ltac:(auto)) as Hm.
  destruct (effect_of dbg (Some l) n) as [e|] eqn:Ee; [|done]. destruct Hm as [H1 H2]. split; [|done].
  intros Hf. destruct (H1 Hf) as (s' & E & _). exists s'. split; [done|].
  assert (Hh' := fh_set dbg s (Some l) ev n rest s' Hh Hn Hne E). by rewrite Ee in Hh'.
Qed.
Theorem C45_flg_set s l ev n rest : flag_history false s (Some l) ev -> str_ok n -> n <> [] ->
  does false (flg_set s (Some (n ++ 0 :: rest))) l ev (flg_effect (find_in (Some l)) n).
Proof. intros Hh Hn Hne. exact (meets_does false s l ev n rest Hh Hn Hne). Qed.
Theorem C45_dbg_set s l ev n rest : flag_history true s (Some l) ev -> str_ok n -> n <> [] ->
  does true (dbg_set s (Some (n ++ 0 :: rest))) l ev (dbg_effect (find_in (Some l)) n).
Proof. intros Hh Hn Hne. exact (meets_does true s l ev n rest Hh Hn Hne). Qed.
(** hence: flg_set exits exactly for names that are neither special nor registered, with
    or without a sign *)
Theorem C45_flg_set_invalid s l ev n rest : flag_history false s (Some l) ev -> str_ok n -> n <> [] ->
  flg_set s (Some (n ++ 0 :: rest)) = Fatal <->
  n <> [110; 111; 110; 101] /\ n <> [97; 108; 108] /\ find_in (Some l) n = None /\
  (forall c m, n = c :: m -> c = 43 \/ c = 45 -> find_in (Some l) m = None).
Proof.
  intros Hh Hn Hne. pose proof (C45_flg_set s l ev n rest Hh Hn Hne) as Hd. unfold flg_effect in Hd.
  assert (Hnot : forall e, does false (flg_set s (Some (n ++ 0 :: rest))) l ev (Does e) -> flg_set s (Some (n ++ 0 :: rest)) <> Fatal).
  { intros e [H1 H2]. destruct (decide (fits e)) as [Hf|Hf]; [destruct (H1 Hf) as (s' & -> & _); done|by rewrite (H2 Hf)]. }
  destruct (decide (n = [110; 111; 110; 101])) as [E1|E1].
  { split; [intros H; by apply Hnot in Hd|intros [H _]; done]. }
  destruct (decide (n = [97; 108; 108])) as [E2|E2].
  { split; [intros H; by apply Hnot in Hd|intros (_ & H & _); done]. }
  destruct (find_in (Some l) n) as [f|] eqn:E3.
  { split; [intros H; by apply Hnot in Hd|intros (_ & _ & H & _); done]. }
  destruct n as [|c m]; [done|].
  destruct (decide (c = 43)) as [->|H43].
  { destruct (find_in (Some l) m) as [f|] eqn:E4.
    - split; [intros H; by apply Hnot in Hd|]. intros (_ & _ & _ & H). rewrite (H 43 m) in E4; [done|done|auto].
    - split; [|done]. intros _. split; [done|]. split; [done|]. split; [done|]. intros c' m' [= <- <-] _. done. }
  destruct (decide (c = 45)) as [->|H45].
  { destruct (find_in (Some l) m) as [f|] eqn:E4.
    - split; [intros H; by apply Hnot in Hd|]. intros (_ & _ & _ & H). rewrite (H 45 m) in E4; [done|done|auto].
    - split; [|done]. intros _. split; [done|]. split; [done|]. split; [done|]. intros c' m' [= <- <-] _. done. }
  assert (Hx : flg_set s (Some ((c :: m) ++ 0 :: rest)) = Fatal).
  { revert Hd. destruct (match c with 43 => _ | 45 => _ | _ => _ end) eqn:Em; [|done]. exfalso.
    revert Em. repeat case_match; done. }
  split; [|done]. intros _. split; [done|]. split; [done|]. split; [done|]. intros c' m' [= <- <-] [?|?]; done.
Qed.
(** dbg_set clears the flag of the rest of the name for any other first character *)
Theorem C45_dbg_any_prefix s l ev c m f rest : flag_history true s (Some l) ev -> str_ok (c :: m) ->
  c :: m <> [110; 111; 110; 101] -> c :: m <> [97; 108; 108] -> find_in (Some l) (c :: m) = None ->
  find_in (Some l) m = Some f -> c <> 43 -> f < 2 ^ 32 ->
  exists s', dbg_set s (Some ((c :: m) ++ 0 :: rest)) = Ret s' /\ flag_history true s' (Some l) (EClear f :: ev).
Proof.
  intros Hh Hn H1 H2 E1 E2 Hc Hf. pose proof (C45_dbg_set s l ev (c :: m) rest Hh Hn ltac:(done)) as Hd. unfold dbg_effect in Hd.
  rewrite !decide_False, E1, E2, (proj2 (N.eqb_neq c 43) Hc) in Hd by done. destruct Hd as [Hd _]. apply Hd.
  constructor; [done|]. constructor.
Qed.
(** and a sign before an unregistered name is ignored *)
Theorem C45_dbg_sign_ignored s l ev c m rest : flag_history true s (Some l) ev -> str_ok (c :: m) ->
  c = 43 \/ c = 45 -> find_in (Some l) (c :: m) = None -> find_in (Some l) m = None ->
  exists s', dbg_set s (Some ((c :: m) ++ 0 :: rest)) = Ret s' /\ flag_history true s' (Some l) ev.
Proof.
  intros Hh Hn Hc E1 E2. pose proof (C45_dbg_set s l ev (c :: m) rest Hh Hn ltac:(done)) as Hd. unfold dbg_effect in Hd.
  rewrite E1, E2 in Hd. destruct (decide (c :: m = [110;111;110;101])) as [[= -> _]|_]; [by destruct Hc|].
  destruct (decide (c :: m = [97;108;108])) as [[= -> _]|_]; [by destruct Hc|].
  assert (Hs : (c =? 43) || (c =? 45) = true) by (by destruct Hc as [-> | ->]). rewrite Hs in Hd.
  destruct Hd as [Hd _]. apply Hd. constructor.
Qed.
(** no names registered, and no name *)
Theorem C45_no_table dbg s ev n : flag_history dbg s None ev -> set_call dbg s (Some n) = Fatal /\ set_call dbg s None = Abort.
Proof.
  intros Hh. split; [|by destruct dbg]. apply (set_no_table dbg s ev). exact (flag_inv _ _ _ _ Hh).
Qed.
(** dbg_set looks behind the end of the empty name *)
Theorem C45_dbg_empty_name s l ev : flag_history true s (Some l) ev -> find_in (Some l) [] = None -> dbg_set s (Some [0]) = UB.
Proof.
  intros Hh El. destruct (flag_inv _ _ _ _ Hh) as (Hu & Hw & Ht). destruct s as [[t|] v fu]; [|done]. cbn [fhash fset fused] in *.
  destruct Ht as (Hnt & Hg & Hd). unfold dbg_set. cbn [fhash].
  destruct (strcmp_eq [] [] s_none ltac:(constructor) s_none_ok) as (c1 & E1 & H1). cbn [app] in E1. rewrite E1. rb. rewrite H1.
  destruct (strcmp_eq [] [] s_all ltac:(constructor) s_all_ok) as (c2 & E2 & H2). cbn [app] in E2. rewrite E2. rb. rewrite H2.
  rewrite !bool_decide_eq_false_2 by done.
  destruct (name_key_ok [] [] ltac:(constructor)) as (k & Ek & Hk). cbn [app] in Ek. rewrite Ek. rb.
  destruct (retr_none t l k Hnt) as (t1 & Er & Hn1); [by rewrite Hk|]. rewrite Er. rb. done.
Qed.
Print Assumptions C45_flg_set.
Print Assumptions C45_dbg_set.
Print Assumptions C45_flg_set_invalid.
Print Assumptions C45_dbg_any_prefix.
Print Assumptions C45_dbg_sign_ignored.
Print Assumptions C45_no_table.
Print Assumptions C45_dbg_empty_name.

(** ** C63: names, lists and the end *)
Theorem C63_flg_name dbg s l ev f : flag_history dbg s (Some l) ev ->
  exists s' r, name_call dbg s f = Ret (s', r) /\ flag_history dbg s' (Some l) ev /\
    match r with
    | Some n => find_in (Some l) n = Some f
    | None => forall n, find_in (Some l) n <> Some f     (* "unknown flag" *)
    end.
Proof.
  intros Hh. pose proof (flag_inv _ _ _ _ Hh) as Hi. destruct (flg_name_ok s l ev f Hi) as (s' & r & E & _ & Hr).
  assert (Eq : name_call dbg s f = flg_name s f).
  { destruct Hi as (_ & _ & Ht), s as [[t|] v fu]; [|done]. by destruct dbg. }
  exists s', r. rewrite Eq. split; [done|]. split; [eapply fh_name; [exact Hh|by rewrite Eq]|].
  destruct Hi as (_ & _ & Ht). destruct (fhash s); [|done]. destruct Ht as (_ & _ & Hd). cbn [find_in].
  destruct r as [n|].
  - revert Hr Hd. clear. induction l as [|[a b] l IH]; intros Hin Hd; [by apply elem_of_nil in Hin|]. cbn [lookup_name].
    rewrite fmap_cons in Hd. apply NoDup_cons in Hd as [Hn Hd]. cbn [fst] in Hn. apply elem_of_cons in Hin as [[= <- <-]|Hin].
    + by rewrite decide_True.
    + destruct (decide (a = n)) as [->|]; [|by apply IH]. exfalso. apply Hn. apply elem_of_list_fmap. by exists (n, f).
  - intros n H. apply lookup_in in H. by apply (Hr n).
Qed.
(** flg_list prints each registered name once; dbg_list prints the user's names, then the
    library's own, marked *)
Theorem C63_flg_list s l ev : flag_history false s (Some l) ev ->
  exists out, flg_list s = Ret (s, out) /\ out ≡ₚ (fun nf => (nf.1, false)) <$> l /\ NoDup l.*1.
Proof.
  intros Hh. pose proof (flag_inv _ _ _ _ Hh) as Hi. destruct (flg_list_ok s l ev Hi) as (out & E & Hp).
  exists out. split; [done|]. split; [done|]. destruct Hi as (_ & _ & Ht). destruct (fhash s); [|done]. apply Ht.
Qed.
Theorem C63_dbg_list s l ev : flag_history true s (Some l) ev ->
  exists user own : list (list N),
    dbg_list s = Ret (s, ((fun n : list N => (n, false)) <$> user) ++ ((fun n : list N => (n, true)) <$> own)) /\ NoDup (user ++ own) /\
    forall n, (n ∈ user <-> exists f, find_in (Some l) n = Some f /\ ~ (N.testbit f 30 = true /\ N.testbit f 31 = true)) /\
              (n ∈ own <-> exists f, find_in (Some l) n = Some f /\ N.testbit f 30 = true /\ N.testbit f 31 = true).
Proof.
  intros Hh. pose proof (flag_inv _ _ _ _ Hh) as Hi. destruct (dbg_list_ok s l ev Hi) as (user & own & E & Hu & Ho).
  destruct Hi as (_ & _ & Ht). destruct (fhash s); [|done]. destruct Ht as (_ & _ & Hd).
  assert (Hfind : forall n f, find_in (Some l) n = Some f <-> (n, f) ∈ l).
  { intros n f. cbn [find_in]. split; [apply lookup_in|]. revert Hd. clear. induction l as [|[a b] l IH]; intros Hd Hin; [by apply elem_of_nil in Hin|].
    cbn [lookup_name]. rewrite fmap_cons in Hd. apply NoDup_cons in Hd as [Hn Hd]. cbn [fst] in Hn. apply elem_of_cons in Hin as [[= <- <-]|Hin].
    + by rewrite decide_True.
    + destruct (decide (a = n)) as [->|]; [|by apply IH]. exfalso. apply Hn. apply elem_of_list_fmap. by exists (n, f). }
  exists user, own. split; [done|]. split.
  - rewrite Hu, Ho. revert Hd. clear. induction l as [|[a b] l IH]; intros Hd; [apply NoDup_nil_2|].
    rewrite fmap_cons in Hd. apply NoDup_cons in Hd as [Hn Hd]. cbn [fst] in Hn. specialize (IH Hd).
    assert (Hsub : forall P `{forall x, Decision (P x)}, a ∉ (filter P l).*1).
    { intros P ? Hin. apply Hn. apply elem_of_list_fmap in Hin as ([a' b'] & -> & Hin). apply elem_of_list_filter in Hin as [_ Hin].
      apply elem_of_list_fmap. by exists (a', b'). }
    rewrite !filter_cons. cbn [snd]. destruct (builtin b); cbn [negb]; (destruct (decide (false = true)); [done|]); (destruct (decide (true = true)); [|done]).
    + rewrite fmap_cons. cbn [fst]. rewrite <- Permutation_middle. constructor; [|done]. intros Hin. apply elem_of_app in Hin as [Hin|Hin]; by eapply Hsub.
    + rewrite fmap_cons. cbn [fst]. rewrite <- app_comm_cons. constructor; [|done]. intros Hin. apply elem_of_app in Hin as [Hin|Hin]; by eapply Hsub.
  - intros n. rewrite Hu, Ho, !elem_of_list_fmap. split.
    + split.
      * intros ([n' f] & -> & Hin). apply elem_of_list_filter in Hin as [Hb Hin]. exists f. rewrite Hfind. split; [done|]. cbn [snd] in Hb.
        apply negb_true_iff, N.eqb_neq in Hb. by rewrite <- both_bits.
      * intros (f & Hf & Hb). exists (n, f). split; [done|]. apply elem_of_list_filter. rewrite Hfind in Hf. split; [|done]. cbn [snd].
        apply negb_true_iff, N.eqb_neq. by rewrite both_bits.
    + split.
      * intros ([n' f] & -> & Hin). apply elem_of_list_filter in Hin as [Hb Hin]. exists f. rewrite Hfind. split; [done|]. cbn [snd] in Hb.
        apply N.eqb_eq in Hb. by rewrite <- both_bits.
      * intros (f & Hf & Hb). exists (n, f). split; [done|]. apply elem_of_list_filter. rewrite Hfind in Hf. split; [|done]. cbn [snd].
        apply N.eqb_eq. by rewrite both_bits.
Qed.
(** destroying frees every node and starts afresh *)
(** without a table (nothing registered) both abort *)
Theorem C63_list_none dbg s ev : flag_history dbg s None ev -> flg_list s = Abort /\ dbg_list s = Abort.
Proof.
  intros Hh. destruct (flag_inv _ _ _ _ Hh) as (_ & _ & Hi). assert (E : fhash s = None) by (by destruct (fhash s)).
  unfold flg_list, dbg_list. rewrite E. split; reflexivity.
Qed.
Theorem C63_destroy dbg s l ev : flag_history dbg s l ev -> dbg_destroy s = Ret (fempty, ∅).
Proof. intros Hh. apply (destroy_ok s l ev). exact (flag_inv _ _ _ _ Hh). Qed.
Print Assumptions C63_flg_name.
Print Assumptions C63_flg_list.
Print Assumptions C63_list_none.
Print Assumptions C63_dbg_list.
Print Assumptions C63_destroy.

(** ** Non-vacuity *)
Definition ex_fal : halloc skey N := HA bump (fun _ => true).
Definition reg (s : fstate) (f : N) (n : list N) : fstate := getr (flg_register ex_fal s f (Some (n ++ [0]))) fempty.
(** "ab" = fl 0 0, "cd" = fl 1 3, "xab" = fl 3 0, "ef" = fl 2 5, "gh" again fl 0 0 *)
Definition ex1 : fstate := reg (reg (reg (reg (reg fempty (fl 0 0) [97; 98]) (fl 1 3) [99; 100]) (fl 3 0) [120; 97; 98]) (fl 2 5) [101; 102]) (fl 0 0) [103; 104].
Definition ex2 : fstate := getr (dbg_set ex1 (Some [43; 99; 100; 0])) fempty.                (* "+cd" *)
Definition ex3 : fstate := getr (dbg_set ex2 (Some [101; 102; 0])) fempty.                   (* "ef" *)
Example C43_run :
  is_ret (dbg_set ex1 (Some [43; 99; 100; 0])) = true /\ is_ret (dbg_set ex2 (Some [101; 102; 0])) = true /\
  dbg_test ex3 (fl 0 0) = Ret 0%Z /\ dbg_test ex3 (fl 1 3) = Ret 32%Z /\ dbg_test ex3 (fl 2 5) = Ret 0%Z /\
  dbg_set ex3 (Some [122; 122; 0]) = Fatal /\
  dbg_test (getr (dbg_set ex3 (Some [122; 99; 100; 0])) fempty) (fl 1 3) = Ret 0%Z /\        (* "zcd" clears *)
  flg_set ex3 (Some [122; 99; 100; 0]) = Fatal /\ flg_set ex3 (Some [45; 122; 0]) = Fatal /\
  is_ret (dbg_set ex3 (Some [45; 122; 0])) = true.
Proof. repeat (split; [vm_compute; reflexivity|]). vm_compute. reflexivity. Qed.
Lemma reg_history dbg s l ev f n : flag_history dbg s l ev -> str_ok n -> f < 2 ^ 64 ->
  is_ret (flg_register ex_fal s f (Some (n ++ [0]))) = true ->
  flag_history dbg (reg s f n) (Some (add_name n f (default [] l))) ev.
Proof.
  intros Hh Hn Hf E. eapply (fh_register dbg ex_fal); [exact Hh|apply bump_ok|exact Hn|exact Hf|apply getr_ok; exact E].
Qed.
Example C43_reachable dbg : exists l, flag_history dbg ex1 (Some l) [] /\ find_in (Some l) [103; 104] = Some 1 /\
  find_in (Some l) [120; 97; 98] = Some (fl 3 0).
Proof.
  eexists. split.
  { do 5 (eapply reg_history; [|repeat constructor; lia|done|vm_compute; reflexivity]). apply fh_start. }
  split; vm_compute; reflexivity.
Qed.
Example C44_values : single_low_bit (fl 2 5) /\ ~ single_low_bit 3 /\ ~ single_low_bit (2 ^ 31) /\ single_low_bit (2 ^ 40 + 1).
Proof.
  assert (Hno : forall f, malformed f = true -> ~ single_low_bit f) by (intros f E H; apply malformed_spec in H; congruence).
  split; [by exists 5|]. split; [by apply Hno|]. split; [by apply Hno|]. exists 0. done.
Qed.
