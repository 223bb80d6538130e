(** Proofs about maa.c. *)
From Verif Require Import Base CStr ListLemmas StackModel ObjModel MemModel MemProofs MemHist ListModel ListProofs ListHist SkipModel SkipSpec SkipHist ArgModel PrModel PrSpec PrProofs PrHist PrProps2 LogModel.
From Verif Require Import PrimeModel HashModel HashSpec HashProofs HashOps HashHist HashFnModel HashFnProofs NameTab FlagModel FlagSpec FlagProofs FlagHist FlagProps TimerModel TimerSpec TimerProofs TimerProps.
From Verif Require Import StrModel StrProofs StrHist StrProps PrsModel PrsSpec PrsProofs MaaModel MaaSpec MaaLists MaaSkips.
From Coq Require Import String.
Notation length := List.length.
Local Open Scope Z_scope.

(** ** maa_init *)
Lemma register_all_ok al l : forall d L ev, (forall i, halloc_ok (al i)) -> flag_history true d L ev ->
  Forall (fun fn => str_ok fn.2 /\ malformed fn.1 = false /\ (fn.1 < 2 ^ 64)%N) l ->
  l = [] \/ ok (fun d' => exists L', flag_history true d' (Some L') ev /\
        forall n, find_in (Some L') n = match find_in L n with Some f => Some f | None => lookup_name n ((fun fn => (fn.2, fn.1)) <$> l) end)
     (exists i, can_fail (al i)) (register_all al d l).
Proof.
  induction l as [|[f n] l IH]; intros d L ev Hal Hd Hl; [by left|right]. cbn [register_all].
  apply Forall_cons in Hl as [(Hn & Hm & Hf) Hl]. cbn [fst snd] in Hn, Hm, Hf.
  pose proof (FlagHist.register_ok (al (length l)) d L ev f n [] (flag_inv _ _ _ _ Hd) (Hal _) Hn Hm) as Hr.
  unfold _dbg_register. destruct (flg_register (al (length l)) d f (Some (n ++ [0%N]))) as [d1| | | |] eqn:E; cbn [ok] in Hr; try done.
  - rb. pose proof (fh_register true _ d L ev f n [] d1 Hd (Hal _) Hn Hf E) as H1.
    assert (HF : forall m, find_in (Some (add_name n f (default [] L))) m =
              match find_in L m with Some x => Some x | None => if decide (n = m) then Some f else None end).
    { intros m. cbn [find_in]. rewrite lookup_add. destruct L as [L|]; simpl.
      - destruct (decide (n = m)) as [->|]; by destruct (lookup_name m L).
      - by destruct (decide (n = m)). }
    destruct (IH d1 (Some (add_name n f (default [] L))) ev Hal H1 Hl) as [->|Hok].
    + cbn [register_all ok]. eexists. split; [exact H1|]. intros m. rewrite HF. cbn [fmap list_fmap lookup_name fst snd]. done.
    + eapply ok_mono; [exact Hok| |done]. intros d' (L' & H2 & H3). exists L'. split; [done|]. intros m. rewrite H3, HF.
      cbn [fmap list_fmap lookup_name fst snd]. destruct (find_in L m); [done|]. by destruct (decide (n = m)).
  - cbn. eauto.
Qed.

(** ** strings *)
Lemma str_ok_b (s : list N) : forallb (fun c => (0 <? c)%N && (c <? 256)%N) s = true -> str_ok s.
Proof.
  intros H. apply Forall_forall. intros c Hc. rewrite forallb_forall in H. apply elem_of_list_In in Hc. apply H in Hc.
  apply andb_true_iff in Hc as [H1 H2]. apply N.ltb_lt in H1, H2. done.
Qed.
Lemma total_ok : str_ok t_total.
Proof. by apply str_ok_b. Qed.

(** ** maa_shutdown, module by module *)
Lemma str_destroy_ok w G : pool_history w G ->
  match glob w with
  | None => str_destroy w = Ret (w, ∅)
  | Some p => exists g, G !! p = Some g /\
      if decide (q_ro g = 0) then
        exists w', str_destroy w = Ret (w', ∅) /\ StrHist.pcall (w, G) (w', delete p G) /\ glob w' = None /\ pools w' = delete p (pools w) /\
          (forall s a, (s, a) ∈ q_int g -> mblk (pmem w') !! a = None)
      else str_destroy w = Abort
  end.
Proof.
  intros H. destruct (glob w) as [p|] eqn:Hgl; [|by unfold str_destroy; rewrite Hgl].
  destruct (st_inv w G H) as [GM I]. cbn [fst snd] in I. destruct (wi_glob _ _ _ I p Hgl) as [g Hg]. exists g. split; [done|].
  pose proof (pool_destroy_ok w G GM p g I Hg) as Hd. unfold str_destroy. rewrite Hgl. case_decide as Hro.
  - destruct Hd as (w1 & GM' & E & Hp & _ & _ & Hgone & _). rewrite E. rb. eexists. split; [done|]. split.
    { eapply pc_gdestroy; [done|]. unfold str_destroy. rewrite Hgl, E. rb. done. }
    split; [done|]. split; [done|]. cbn [pmem]. intros s a Hin. 
    destruct (wi_pool _ _ _ I p g Hg) as (x & Hx & Ho). destruct (po_done _ _ _ Ho s a Hin) as (rest & Hb). by eapply Hgone.
  - by rewrite Hd.
Qed.

Lemma test_lit s l ev i : flag_history true s l ev -> (i < 30)%N ->
  exists r, dbg_test s (fl 3 i) = Ret r /\ negb (r =? 0) = lit ev 3 i.
Proof.
  intros H Hi. destruct (C43_test true s l ev (fl 3 i) H (fl_lt 3 i ltac:(lia) Hi)) as (r & E & _ & Hr). exists r. split; [done|].
  assert (Hs : seen (fl 3 i) = 3%N). { unfold seen. by rewrite fl_set. } rewrite Hs in Hr.
  destruct (lit ev 3 i) eqn:El.
  - destruct (Z.eqb_spec r 0) as [->|]; [|done]. exfalso. apply (proj2 Hr); [|done]. exists i. rewrite fl_bit, N.eqb_refl by done. done.
  - destruct (Z.eqb_spec r 0); [done|]. exfalso. destruct (proj1 Hr n) as (j & Hj & Hb & Hx). rewrite fl_bit in Hb by done.
    apply N.eqb_eq in Hb as <-. congruence.
Qed.
Lemma itoa_len z : - 2 ^ 31 <= z < 2 ^ 31 -> (length (c_itoa z) <= 11)%nat.
Proof.
  intros Hz. unfold c_itoa. destruct (Z.ltb_spec z 0).
  - destruct (digits_spec 10 (Z.to_N (- z)) ltac:(lia)) as (_ & _ & H3).
    { change (10 ^ N.of_nat 10)%N with 10000000000%N. lia. } cbn [length]. lia.
  - destruct (digits_spec 10 (Z.to_N z) ltac:(lia)) as (_ & _ & H3).
    { change (10 ^ N.of_nat 10)%N with 10000000000%N. lia. } lia.
Qed.
Definition is_int (z : Z) : Prop := - 2 ^ 31 <= z < 2 ^ 31.
Definition version_text (a b c : Z) : list N := bytes "Libmaa "%string ++ c_itoa a ++ bytes "."%string ++ c_itoa b ++ bytes "."%string ++ c_itoa c.
Lemma version_ok a b c : is_int a -> is_int b -> is_int c -> maa_version a b c = Ret (version_text a b c).
Proof.
  intros Ha Hb Hc. unfold maa_version, version_text. pose proof (itoa_len a Ha). pose proof (itoa_len b Hb). pose proof (itoa_len c Hc).
  rewrite (proj2 (Nat.ltb_ge _ _)); [done|]. rewrite !app_length. cbn [length t_libmaa]. lia.
Qed.
Lemma print_stats_ok al w G : pool_history w G ->
  (forall p g, glob w = Some p -> G !! p = Some g -> (N.of_nat (length (q_int g)) < 2 ^ 32)%N) -> forall mem,
  ok (fun o => exists count bytes retrievals hits misses, o = [OStats (glob w) count bytes retrievals hits misses] /\
        match glob w with
        | None => count = 0 /\ bytes = 0 /\ retrievals = 0 /\ hits = 0 /\ misses = 0
        | Some p => forall g, G !! p = Some g ->
            count = Z.of_nat (length (s_done (q_mem g))) /\ bytes = s_bytes (q_mem g) /\
            retrievals = to_int (Z.of_N (u64 (q_retr g))) /\ misses = to_int (Z.of_N (u64 (q_miss g)))
        end)
     (mem = false \/ blk_alloc (pa_hash al) 72 = false) (str_print_stats mem al w).
Proof.
  intros H Hsm mem. unfold str_print_stats. destruct mem; [|by left]. destruct (glob w) as [p|] eqn:Hgl.
  - destruct (st_inv w G H) as [GM I]. cbn [fst snd] in I. destruct (wi_glob _ _ _ I p Hgl) as [g Hg].
    eapply ok_bind; [eapply ok_mono; [apply (C61_stats w G p g al H Hg (Hsm p g eq_refl Hg))|intros x Hx; exact Hx|by right]|].
    intros [[[[c b] r] h] m] (H1 & H2 & H3 & H4). cbn [ok]. do 5 eexists. split; [done|]. intros g' Hg'. assert (g' = g) as -> by congruence. done.
  - cbn. do 5 eexists. done.
Qed.
