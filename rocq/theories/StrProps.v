(** C36-C39, C61, C62: string pools.  [pool_history w G]: any sequence of string-pool
    calls from the start of the program; for each live pool [p], [G !! p] is what the
    caller knows: [q_int] the interned strings with their pointers, [q_mem] every string
    handed out and the bytes being grown, [q_ro] whether an unfinished iteration left the
    pool read-only, [q_retr]/[q_miss] lookups and failed lookups.  [keeps p]: any further
    calls that do not destroy pool [p]. *)
From Verif Require Import Base Alloc ListLemmas CStr StackModel StackProofs ObjModel ObjProofs MemModel MemProofs MemHist.
From Verif Require Import PrimeModel HashModel HashSpec HashProofs HashHist HashFnModel HashFnProofs StrModel StrProofs StrHist.
Local Open Scope Z_scope.

(** ** C36 *)
Theorem C36_find : forall w G p g al s rest, pool_history w G -> G !! p = Some g -> palloc_ok al -> str_ok s ->
  (s ∉ (q_int g).*1 -> q_ro g = 0 /\ room (q_mem g) (Z.of_nat (length s) + 1)) ->
  ok (fun '(w', a) => exists g', keeps p (w, G) (w', <[p := g']> G) /\ (s, a) ∈ q_int g' /\
        (forall b, (s, b) ∈ q_int g -> a = b /\ q_int g' = q_int g /\ pmem w' = pmem w) /\
        (s ∉ (q_int g).*1 -> q_int g' = (s, a) :: q_int g /\
           mblk (pmem w) !! a = None /\ mblk (pmem w') = <[a := s ++ [0%N]]> (mblk (pmem w))))
     (pfail al) (str_pool_find al w (Some p) (s ++ 0%N :: rest)).
Proof.
  intros w G p g al s rest H Hg Hal Hs Hr. destruct (int_nodup w G H p g Hg) as [Hnd _].
  eapply ok_mono; [apply (hist_find w G H p g Hg al s rest Hal Hs)| |done].
  - intros Hn. apply Hr. by apply assoc_None.
  - intros [w' a] (Hk & _ & Ha & Hc). exists (found g s a). split; [done|]. split; [by apply assoc_in|].
    destruct (assoc s (q_int g)) as [b|] eqn:Ea.
    + destruct Hc as [-> Hm]. split.
      * intros b' Hb'. rewrite (in_assoc _ _ _ Hnd Hb') in Ea. injection Ea as ->. split; [done|].
        unfold found. rewrite (in_assoc _ _ _ Hnd Hb'). done.
      * intros Hn. exfalso. apply Hn. apply elem_of_list_fmap. exists (s, b). split; [done|by apply assoc_in].
    + split; [|intros _; naive_solver]. intros b Hb. by rewrite (in_assoc _ _ _ Hnd Hb) in Ea.
Qed.
Print Assumptions C36_find.
(** pointers and strings correspond one to one, now and at any later time *)
Theorem C36_same_iff_equal : forall w G p g s1 a1 w2 G2 g2 s2 a2, pool_history w G -> G !! p = Some g ->
  (s1, a1) ∈ q_int g -> keeps p (w, G) (w2, G2) -> G2 !! p = Some g2 -> (s2, a2) ∈ q_int g2 ->
  (a1 = a2 <-> s1 = s2).
Proof.
  intros w G p g s1 a1 w2 G2 g2 s2 a2 H Hg H1 Hk Hg2 H2.
  destruct (keeps_ghost _ _ _ Hk g (st_inv w G H) Hg) as (g' & Hg' & [l El] & _). cbn [snd] in Hg'.
  rewrite Hg2 in Hg'. injection Hg' as <-.
  assert (H1' : (s1, a1) ∈ q_int g2) by (rewrite El; apply elem_of_app; by right).
  pose proof (history_later _ _ _ _ H (keeps_later _ _ _ Hk)) as Hh2.
  destruct (int_nodup w2 G2 Hh2 p g2 Hg2) as [N1 N2]. split; intros ->.
  - apply elem_of_list_lookup in H1' as [i Hi], H2 as [j Hj].
    assert (i = j) as ->.
    { eapply (NoDup_lookup _ i j a2 N2); rewrite list_lookup_fmap; [by rewrite Hi|by rewrite Hj]. }
    congruence.
  - pose proof (in_assoc _ _ _ N1 H1') as E1. rewrite (in_assoc _ _ _ N1 H2) in E1. congruence.
Qed.
Print Assumptions C36_same_iff_equal.
(** the pointer holds the string as long as the pool lives *)
Theorem C36_stable : forall w G p g s a w2 G2, pool_history w G -> G !! p = Some g -> (s, a) ∈ q_int g ->
  keeps p (w, G) (w2, G2) -> exists rest, mblk (pmem w2) !! a = Some (s ++ 0%N :: rest).
Proof.
  intros w G p g s a w2 G2 H Hg Hin Hk.
  destruct (keeps_ghost _ _ _ Hk g (st_inv w G H) Hg) as (g' & Hg' & [l El] & _). cbn [snd] in Hg'.
  apply (int_memory w2 G2 (history_later _ _ _ _ H (keeps_later _ _ _ Hk)) p g' Hg').
  rewrite El. apply elem_of_app. by right.
Qed.
Print Assumptions C36_stable.
(** so is every copied or finished string *)
Theorem C36_stable_copies : forall w G p g a b w2 G2, pool_history w G -> G !! p = Some g -> (a, b) ∈ s_done (q_mem g) ->
  keeps p (w, G) (w2, G2) -> mblk (pmem w2) !! a = Some b.
Proof.
  intros w G p g a b w2 G2 H Hg Hin Hk.
  destruct (keeps_ghost _ _ _ Hk g (st_inv w G H) Hg) as (g' & Hg' & _ & [l El]). cbn [snd] in Hg'.
  apply (done_memory w2 G2 (history_later _ _ _ _ H (keeps_later _ _ _ Hk)) p g' Hg').
  rewrite El. apply elem_of_app. by left.
Qed.
Print Assumptions C36_stable_copies.
Theorem C36_exists : forall w G p g s rest, pool_history w G -> G !! p = Some g -> str_ok s ->
  exists w' g', str_pool_exists w (Some p) (s ++ 0%N :: rest) =
      Ret (w', if decide (s ∈ (q_int g).*1) then 1 else 0) /\
    keeps p (w, G) (w', <[p := g']> G) /\ q_int g' = q_int g /\ q_mem g' = q_mem g /\ q_ro g' = q_ro g.
Proof.
  intros w G p g s rest H Hg Hs. destruct (hist_exists w G H p g Hg s rest Hs) as (w' & E & Hk).
  exists w', (asked g s). done.
Qed.
Print Assumptions C36_exists.
(** str_pool_copy does not intern: a new pointer every time, the table is not consulted *)
Theorem C36_copy : forall w G p g al s rest, pool_history w G -> G !! p = Some g -> palloc_ok al -> str_ok s ->
  room (q_mem g) (Z.of_nat (length s) + 1) ->
  ok (fun '(w', a) => exists g', keeps p (w, G) (w', <[p := g']> G) /\ q_int g' = q_int g /\
        mblk (pmem w) !! a = None /\ mblk (pmem w') = <[a := s ++ [0%N]]> (mblk (pmem w)))
     (pfail al) (str_pool_copy al w (Some p) (s ++ 0%N :: rest)).
Proof.
  intros w G p g al s rest H Hg Hal Hs Hr. destruct (st_inv w G H) as [GM I].
  pose proof (copy_ok w G GM I p g Hg al Hal s rest Hs Hr) as Hc.
  destruct (str_pool_copy _ _ _ _) as [[w' a]| | | |] eqn:E; cbn [ok] in *; try done. destruct Hc as (_ & Hn & Hm).
  exists (set_mem g (stored (q_mem g) a (s ++ [0%N]) (Z.of_nat (length s) + 1))). split; [|done].
  apply st_step; [by eapply pc_copy|]. rewrite lookup_insert. eauto.
Qed.
Print Assumptions C36_copy.

(** ** C37 *)
(** grow, grow, ..., finish *)
Theorem C37_grow_finish : forall w G p g al l, pool_history w G -> G !! p = Some g -> palloc_ok al ->
  pieces_ok l -> s_cur (q_mem g) = [] -> q_ro g = 0 -> room (q_mem g) (Z.of_nat (length (pieces l)) + 2) ->
  ok (fun '(w', a) => exists g', keeps p (w, G) (w', <[p := g']> G) /\
        mblk (pmem w') !! a = Some (pieces l ++ [0; 0]%N) /\
        a ∉ (q_int g).*2 /\ a ∉ (s_done (q_mem g)).*1 /\
        let s := upto_nul (pieces l) in
        (s ∉ (q_int g).*1 -> q_int g' = (s, a) :: q_int g) /\
        (s ∈ (q_int g).*1 -> q_int g' = q_int g))
     (pfail al) (w1 ← grow_all al w (Some p) l; str_pool_finish al w1 (Some p)).
Proof.
  intros w G p g al l H Hg Hal Hok Hcur Hro Hr. eapply ok_bind.
  { eapply ok_mono; [apply (hist_grow_all al p l Hal w G g H Hg Hok)| |done].
    - destruct Hr. split; lia.
    - intros w1 Hw1. exact Hw1. }
  intros w1 (g1 & Hk1 & Q1 & Q2 & Q3 & Q4 & Q5).
  pose proof (history_later _ _ _ _ H (keeps_later _ _ _ Hk1)) as H1.
  rewrite Hcur in Q4. cbn [app] in Q4.
  eapply ok_mono; [apply (hist_finish w1 _ H1 p g1 (lookup_insert _ _ _) al Hal)| |done].
  - destruct Hr. split; [rewrite Q3; lia|rewrite Q5; lia].
  - by rewrite Q2.
  - intros [w2 a] (Hk2 & Ha & Hm). rewrite insert_insert in Hk2. exists (finished g1 a).
    split; [by eapply rtc_transitive|]. split; [by rewrite <- Q4|]. rewrite Q3 in Ha.
    split; [intros Hin; apply Ha; by apply (int_done w G H p g Hg)|]. split; [done|].
    cbn [finished entered set_mem q_int]. rewrite Q4, Q1. split.
    + intros Hn. apply assoc_None in Hn. by rewrite Hn.
    + intros Hin. destruct (assoc _ (q_int g)) eqn:E; [done|]. by apply assoc_None in E.
Qed.
Print Assumptions C37_grow_finish.
(** the pointer of str_pool_finish is never the one str_pool_find returned or returns for an
    already interned string *)
Theorem C37_finish_not_find : forall w G p g al l w' a s b al2 w2 c rest, pool_history w G -> G !! p = Some g ->
  palloc_ok al -> palloc_ok al2 -> pieces_ok l -> s_cur (q_mem g) = [] -> q_ro g = 0 ->
  room (q_mem g) (Z.of_nat (length (pieces l)) + 2) ->
  s = upto_nul (pieces l) -> (s, b) ∈ q_int g ->
  (w1 ← grow_all al w (Some p) l; str_pool_finish al w1 (Some p)) = Ret (w', a) ->
  str_pool_find al2 w' (Some p) (s ++ 0%N :: rest) = Ret (w2, c) ->
  a <> b /\ c = b.
Proof.
  intros w G p g al l w' a s b al2 w2 c rest H Hg Hal Hal2 Hok Hcur Hro Hr -> Hb E E2.
  pose proof (C37_grow_finish w G p g al l H Hg Hal Hok Hcur Hro Hr) as Hf. rewrite E in Hf. cbn [ok] in Hf.
  destruct Hf as (g' & Hk & _ & Ha & _ & _ & Hin).
  assert (Hs : upto_nul (pieces l) ∈ (q_int g).*1) by (apply elem_of_list_fmap; by exists (upto_nul (pieces l), b)).
  specialize (Hin Hs). split.
  - intros ->. apply Ha. apply elem_of_list_fmap. by exists (upto_nul (pieces l), b).
  - pose proof (history_later _ _ _ _ H (keeps_later _ _ _ Hk)) as H'.
    destruct (int_memory w G H p g Hg _ _ Hb) as [Hok2 _].
    pose proof (C36_find w' _ p g' al2 _ rest H' (lookup_insert _ _ _) Hal2 Hok2) as Hf2. rewrite E2, Hin in Hf2.
    specialize (Hf2 ltac:(intros Hn; done)). cbn [ok] in Hf2. destruct Hf2 as (g2 & _ & _ & Hold & _). by destruct (Hold b Hb).
Qed.
Print Assumptions C37_finish_not_find.

(** ** C38 *)
Theorem C38_unique : forall al w G p g pre rest, pool_history w G -> glob w = Some p -> G !! p = Some g ->
  palloc_ok al -> str_ok pre -> q_ro g = 0 -> room (q_mem g) (Z.of_nat (length pre) + 11) ->
  uniq w + Z.of_nat (length (q_int g)) + 1 < 2 ^ 31 ->
  ok (fun '(w', a) => exists n num g',
        Forall is_digit num /\ Z.of_N (dec_value num) = n /\ (length num <= 10)%nat /\
        uniq w <= n <= uniq w + Z.of_nat (length (q_int g)) /\ uniq w' = n + 1 /\
        pre ++ num ∉ (q_int g).*1 /\ a ∉ (q_int g).*2 /\
        mblk (pmem w') !! a = Some (pre ++ num ++ [0%N]) /\
        keeps p (w, G) (w', <[p := g']> G) /\ q_int g' = (pre ++ num, a) :: q_int g)
     (pfail al) (str_unique al w (pre ++ 0%N :: rest)).
Proof.
  intros al w G p g pre rest H Hgl Hg Hal Hpre Hro Hr Hu.
  destruct (pool_history_inv w G H) as [GM I]. pose proof (wi_uniq _ _ _ I) as Hu1.
  eapply ok_mono; [by apply (unique_ok al w G p g pre rest)| |done].
  intros [w' a] (n & g' & Hn & Hu' & Hout & _ & Ha & Hm & Hk & Hq). exists n, (c_itoa n), g'.
  destruct (itoa_spec n ltac:(lia)) as (D1 & D2 & D3). split; [done|]. split; [done|]. split; [lia|]. done.
Qed.
Print Assumptions C38_unique.
(** two results are different pointers (and different strings), whatever happens between *)
Theorem C38_results_differ : forall al w G p g pre rest w1 a1, pool_history w G -> glob w = Some p -> G !! p = Some g ->
  palloc_ok al -> str_ok pre -> q_ro g = 0 -> room (q_mem g) (Z.of_nat (length pre) + 11) ->
  uniq w + Z.of_nat (length (q_int g)) + 1 < 2 ^ 31 -> str_unique al w (pre ++ 0%N :: rest) = Ret (w1, a1) ->
  exists G1, keeps p (w, G) (w1, G1) /\
  forall al2 w2 G2 g2 pre2 rest2 w3 a2, keeps p (w1, G1) (w2, G2) -> glob w2 = Some p -> G2 !! p = Some g2 ->
    palloc_ok al2 -> str_ok pre2 -> q_ro g2 = 0 -> room (q_mem g2) (Z.of_nat (length pre2) + 11) ->
    uniq w2 + Z.of_nat (length (q_int g2)) + 1 < 2 ^ 31 -> str_unique al2 w2 (pre2 ++ 0%N :: rest2) = Ret (w3, a2) ->
    a1 <> a2 /\ mblk (pmem w3) !! a1 <> mblk (pmem w3) !! a2.
Proof.
  intros al w G p g pre rest w1 a1 H Hgl Hg Hal Hpre Hro Hr Hu E.
  pose proof (C38_unique al w G p g pre rest H Hgl Hg Hal Hpre Hro Hr Hu) as H1. rewrite E in H1. cbn [ok] in H1.
  destruct H1 as (n & num & g1 & _ & _ & _ & _ & _ & _ & _ & Hm1 & Hk & Hq). exists (<[p := g1]> G). split; [done|].
  intros al2 w2 G2 g2 pre2 rest2 w3 a2 Hk2 Hgl2 Hg2 Hal2 Hpre2 Hro2 Hr2 Hu2 E2.
  pose proof (history_later _ _ _ _ H (keeps_later _ _ _ Hk)) as Hh1.
  pose proof (history_later _ _ _ _ Hh1 (keeps_later _ _ _ Hk2)) as Hh2.
  destruct (keeps_ghost _ _ _ Hk2 g1 (st_inv _ _ Hh1) (lookup_insert _ _ _)) as (g2' & Hg2' & [l El] & _).
  cbn [snd] in Hg2'. rewrite Hg2 in Hg2'. injection Hg2' as <-.
  assert (Hin : (pre ++ num, a1) ∈ q_int g2) by (rewrite El, Hq; apply elem_of_app; right; left).
  pose proof (C38_unique al2 w2 G2 p g2 pre2 rest2 Hh2 Hgl2 Hg2 Hal2 Hpre2 Hro2 Hr2 Hu2) as H2. rewrite E2 in H2. cbn [ok] in H2.
  destruct H2 as (n2 & num2 & g3 & _ & _ & _ & _ & _ & Hout & Ha & Hm2 & Hk3 & Hq3). split.
  - intros ->. apply Ha. apply elem_of_list_fmap. by exists (pre ++ num, a2).
  - assert (Hin3 : (pre ++ num, a1) ∈ q_int g3) by (rewrite Hq3; by right).
    pose proof (history_later _ _ _ _ Hh2 (keeps_later _ _ _ Hk3)) as Hh3.
    destruct (int_memory w3 _ Hh3 p g3 (lookup_insert _ _ _) _ _ Hin3) as [S1 [r1 R1]].
    assert (Hin4 : (pre2 ++ num2, a2) ∈ q_int g3) by (rewrite Hq3; left).
    destruct (int_memory w3 _ Hh3 p g3 (lookup_insert _ _ _) _ _ Hin4) as [S2 [r2 R2]].
    rewrite R1, R2. intros [= Ec].
    pose proof (c_string_spec _ r1 S1) as C1. pose proof (c_string_spec _ r2 S2) as C2.
    change (N.of_nat 0) with 0%N in *. rewrite Ec in C1. rewrite C1 in C2. injection C2 as C2.
    apply Hout. apply elem_of_list_fmap. exists (pre ++ num, a1). split; [|done]. cbn [fst]. by rewrite C2.
Qed.
Print Assumptions C38_results_differ.
(** with no global pool (nothing interned yet, or after str_destroy) the first str_exists
    dereferences NULL *)
Theorem C38_no_pool : forall al w pre rest, glob w = None -> str_ok pre -> 0 <= uniq w < 2 ^ 31 - 1 ->
  str_unique al w (pre ++ 0%N :: rest) = UB.
Proof.
  intros al w pre rest Hgl Hs Hu. unfold str_unique. rewrite c_string_spec by done. rb. rewrite Hgl. cbn [unique_loop].
  destruct (itoa_spec (uniq w) ltac:(lia)) as (_ & _ & Hlen).
  rewrite (sint_ok (uniq w + 1)) by lia. rb. rewrite app_length.
  rewrite (proj2 (Nat.ltb_ge (length pre + 100) (length pre + length (c_itoa (uniq w)) + 1))) by lia.
  unfold str_exists, str_pool_exists, ppool. cbn [glob]. by rewrite Hgl.
Qed.
Print Assumptions C38_no_pool.

(** ** C39 *)
(** one order of the interned pointers, independent of the iterator; an iterator may look
    strings up in the pool, keep any state and stop when it likes *)
Theorem C39_iterate : forall w G p g, pool_history w G -> G !! p = Some g ->
  exists l : list positive, l ≡ₚ (q_int g).*2 /\
  forall X (strs : X -> ptr -> list (list N)) (f : ptr -> X -> X * Z) (u : X) fuel,
  (forall u k, Forall str_ok (strs u k)) -> (length l < fuel)%nat ->
  (exists w' g', str_pool_iterate (lookup_it (Some p) strs f) fuel w (Some p) u =
       Ret ((walk f l u).1, w', if (walk f l u).2 then 1 else 0) /\
     keeps p (w, G) (w', <[p := g']> G) /\ q_int g' = q_int g /\ q_mem g' = q_mem g /\
     q_ro g' = (if decide (l = []) then q_ro g else if (walk f l u).2 then 1 else 0)) /\
  (exists w' g', str_pool_iterate_arg (lookup_it (Some p) strs f) fuel w (Some p) u =
       Ret ((walk f l u).1, w', if (walk f l u).2 then 1 else 0) /\
     keeps p (w, G) (w', <[p := g']> G) /\ q_int g' = q_int g /\ q_mem g' = q_mem g /\
     q_ro g' = (if decide (l = []) then q_ro g else 0)).
Proof.
  intros w G p g H Hg. destruct (order_ex w G p g H Hg) as (l & Hl & Ho). exists l. split; [done|].
  intros X strs f u fuel Hs Hf. by apply iterate_ok.
Qed.
Print Assumptions C39_iterate.
(** a read-only pool: new strings, str_pool_finish and str_pool_destroy abort; lookups go on *)
Theorem C39_readonly : forall w G p g, pool_history w G -> G !! p = Some g -> q_ro g <> 0 ->
  (forall al s rest, palloc_ok al -> ~ may_fail (pa_mem al) -> str_ok s -> room (q_mem g) (Z.of_nat (length s) + 1) ->
     s ∉ (q_int g).*1 -> str_pool_find al w (Some p) (s ++ 0%N :: rest) = Abort) /\
  str_pool_destroy w (Some p) = Abort /\
  (forall al s b rest, (s, b) ∈ q_int g -> exists w', str_pool_find al w (Some p) (s ++ 0%N :: rest) = Ret (w', b)).
Proof.
  intros w G p g H Hg Hro. destruct (st_inv w G H) as [GM I]. cbn [fst snd] in I. split; [|split].
  - intros al s rest Hal Hnf Hs Hr Hn. eapply find_abort; eauto. by apply assoc_None.
  - pose proof (pool_destroy_ok w G GM p g I Hg) as Hd. by destruct (decide (q_ro g = 0)).
  - intros al s b rest Hin. destruct (int_nodup w G H p g Hg) as [Hnd _].
    destruct (get_pool w G GM I p g Hg) as (x & Hx & Ho & E).
    destruct (int_memory w G H p g Hg s b Hin) as [Hs _].
    destruct (pool_retrieve_ok w G GM I p g Hg x s rest Hx Ho Hs) as (t & E1 & _).
    exists (upd_hash w p x t). unfold str_pool_find. rewrite E. rb. rewrite E1. rb.
    by rewrite (in_assoc _ _ _ Hnd Hin).
Qed.
Print Assumptions C39_readonly.

(** ** C61 *)
Theorem C61_stats : forall w G p g al, pool_history w G -> G !! p = Some g ->
  (N.of_nat (length (q_int g)) < 2 ^ 32)%N ->
  ok (fun '(count, bytes, retrievals, hits, misses) =>
        count = Z.of_nat (length (s_done (q_mem g))) /\ bytes = s_bytes (q_mem g) /\
        retrievals = to_int (Z.of_N (u64 (q_retr g))) /\ misses = to_int (Z.of_N (u64 (q_miss g))))
     (blk_alloc (pa_hash al) 72 = false) (str_pool_get_stats true al w (Some p)).
Proof. exact (fun w G p g al H Hg Hl => hist_stats w G H p g Hg al Hl). Qed.
Print Assumptions C61_stats.
Theorem C61_null : forall al w, str_pool_get_stats true al w None = Ret (0, 0, 0, 0, 0).
Proof. done. Qed.
Print Assumptions C61_null.
(** the counters: one lookup per find/exists, a miss when the string was not interned *)
Theorem C61_counts : forall g s a,
  q_retr (found g s a) = (q_retr g + 1)%N /\ q_retr (asked g s) = (q_retr g + 1)%N /\
  q_miss (found g s a) = (if decide (s ∈ (q_int g).*1) then q_miss g else q_miss g + 1)%N /\
  q_miss (asked g s) = (if decide (s ∈ (q_int g).*1) then q_miss g else q_miss g + 1)%N /\
  length (s_done (q_mem (found g s a))) = (length (s_done (q_mem g)) + if decide (s ∈ (q_int g).*1) then 0 else 1)%nat.
Proof.
  intros g s a. unfold found, asked. destruct (assoc s (q_int g)) as [b|] eqn:E.
  - assert (Hin : s ∈ (q_int g).*1) by (apply elem_of_list_fmap; exists (s, b); split; [done|by apply assoc_in]).
    rewrite !(decide_True _ _ Hin).
    cbn [q_retr q_miss q_mem]. repeat split. lia.
  - apply assoc_None in E as En. rewrite !(decide_False _ _ En).
    unfold entered. cbn [set_mem q_retr q_miss q_mem q_int stored s_done]. rewrite app_length. repeat split.
Qed.
Print Assumptions C61_counts.

(** ** C62 *)
Theorem C62_create : forall w G al, pool_history w G -> palloc_ok al ->
  ok (fun '(w', p) => G !! p = None /\ later (w, G) (w', <[p := fresh_pool]> G))
     (pa_pool al (pools w) = None \/ m_info (pa_mem al) (minf (pmem w)) = None \/
      m_stk (pa_mem al) (stks (msh (pmem w))) = None \/ can_fail (pa_hash al)) (str_pool_create al w).
Proof.
  intros w G al H Hal. destruct (st_inv w G H) as [GM I]. pose proof (pool_create_ok w G GM al I Hal) as Hc.
  destruct (str_pool_create al w) as [[w' p]| | | |] eqn:E; cbn [ok] in *; try done.
  destruct Hc as (_ & Hn & _). split; [done|]. apply rtc_once. by eapply pc_create.
Qed.
Print Assumptions C62_create.
Theorem C62_destroy : forall w G p g, pool_history w G -> G !! p = Some g -> glob w <> Some p -> q_ro g = 0 ->
  exists w', str_pool_destroy w (Some p) = Ret (w', ∅) /\ later (w, G) (w', delete p G) /\
    (forall a b, (a, b) ∈ s_done (q_mem g) -> mblk (pmem w') !! a = None) /\
    (forall q g2 a b, q <> p -> G !! q = Some g2 -> (a, b) ∈ s_done (q_mem g2) -> mblk (pmem w') !! a = Some b).
Proof.
  intros w G p g H Hg Hgl Hro. pose proof (hist_destroy w G H p g Hg Hgl) as Hd. rewrite decide_True in Hd by done.
  destruct Hd as (w' & E & Hl & Hgone & _). exists w'. split; [done|]. split; [done|]. split; [done|].
  intros q g2 a b Hne Hg2. apply (done_memory w' _ (history_later _ _ _ _ H Hl) q g2).
  by rewrite lookup_delete_ne by done.
Qed.
Print Assumptions C62_destroy.
Theorem C62_global : forall w G p g, pool_history w G -> glob w = Some p -> G !! p = Some g -> q_ro g = 0 ->
  exists w', str_destroy w = Ret (w', ∅) /\ later (w, G) (w', delete p G) /\ glob w' = None.
Proof.
  intros w G p g H Hgl Hg Hro. destruct (st_inv w G H) as [GM I]. cbn [fst snd] in I.
  pose proof (pool_destroy_ok w G GM p g I Hg) as Hd. rewrite decide_True in Hd by done.
  destruct Hd as (w1 & GM' & E & _).
  assert (Ed : str_destroy w = Ret (PW (pmem w1) (pools w1) None (uniq w1), ∅)).
  { unfold str_destroy. rewrite Hgl, E. rb. done. }
  eexists. split; [exact Ed|]. split; [|done]. apply rtc_once. by eapply pc_gdestroy.
Qed.
Print Assumptions C62_global.
Theorem C62_no_leak : forall w, pool_history w ∅ ->
  pools w = ∅ /\ glob w = None /\ mblk (pmem w) = ∅ /\ minf (pmem w) = ∅ /\ stks (msh (pmem w)) = ∅ /\ nodes (msh (pmem w)) = ∅.
Proof. exact hist_no_leak. Qed.
Print Assumptions C62_no_leak.
Theorem C62_first_use : forall al w G s rest, pool_history w G -> glob w = None -> palloc_ok al -> str_ok s ->
  Z.of_nat (length s) + 1 < 2 ^ 31 ->
  match str_find al w (s ++ 0%N :: rest) with
  | Ret (w', a) => exists p g, glob w' = Some p /\ later (w, G) (w', <[p := g]> G) /\ q_int g = [(s, a)]
  | Fatal => gfail al
  | _ => False
  end.
Proof.
  intros al w G s rest H Hgl Hal Hs Hlen. unfold str_find. destruct (st_inv w G H) as [GM I]. cbn [fst snd] in I.
  destruct (check_global al w) as [w1| | | |] eqn:E.
  - rb. destruct (global_ok al w G GM w1 I Hal Hgl E) as (p & Hp & HG & _ & _).
    pose proof (pc_global al w G w1 p Hal Hgl E Hp) as Hst. rewrite Hp.
    pose proof (hist_find w1 _ (history_step _ _ _ _ H Hst) p fresh_pool (lookup_insert _ _ _) al s rest Hal Hs) as Hf.
    assert (Hroom : room (q_mem fresh_pool) (Z.of_nat (length s) + 1)) by (split; cbn; lia).
    specialize (Hf ltac:(intros _; split; [done|exact Hroom])).
    destruct (str_pool_find _ _ _ _) as [[w' a]| | | |] eqn:E2; cbn [ok] in Hf; try done; [|by left].
    destruct Hf as (Hk & _ & _ & _ & _ & Hq). cbn [fresh_pool q_int] in Hq.
    exists p, (found fresh_pool s a). rewrite insert_insert in Hk.
    assert (Hfx : str_pool_find al w1 (Some p) (s ++ 0%N :: rest) = Ret (w', a)) by exact E2.
    split; [|split; [eapply rtc_l; [exact Hst|by apply keeps_later in Hk]|exact Hq]].
    destruct (st_inv w1 _ (history_step _ _ _ _ H Hst)) as [GM1 I1]. cbn [fst snd] in I1.
    pose proof (find_ok w1 _ GM1 I1 p fresh_pool (lookup_insert _ _ _) al Hal s rest Hs ltac:(intros _; split; [done|exact Hroom])) as Hf2.
    rewrite E2 in Hf2. cbn [ok] in Hf2. destruct Hf2 as (_ & Hg2 & _). by rewrite Hg2.
  - unfold check_global in E. rewrite Hgl in E. pose proof (pool_create_ok w G GM al I Hal) as Hc.
    destruct (str_pool_create al w) as [[? ?]| | | |]; try done. by eapply create_gfail.
  - unfold check_global in E. rewrite Hgl in E. pose proof (pool_create_ok w G GM al I Hal) as Hc.
    destruct (str_pool_create al w) as [[? ?]| | | |]; done.
  - unfold check_global in E. rewrite Hgl in E. pose proof (pool_create_ok w G GM al I Hal) as Hc.
    destruct (str_pool_create al w) as [[? ?]| | | |]; done.
  - unfold check_global in E. rewrite Hgl in E. pose proof (pool_create_ok w G GM al I Hal) as Hc.
    destruct (str_pool_create al w) as [[? ?]| | | |]; done.
Qed.
Print Assumptions C62_first_use.

(** ** A reachable case *)
Definition ex_pal : palloc :=
  PA bump (MA bump bump bump (fun n h => (fun a => (a, replicate (N.to_nat n) 7%N)) <$> bump h)) (HA bump (fun _ => true)).
Lemma ex_pal_ok : palloc_ok ex_pal /\ ~ may_fail (pa_mem ex_pal).
Proof.
  split; [|intros (n & h & Hn); cbn in Hn; discriminate Hn].
  constructor; [apply bump_ok| |intros h; discriminate|apply bump_ok].
  constructor; [apply bump_ok..|]. intros n h a b. cbn [ex_pal pa_mem m_blk].
  destruct (bump h) as [a'|] eqn:E; [|done]. cbn. intros [= <- <-]. split; [by apply bump_ok|apply replicate_length].
Qed.
Definition sab : list N := [97; 98]%N.   (* "ab" *)
Definition sx1 : list N := [120; 49]%N.  (* "x1" *)
Definition wn (r : res (pworld * positive)) : pworld := (getr r (pempty, 1%positive)).1.
Definition pn (r : res (pworld * positive)) : positive := (getr r (pempty, 1%positive)).2.
Definition v0 : pworld := getr (check_global ex_pal pempty) pempty.
Definition r1 := str_pool_find ex_pal v0 (Some 1%positive) (sab ++ 0%N :: []).
Definition r2 := (w1 ← grow_all ex_pal (wn r1) (Some 1%positive) [([97; 5]%N, 1); ([98]%N, 1)]; str_pool_finish ex_pal w1 (Some 1%positive)).
Definition r3 := str_pool_find ex_pal (wn r2) (Some 1%positive) (sx1 ++ 0%N :: [9]%N).
Definition r4 := str_unique ex_pal (wn r3) [120; 0]%N.
Definition stop_at_first : ptr -> list ptr -> list ptr * Z := fun a seen => (seen ++ [a], 5).
Definition r5 := str_pool_iterate (lookup_it (Some 1%positive) (fun _ _ => [sab]) stop_at_first) 10 (wn r3) (Some 1%positive) [].

Lemma ret_pair (r : res (pworld * positive)) : is_ret r = true -> r = Ret (wn r, pn r).
Proof. destruct r as [[w a]| | | |]; done. Qed.
Lemma ex_history : exists G g, pool_history (wn r3) G /\ G !! 1%positive = Some g /\ glob (wn r3) = Some 1%positive /\
  q_int g = [(sx1, pn r3); (sab, pn r1)] /\ q_ro g = 0 /\ s_done (q_mem g) = [(pn r1, sab ++ [0]%N); (pn r2, [97; 98; 0; 0]%N); (pn r3, sx1 ++ [0]%N)] /\
  s_bytes (q_mem g) = 10.
Proof.
  assert (h0 : pool_history v0 (<[1%positive := fresh_pool]> ∅)).
  { eapply history_step; [apply rtc_refl|]. apply (pc_global ex_pal); [apply ex_pal_ok|done|apply getr_ok; vm_compute; reflexivity|vm_compute; reflexivity]. }
  assert (Hs : str_ok sab /\ str_ok sx1).
  { split; repeat constructor; cbn; lia. }
  assert (h1 : pool_history (wn r1) (<[1%positive := found fresh_pool sab (pn r1)]> (<[1%positive := fresh_pool]> ∅))).
  { eapply history_step; [exact h0|]. apply (pc_find ex_pal _ _ _ _ fresh_pool _ []); [apply ex_pal_ok|apply lookup_insert|apply Hs| |].
    - intros _. split; [done|]. split; cbn; lia.
    - apply ret_pair. vm_compute. reflexivity. }
  rewrite insert_insert in h1. set (g1 := found fresh_pool sab (pn r1)) in *.
  assert (E2 : r2 = Ret (wn r2, pn r2)) by (apply ret_pair; vm_compute; reflexivity).
  pose proof (hist_grow_all ex_pal 1%positive [([97; 5]%N, 1); ([98]%N, 1)] (proj1 ex_pal_ok) _ _ g1 h1 (lookup_insert _ _ _)) as Hg.
  assert (Hp : pieces [([97; 5]%N, 1); ([98]%N, 1)] = sab) by reflexivity. rewrite Hp in Hg.
  unfold r2 at 1 in E2. destruct (grow_all ex_pal (wn r1) _ _) as [w1| | | |] eqn:Ew; try discriminate E2. cbn [mbind res_bind] in E2.
  destruct Hg as (g2 & Hk & Q1 & Q2 & Q3 & Q4 & Q5).
  { split; [repeat constructor; cbn; lia|]. rewrite Hp. repeat constructor; unfold byte_ok; lia. }
  { split; vm_compute; reflexivity. }
  rewrite insert_insert in Hk. pose proof (history_later _ _ _ _ h1 (keeps_later _ _ _ Hk)) as h2.
  assert (h3 : pool_history (wn r2) (<[1%positive := finished g2 (pn r2)]> (<[1%positive := g2]> ∅))).
  { eapply history_step; [exact h2|]. apply (pc_finish ex_pal w1); [apply ex_pal_ok|apply lookup_insert| |rewrite Q2; done|exact E2].
    split; [rewrite Q3; vm_compute; reflexivity|rewrite Q5; vm_compute; reflexivity]. }
  rewrite insert_insert in h3.
  assert (E3 : r3 = Ret (wn r3, pn r3)) by (apply ret_pair; vm_compute; reflexivity).
  assert (Ei : q_int (finished g2 (pn r2)) = [(sab, pn r1)]).
  { unfold finished, entered. cbn [set_mem q_int]. rewrite Q1, Q4. reflexivity. }
  assert (Ed : s_done (q_mem (finished g2 (pn r2))) = [(pn r1, sab ++ [0]%N); (pn r2, [97; 98; 0; 0]%N)] /\
               s_bytes (q_mem (finished g2 (pn r2))) = 7).
  { unfold finished, entered. cbn [set_mem q_mem stored s_done s_bytes MemHist.grown]. rewrite Q3, Q4, Q5. split; reflexivity. }
  assert (Er : q_ro (finished g2 (pn r2)) = 0) by (cbn; by rewrite Q2).
  set (g3 := finished g2 (pn r2)) in *. destruct Ed as [Ed Eb].
  assert (h4 : pool_history (wn r3) (<[1%positive := found g3 sx1 (pn r3)]> (<[1%positive := g3]> ∅))).
  { eapply history_step; [exact h3|]. apply (pc_find ex_pal _ _ _ _ g3 _ [9]%N); [apply ex_pal_ok|apply lookup_insert|apply Hs| |exact E3].
    intros _. split; [done|]. split; [rewrite Ed; cbn; lia|rewrite Eb; cbn; lia]. }
  rewrite insert_insert in h4. exists (<[1%positive := found g3 sx1 (pn r3)]> ∅), (found g3 sx1 (pn r3)).
  split; [exact h4|]. split; [apply lookup_insert|]. split; [vm_compute; reflexivity|].
  unfold found. rewrite Ei. cbn [assoc]. rewrite decide_False by done. unfold entered. cbn [set_mem asked q_int q_mem q_ro stored s_done s_bytes].
  rewrite Ei. cbn [assoc]. rewrite decide_False by done. split; [done|]. split; [done|]. rewrite Ed, Eb. split; reflexivity.
Qed.
(** find "ab" then grow "a" "b" finish: two pointers; str_unique("x") after "x1" gives "x2";
    an iteration stopped at the first string returns 1 and leaves the pool read-only *)
Example C36_reachable :
  pn r1 <> pn r2 /\ mblk (pmem (wn r4)) !! pn r2 = Some [97; 98; 0; 0]%N /\
  is_ret r4 = true /\ mblk (pmem (wn r4)) !! pn r4 = Some [120; 50; 0]%N /\ uniq (wn r4) = 3 /\
  (let '(seen, w', code) := getr r5 ([], pempty, 0) in length seen = 1%nat /\ code = 1 /\
     str_pool_find ex_pal w' (Some 1%positive) [121; 0]%N = Abort /\
     is_ret (str_pool_find ex_pal w' (Some 1%positive) (sab ++ [0]%N)) = true /\
     str_pool_destroy w' (Some 1%positive) = Abort).
Proof. vm_compute. repeat split; congruence. Qed.
