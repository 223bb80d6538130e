(** C94: the memory and the work that growing takes. *)
From Verif Require Import Base PrimeModel PrimeProofs ListLemmas HashModel HashSpec HashProofs HashOps HashOps2 HashIter HashHist HashTrace.
Local Open Scope nat_scope.

Section HashGrow.
Context {K D : Type}.
Notation bheap := (gmap positive (bucket K D)).
Notation halloc := (halloc K D).
Implicit Types (H : bheap) (al : halloc) (s : hst K D) (t : table) (env : henv K D).

(** ** how many nodes are in memory when malloc is called *)
(** [al] works like [al'] while fewer than [B] nodes are in memory *)
Definition agree (B : nat) al al' : Prop := (forall H, size H < B -> node_alloc al H = node_alloc al' H) /\ (forall n, blk_alloc al n = blk_alloc al' n).
(** [r], with [al'], only adds nodes to [H], one by one, and never has more than it ends with *)
Definition adding al' H (r : halloc -> res (bheap * table)) : Prop := forall H' t', r al' = Ret (H', t') ->
  size H <= size H' /\
  (forall j, size H <= j < size H' -> exists Hj, size Hj = j /\ node_alloc al' Hj <> None) /\
  (forall al B, agree B al al' -> size H' <= B -> r al = Ret (H', t')).
Lemma adding_ret al' H t : adding al' H (fun _ => Ret (H, t)).
Proof. intros H' t' [= <- <-]. split; [done|]. split; [lia|done]. Qed.
Lemma adding_bind al' H r (f : halloc -> bheap * table -> res (bheap * table)) : adding al' H r ->
  (forall H1 t1, r al' = Ret (H1, t1) -> adding al' H1 (fun al => f al (H1, t1))) -> adding al' H (fun al => r al ≫= f al).
Proof.
  intros Hr Hf H' t' E. destruct (r al') as [[H1 t1]| | | |] eqn:E1; try discriminate E. cbn [mbind res_bind] in E.
  destruct (Hr H1 t1 E1) as (A1 & A2 & A3). destruct (Hf H1 t1 eq_refl H' t' E) as (B1 & B2 & B3).
  split; [lia|]. split.
  - intros j Hj. destruct (Nat.lt_ge_cases j (size H1)); [apply A2|apply B2]; lia.
  - intros al B Ha HB. rewrite (A3 al B Ha) by lia. cbn [mbind res_bind]. by apply (B3 al B).
Qed.
Lemma adding_same {A} al' H (m : res A) f : (forall a, m = Ret a -> adding al' H (fun al => f al a)) -> adding al' H (fun al => m ≫= f al).
Proof. intros Hf H' t' E. destruct m as [a| | | |]; try discriminate E. exact (Hf a eq_refl H' t' E). Qed.
Lemma adding_insert_ al' H t h k d : halloc_ok al' -> adding al' H (fun al => hsh_insert_ al H t h k d).
Proof.
  intros Hal. unfold hsh_insert_. apply adding_same. intros i _. apply adding_same. intros _ _. intros H' t' E.
  destruct (node_alloc al' H) as [a|] eqn:Ea; [|discriminate E].
  destruct (aget _ _) as [p| | | |] eqn:Ep; try discriminate E. cbn [mbind res_bind] in E.
  destruct (aset _ _ _) as [bs| | | |] eqn:Es; try discriminate E. cbn [mbind res_bind] in E.
  assert (E' := E). injection E' as E1 _. assert (Hs : size H' = S (size H)) by (rewrite <- E1; apply map_size_insert_None; by apply Hal).
  split; [lia|]. split.
  - intros j Hj. exists H. split; [lia|]. congruence.
  - intros al B [Ha _] HB. rewrite (Ha H) by lia. rewrite Ea. cbn [mbind res_bind]. rewrite Es. cbn [mbind res_bind]. exact E.
Qed.
Lemma adding_copy al' n : halloc_ok al' -> forall H t p, adding al' H (fun al => copy_chain al n H t p).
Proof.
  intros Hal. induction n as [|n IH]; intros H t p; (destruct p as [a|]; [|apply adding_ret]); [intros H' t' E; discriminate E|].
  cbn [copy_chain]. apply adding_same. intros b _.
  apply (adding_bind al' H (fun al => hsh_insert_ al H t (bhash b) (bkey b) (bdatum b)) (fun al '(H', new') => b' ← hget H' a; copy_chain al n H' new' (bnext b'))); [by apply adding_insert_|].
  intros H1 t1 _. apply (adding_same al' H1 (hget H1 a) (fun al b' => copy_chain al n H1 t1 (bnext b'))). intros b' _. apply IH.
Qed.
Lemma adding_rows al' bs : halloc_ok al' -> forall n i H t,
  adding al' H (fun al => for_up n i (fun i '(H, new) => p ← aget bs i; copy_chain al (S (size H)) H new p) (H, t)).
Proof.
  intros Hal. induction n as [|n IH]; intros i H t; cbn [for_up]; [apply adding_ret|].
  apply (adding_bind al' H (fun al => p ← aget bs i; copy_chain al (S (size H)) H t p)
    (fun al => for_up n (S i) (fun i '(H, new) => p ← aget bs i; copy_chain al (S (size H)) H new p))).
  - apply (adding_same al' H (aget bs i) (fun al p => copy_chain al (S (size H)) H t p)). intros p _. by apply adding_copy.
  - intros H1 t1 _. apply IH.
Qed.
Lemma grown_size hf H new Lnew H' new' Lnew' added : grown hf H new Lnew H' new' Lnew' added -> size H' = size H + length added.
Proof.
  intros (G1 & _ & G3 & G4 & G5 & G6). pose proof (ti_nodup _ _ _ _ G1) as Hnd. unfold addrs in Hnd. rewrite G6, fmap_app in Hnd. apply NoDup_app in Hnd as (Hnd & _ & _).
  assert (Hd : dom H' = dom H ∪ list_to_set (C := gset positive) added.*1).
  { apply set_eq. intros a. rewrite elem_of_union, !elem_of_dom, elem_of_list_to_set. apply G4. }
  rewrite <- !size_dom, Hd, size_union.
  - f_equal. rewrite size_list_to_set by done. apply fmap_length.
  - intros a Ha Hb. apply elem_of_list_to_set in Hb. apply elem_of_dom in Ha as [v Hv]. rewrite (G5 a Hb) in Hv. discriminate Hv.
Qed.
Lemma create_agree al al' n : (forall n, blk_alloc al n = blk_alloc al' n) -> hsh_create_ al n = hsh_create_ al' n.
Proof.
  intros Ha. unfold hsh_create_, xmalloc_blk. generalize (prm_next_prime (u32 n)). intros r. destruct r as [p| | | |]; try reflexivity. cbn [mbind res_bind]. rewrite !Ha. reflexivity.
Qed.
Definition grow_rest al H t (new : table) : res (bheap * table) :=
  '(H1, new1) ← for_up (N.to_nat (prime t)) 0
      (fun i '(H, new) => p ← aget (buckets t) i; copy_chain al (S (size H)) H new p) (H, new);
  '(H2, _) ← destroy_buckets H1 t;
  Ret (H2, Tab (prime new1) (entries t) (buckets new1) (u64 (resizings t + 1)) (retrievals t) (hits t) (misses t) (readonly t)).
Lemma grow_eq al H t : hsh_grow al H t = (hsh_create_ al (u64 (prime t * 3)) ≫= grow_rest al H t).
Proof. reflexivity. Qed.
Lemma rest_needs hf al' H t L new H' t' : tinv hf H t L -> tinv hf H new (replicate (N.to_nat (prime new)) []) -> halloc_ok al' -> grow_rest al' H t new = Ret (H', t') ->
  (forall j, size H <= j < size H + length (concat L) -> exists Hj, size Hj = j /\ node_alloc al' Hj <> None) /\
  (forall al B, agree B al al' -> size H + length (concat L) <= B -> grow_rest al H t new = Ret (H', t')).
Proof.
  intros HT HTn Hal E. unfold grow_rest in E.
  assert (Hcp := copy_rows_spec hf al' (buckets t) L Hal (N.to_nat (prime t)) 0 H new _ (ti_rows _ _ _ _ HT) (ti_nodup _ _ _ _ HT) HTn).
  destruct (for_up (N.to_nat (prime t)) 0 _ (H, new)) as [[H1 new1]| | | |] eqn:Ef; try discriminate E. cbn [mbind res_bind] in E.
  destruct (adding_rows al' (buckets t) Hal (N.to_nat (prime t)) 0 H new H1 new1 Ef) as (A1 & A2 & A3).
  assert (Hsz : size H1 = size H + length (concat L)).
  { destruct Hcp as (L1 & added & HG & Hperm).
    - intros x Hx. apply concat_elem in Hx as (i & l & Hi & Hx). eapply (ti_placed _ _ _ _ HT); eauto.
    - by rewrite (ti_lenL _ _ _ _ HT).
    - rewrite (grown_size _ _ _ _ _ _ _ _ HG). f_equal. rewrite drop_0 in Hperm. rewrite <- (fmap_length snd added), Hperm. apply fmap_length. }
  split; [rewrite <- Hsz; exact A2|]. intros al B Ha HB. unfold grow_rest.
  rewrite (A3 al B Ha) by lia. cbn [mbind res_bind]. exact E.
Qed.
(** what growing needs: memory for a second copy of every node *)
Lemma grow_needs hf al' H t L H' t' : tinv hf H t L -> halloc_ok al' -> hsh_grow al' H t = Ret (H', t') ->
  (forall j, size H <= j < size H + length (concat L) -> exists Hj, size Hj = j /\ node_alloc al' Hj <> None) /\
  (forall al B, agree B al al' -> size H + length (concat L) <= B -> hsh_grow al H t = Ret (H', t')).
Proof.
  intros HT Hal E. rewrite grow_eq in E. pose proof (hsh_create__spec hf al' H (u64 (prime t * 3))) as Hc.
  assert (Hag : forall al B, agree B al al' -> hsh_grow al H t = hsh_create_ al' (u64 (prime t * 3)) ≫= grow_rest al H t).
  { intros al B Ha. rewrite grow_eq. by rewrite (create_agree al al' _ (proj2 Ha)). }
  revert E Hc Hag. generalize (hsh_create_ al' (u64 (prime t * 3))). intros r E Hc Hag. destruct r as [new| | | |]; try discriminate E.
  destruct Hc as (HTn & _). destruct (rest_needs hf al' H t L new H' t' HT HTn Hal E) as [R1 R2]. split; [exact R1|].
  intros al B Ha HB. rewrite (Hag al B Ha). exact (R2 al B Ha HB).
Qed.

(** an allocator that never fails *)
Definition always al : halloc := HA (fun H => match node_alloc al H with Some a => Some a | None => Some (fresh (dom H)) end) (fun _ => true).
Lemma always_ok al : halloc_ok al -> halloc_ok (always al).
Proof.
  intros Hal H a. cbn. destruct (node_alloc al H) as [b|] eqn:E; intros [= <-]; [by apply Hal|]. apply not_elem_of_dom. apply is_fresh.
Qed.
Lemma always_can al : ~ can_fail (always al).
Proof. intros [(H & E)|(n & E)]; cbn in E; [by destruct (node_alloc al H)|done]. Qed.
Lemma always_agree al B : (forall H, size H < B -> node_alloc al H <> None) -> (forall n, blk_alloc al n = true) -> agree B al (always al).
Proof.
  intros Hn Hb. split; [|intros n; cbn; apply Hb]. intros H HB. cbn. specialize (Hn H HB). by destruct (node_alloc al H).
Qed.

(** ** hsh_insert *)
Definition due (t : table) : bool := (prime t <? u64 (entries t * 2))%N.
Definition need (t : table) (n : nat) : nat := if due t then 2 * n else S n.
Lemma insert_enough env al s L k d B : hinv env s L -> good env -> halloc_ok al -> readonly (tab s) = 0%Z ->
  (forall H, size H < B -> node_alloc al H <> None) -> (forall n, blk_alloc al n = true) ->
  need (tab s) (length (pairs L)) <= B -> (due (tab s) = true -> 0 < length (pairs L)) -> exists s' r, hsh_insert env al s k d = Ret (s', r).
Proof.
  intros HI G Hal Hro Hn Hb HB Hpos. pose proof (always_agree al B Hn Hb) as Ha. pose proof (always_ok al Hal) as Hal'.
  pose proof (hsh_insert_spec env (always al) s L k d HI G Hal' Hro) as Hs.
  destruct (hsh_insert env (always al) s k d) as [[s' r]| | | |] eqn:E; cbn [ok] in Hs; try done; [|by apply always_can in Hs].
  exists s', r. rewrite <- E. unfold hsh_insert.
  unfold hsh_insert in E. destruct (hsh_check (tab s)) as [u| | | |]; try discriminate E. cbn [mbind res_bind] in E |- *.
  rewrite Hro in E |- *. cbn [Z.eqb negb] in E |- *. unfold need, due in HB, Hpos.
  assert (Hlen : length (concat L) = length (pairs L)) by (unfold pairs, ents; by rewrite !fmap_length).
  assert (Hhs := pairs_heap _ _ _ HI).
  assert (Hpost : forall H1 t1, size H1 < B ->
    (h ← umod (hashf env k) (prime t1); p ← aget (buckets t1) (N.to_nat h); r ← find_loop env (S (size H1)) H1 None p k;
      match r with Some _ => Ret (MkH H1 t1, 1%Z) | None => '(H', t') ← hsh_insert_ al H1 t1 (hashf env k) k d; Ret (MkH H' t', 0%Z) end) =
    (h ← umod (hashf env k) (prime t1); p ← aget (buckets t1) (N.to_nat h); r ← find_loop env (S (size H1)) H1 None p k;
      match r with Some _ => Ret (MkH H1 t1, 1%Z) | None => '(H', t') ← hsh_insert_ (always al) H1 t1 (hashf env k) k d; Ret (MkH H' t', 0%Z) end)).
  { intros H1 t1 H1B. destruct (umod _ _) as [h| | | |]; try done. cbn [mbind res_bind]. destruct (aget _ _) as [p| | | |]; try done. cbn [mbind res_bind].
    destruct (find_loop _ _ _ _ _ _) as [o| | | |]; try done. cbn [mbind res_bind]. destruct o; [done|]. unfold hsh_insert_. by rewrite (proj1 Ha H1 H1B). }
  destruct (prime (tab s) <? u64 (entries (tab s) * 2))%N eqn:Eg.
  - specialize (Hpos eq_refl).
    pose proof (hsh_grow_spec (hashf env) (always al) (heap s) (tab s) L (hi_t _ _ _ HI) (hi_own _ _ _ HI) Hal') as Hg.
    destruct (hsh_grow (always al) (heap s) (tab s)) as [[H1 t1]| | | |] eqn:Egr; try discriminate E. cbn [ok] in Hg.
    rewrite (proj2 (grow_needs (hashf env) (always al) (heap s) (tab s) L H1 t1 (hi_t _ _ _ HI) Hal' Egr) al B Ha) by lia.
    cbn [mbind res_bind]. apply Hpost. destruct Hg as (L1 & HT1 & Hown1 & Hents & _).
    assert (Hsz : size H1 = length (concat L1)).
    { assert (Hd : dom H1 = list_to_set (C := gset positive) (addrs L1)).
      { apply set_eq. intros a. rewrite elem_of_dom, elem_of_list_to_set. apply Hown1. }
      rewrite <- size_dom, Hd, size_list_to_set by apply HT1. unfold addrs. apply fmap_length. }
    assert (Hl1 : length (concat L1) = length (concat L)) by (rewrite <- (fmap_length snd), <- (fmap_length snd (concat L)); by apply Permutation_length).
    lia.
  - cbn [mbind res_bind]. apply Hpost. lia.
Qed.
(** and it does need that much *)
Lemma insert_not_enough env al s L k d B : hinv env s L -> good env -> halloc_ok al -> readonly (tab s) = 0%Z ->
  (forall H, size H = B -> node_alloc al H = None) -> due (tab s) = true -> length (pairs L) <= B < 2 * length (pairs L) ->
  hsh_insert env al s k d = Fatal.
Proof.
  intros HI G Hal Hro Hn Hd HB. pose proof (hsh_insert_spec env al s L k d HI G Hal Hro) as Hs.
  destruct (hsh_insert env al s k d) as [[s' r]| | | |] eqn:E; cbn [ok] in Hs; try done. exfalso. clear Hs.
  unfold hsh_insert in E. destruct (hsh_check (tab s)) as [u| | | |]; try discriminate E. cbn [mbind res_bind] in E.
  rewrite Hro in E. cbn [Z.eqb negb] in E. unfold due in Hd. rewrite Hd in E.
  destruct (hsh_grow al (heap s) (tab s)) as [[H1 t1]| | | |] eqn:Egr; try discriminate E.
  destruct (grow_needs (hashf env) al (heap s) (tab s) L H1 t1 (hi_t _ _ _ HI) Hal Egr) as [A _].
  assert (Hlen : length (concat L) = length (pairs L)) by (unfold pairs, ents; by rewrite !fmap_length). rewrite (pairs_heap _ _ _ HI) in A.
  destruct (A B ltac:(lia)) as (Hj & Ej & Ha). by rewrite (Hn Hj Ej) in Ha.
Qed.

(** ** the cost of a whole history *)
(** [spent env s g c b p]: after the calls that led to [s] and [g], the table has grown (its count of
    resizings, which hsh_get_stats reports, has gone up) at insertions that found [c] entries altogether in it,
    in tables of [b] buckets altogether, and it has never had more than [p] entries. *)
Definition grew (t t' : table) : bool := negb (resizings t' =? resizings t)%N.
Inductive spent env : hst K D -> ghost -> nat -> N -> nat -> Prop :=
| sp_create al s : halloc_ok al -> hsh_create al = Ret s -> spent env s (Gh [] 0 0 0 0) 0 0 0
| sp_insert al s s' g c b p k d r : spent env s g c b p -> halloc_ok al -> hsh_insert env al s k d = Ret (s', r) ->
    let m := match afind (cmpf env) k (g_map g) with Some _ => g_map g | None => (k, d) :: g_map g end in
    spent env s' (Gh m (g_ro g) (g_retr g) (g_miss g) (N.max (g_max g) (prime (tab s))))
      (if grew (tab s) (tab s') then c + length (g_map g) else c)
      (if grew (tab s) (tab s') then b + prime (tab s) else b)%N (Nat.max p (length m))
| sp_delete s s' g c b p k r : spent env s g c b p -> hsh_delete env s k = Ret (s', r) ->
    spent env s' (Gh (aremove (cmpf env) k (g_map g)) (g_ro g) (g_retr g) (g_miss g) (g_max g)) c b p
| sp_retrieve s s' g c b p k x : spent env s g c b p -> hsh_retrieve env s k = Ret (s', x) ->
    spent env s' (Gh (g_map g) (g_ro g) (g_retr g + 1)
      (match afind (cmpf env) k (g_map g) with Some _ => g_miss g | None => g_miss g + 1 end) (g_max g))%N c b p
| sp_readonly s s' g c b p f old : spent env s g c b p -> hsh_readonly s f = Ret (s', old) ->
    spent env s' (Gh (g_map g) f (g_retr g) (g_miss g) (g_max g)) c b p
| sp_init s s' g c b p q : spent env s g c b p -> hsh_init_position s = Ret (s', q) ->
    spent env s' (Gh (g_map g) (match q with Some _ => 1%Z | None => g_ro g end) (g_retr g) (g_miss g) (g_max g)) c b p
| sp_next s s' g c b p q q' : spent env s g c b p -> hsh_next_position s q = Ret (s', q') ->
    spent env s' (Gh (g_map g) (match q' with Some _ => g_ro g | None => 0%Z end) (g_retr g) (g_miss g) (g_max g)) c b p.
Lemma spent_history env s g c b p : spent env s g c b p -> history env s g.
Proof. induction 1; econstructor; eassumption. Qed.
Lemma history_spent env s g : history env s g -> exists c b p, spent env s g c b p.
Proof.
  induction 1 as [al s Hal E|al s s' g k d r Hh (c & b & p & IH) Hal E|s s' g k r Hh (c & b & p & IH) E|s s' g k x Hh (c & b & p & IH) E
    |s s' g f old Hh (c & b & p & IH) E|s s' g q Hh (c & b & p & IH) E|s s' g q q' Hh (c & b & p & IH) E]; eexists _, _, _.
  - by eapply sp_create.
  - by eapply sp_insert.
  - by eapply sp_delete.
  - by eapply sp_retrieve.
  - by eapply sp_readonly.
  - by eapply sp_init.
  - by eapply sp_next.
Qed.
Local Open Scope N_scope.
Record cheap (g : ghost (K := K) (D := D)) (t : table) (c : nat) (b : N) (p : nat) : Prop := {
  ch_r : 3 ^ resizings t <= prime t;
  ch_small : prime t < 2 ^ 32;
  ch_c : 4 * N.of_nat c <= prime t + 4 * resizings t;
  ch_c' : 2 * N.of_nat c <= 3 * N.of_nat p + 2 * resizings t;
  ch_b : 2 * b <= prime t;
  ch_b' : b <= 3 * N.of_nat p;
  ch_log : resizings t <> 0 -> 3 ^ resizings t < 6 * N.of_nat p;
  ch_p : (length (g_map g) <= p)%nat }.
Lemma cheap_same (g : ghost (K := K) (D := D)) t c b p (g' : ghost (K := K) (D := D)) t' : cheap g t c b p -> prime t' = prime t -> resizings t' = resizings t -> (length (g_map g') <= length (g_map g))%nat -> cheap g' t' c b p.
Proof. intros [H1 H2 H3 H4 H5 H6 H7 H8] Ep Er Hl. constructor; rewrite ?Ep, ?Er; try done. lia. Qed.
Lemma cheap_grow (g : ghost (K := K) (D := D)) t c b p (g' : ghost (K := K) (D := D)) t' : cheap g t c b p -> entries t = u64 (N.of_nat (length (g_map g))) -> 3 * prime t <= 4294967279 -> 2 * N.of_nat (length (g_map g)) <= prime t + 2 ->
  size_step t t' -> (length (g_map g') <= S (length (g_map g)))%nat ->
  cheap g' t' (if grew t t' then (c + length (g_map g))%nat else c) (if grew t t' then b + prime t else b) (Nat.max p (length (g_map g'))).
Proof.
  intros [H1 H2 H3 H4 H5 H6 H7 H8] He Hfit H2n Hs Hl. unfold size_step in Hs. rewrite He in Hs. set (n := N.of_nat (length (g_map g))) in *.
  rewrite (u64_small n) in Hs by lia. rewrite (u64_small (n * 2)) in Hs by lia.
  assert (Hr32 : resizings t < 2 ^ 32). { eapply N.lt_trans; [|exact H2]. eapply N.lt_le_trans; [|exact H1]. apply N.pow_gt_lin_r. lia. }
  destruct (N.ltb_spec (prime t) (n * 2)) as [Hlt|Hge].
  - destruct Hs as [Hp Hr]. rewrite u64_small in Hp by lia. rewrite u32_small in Hp by lia.
    destruct (prm_next_prime_correct (prime t * 3)) as (p' & Hp' & Hrng & _ & Hprime & _).
    { unfold top_prime. assert (1 <= 3 ^ resizings t) by (apply (N.pow_le_mono_r 3 0); lia). lia. }
    rewrite Hp' in Hp. injection Hp as Hpe. unfold top_prime in Hrng. rewrite u64_small in Hr by lia.
    assert (Eg : grew t t' = true). { unfold grew. apply negb_true_iff, N.eqb_neq. lia. } rewrite Eg.
    assert (Hpw : 3 ^ resizings t' = 3 * 3 ^ resizings t) by (rewrite Hr, N.add_1_r; apply N.pow_succ_r').
    constructor; try lia.
  - destruct Hs as [Hp Hr]. assert (Eg : grew t t' = false) by (unfold grew; rewrite Hr, N.eqb_refl; done). rewrite Eg.
    constructor; rewrite ?Hp, ?Hr; try lia.
Qed.
Lemma spent_cheap env s g c b p : good env -> spent env s g c b p -> 3 * g_max g <= 4294967279 -> cheap g (tab s) c b p.
Proof.
  intros G Hh Hfit. induction Hh as [al s Hal E|al s s' g c b p k d r Hh IH Hal E m|s s' g c b p k r Hh IH E|s s' g c b p k x Hh IH E
    |s s' g c b p f old Hh IH E|s s' g c b p q Hh IH E|s s' g c b p q q' Hh IH E]; cbn [g_max] in Hfit;
    try (destruct (history_inv env s g G (spent_history _ _ _ _ _ _ Hh)) as [L [I1 I2 I3 I4 I5 I6]]; specialize (IH ltac:(lia))).
  - pose proof (hsh_create_spec env al) as Hc. rewrite E in Hc. cbn [ok] in Hc. destruct Hc as [HI Ht]. rewrite Ht. constructor; cbn; lia.
  - destruct (Z.eq_dec (readonly (tab s)) 0%Z) as [Hro|Hro]; [|rewrite (hsh_insert_ro env al s L k d I1 Hro) in E; discriminate E].
    pose proof (hsh_insert_spec env al s L k d I1 G Hal Hro) as Hc. rewrite E in Hc. cbn [ok] in Hc.
    destruct Hc as (L' & _ & _ & _ & _ & _ & _ & J7).
    eapply (cheap_grow g (tab s) c b p (Gh m _ _ _ _) (tab s')); try done.
    + rewrite (hi_entries _ _ _ I1). by rewrite I2.
    + lia.
    + apply I6. lia.
    + cbn [g_map]. unfold m. destruct (afind _ _ _); cbn [length]; lia.
  - destruct (Z.eq_dec (readonly (tab s)) 0%Z) as [Hro|Hro]; [|rewrite (hsh_delete_ro env s L k I1 Hro) in E; discriminate E].
    destruct (hsh_delete_spec env s L k I1 G Hro) as (s1 & r1 & L' & E1 & J1 & J2 & J3 & J4 & J5 & J6 & J7 & J8).
    rewrite E1 in E. injection E as <- <-. eapply cheap_same; try done. apply filter_length.
  - destruct (hsh_retrieve_spec env s L k I1 G) as (s1 & L' & E1 & J1 & J2 & _ & _ & J3 & J4 & J5 & J6 & _).
    rewrite E1 in E. injection E as <- <-. by eapply cheap_same.
  - destruct (hsh_readonly_spec env s L f I1) as [E1 J1]. rewrite E1 in E. injection E as <- <-. by eapply cheap_same.
  - rewrite (hsh_init_position_spec env s L I1) in E. injection E as <- <-. destruct (pos_at L 0); by eapply cheap_same.
  - apply next_position_state in E as ->. destruct q'; by eapply cheap_same.
Qed.
End HashGrow.
