(** C94 for sets: the memory set_insert needs. *)
From Verif Require Import Base PrimeModel PrimeProofs HashModel HashSpec HashProofs HashOps HashIter HashHist HashTrace HashGrow SetModel SetSpec SetProofs SetWorld SetHist SetProps.
Local Open Scope nat_scope.

(** [gel y] is the set of elements the calls so far imply for the handle [h]; [x] is the set as it is. *)
Theorem C94_set_enough_memory : forall {K} (F : fns K) al w g h y x k B,
  whist F w g -> g !! h = Some y -> w !! h = Some x -> gro y = 0%Z -> halloc_ok al ->
  let n := length (gel y) in (2 * N.of_nat n < 2 ^ 64)%N ->
  (forall H, size H < B -> node_alloc al H <> None) -> (forall bytes, blk_alloc al bytes = true) ->
  (if (prime (tab (ws x)) <? 2 * N.of_nat n)%N then 2 * n else n + 1) <= B ->
  exists w', w_insert F al w h k = Ret (w', if smem (gcmp F y) k (gel y) then 1%Z else 0%Z).
Proof.
  intros K F al w g h y x k B Hw Hy Hx Hro Hal n Hn Hnode Hblk HB.
  pose proof (S_insert F al w g h y k Hw Hy Hal Hro) as Hp.
  destruct (wrep_lookup _ _ _ _ _ (whist_rep _ _ _ Hw) Hy) as (x' & Hx' & (L & HI & G & He & Hf & H1 & H2)).
  rewrite Hx in Hx'. injection Hx' as <-.
  assert (Hl : length (pairs L) = n) by (unfold n; rewrite <- He; unfold elems; by rewrite fmap_length).
  assert (Hd : due (tab (ws x)) = (prime (tab (ws x)) <? 2 * N.of_nat n)%N).
  { unfold due. rewrite (hi_entries _ _ _ HI), Hl. rewrite (u64_small (N.of_nat n)) by lia. rewrite u64_small by lia. by rewrite N.mul_comm. }
  destruct (insert_enough (wenv F x) (hal al) (ws x) L k tt B HI G (hal_ok _ Hal) ltac:(congruence) Hnode) as (s' & r & E).
  - intros b. unfold hal. cbn [blk_alloc]. repeat case_match; apply Hblk.
  - unfold need. rewrite Hd, Hl. destruct (_ <? _)%N; lia.
  - rewrite Hd, Hl. intros Hlt%N.ltb_lt. lia.
  - apply (fits_Ret _ _ _ (set_insert_fits _ al _ k)) in E. unfold w_insert in Hp |- *. rewrite (hget_Some _ _ _ Hx) in Hp |- *. cbn [mbind res_bind] in Hp |- *.
    rewrite E in Hp |- *. cbn [mbind res_bind] in Hp |- *. unfold upd in Hp |- *. rewrite (hget_Some _ _ _ Hx) in Hp |- *. cbn [mbind res_bind ok] in Hp |- *.
    destruct Hp as [<- _]. eexists. reflexivity.
Qed.
Print Assumptions C94_set_enough_memory.

Theorem C94_set_not_enough : forall {K} (F : fns K) al w g h y x k B,
  whist F w g -> g !! h = Some y -> w !! h = Some x -> gro y = 0%Z -> halloc_ok al ->
  let n := length (gel y) in (2 * N.of_nat n < 2 ^ 64)%N ->
  (prime (tab (ws x)) < 2 * N.of_nat n)%N -> n <= B < 2 * n -> (forall H, size H = B -> node_alloc al H = None) ->
  w_insert F al w h k = Fatal.
Proof.
  intros K F al w g h y x k B Hw Hy Hx Hro Hal n Hn Hg HB Hnode.
  destruct (wrep_lookup _ _ _ _ _ (whist_rep _ _ _ Hw) Hy) as (x' & Hx' & (L & HI & G & He & Hf & H1 & H2)).
  rewrite Hx in Hx'. injection Hx' as <-.
  assert (Hl : length (pairs L) = n) by (unfold n; rewrite <- He; unfold elems; by rewrite fmap_length).
  assert (E : hsh_insert (wenv F x) (hal al) (ws x) k tt = Fatal).
  { apply (insert_not_enough _ _ _ L _ _ B HI G (hal_ok _ Hal) ltac:(congruence) Hnode); [|by rewrite Hl].
    unfold due. rewrite (hi_entries _ _ _ HI), Hl. rewrite (u64_small (N.of_nat n)) by lia. rewrite u64_small by lia. apply N.ltb_lt. lia. }
  pose proof (set_insert_fits (wenv F x) al (ws x) k) as Hf'. rewrite E in Hf'. cbn [fits] in Hf'.
  unfold w_insert. rewrite (hget_Some _ _ _ Hx). cbn [mbind res_bind]. by rewrite Hf'.
Qed.
Print Assumptions C94_set_not_enough.

(** A set of two elements has three buckets and grows with the next insertion: four nodes are enough, three are not. *)
Definition ex_supto (B : nat) : halloc N unit := HA (fun H => if Nat.ltb (size H) B then node_alloc ex_sal H else None) (fun _ => true).
Lemma ex_supto_ok B : halloc_ok (ex_supto B).
Proof. intros H a. cbn [ex_supto node_alloc]. destruct (Nat.ltb _ _); [|discriminate]. apply ex_sal_ok. Qed.
Lemma ex_supto_enough B H : size H < B -> node_alloc (ex_supto B) H <> None.
Proof. intros Hlt. cbn [ex_supto node_alloc]. rewrite (proj2 (Nat.ltb_lt _ _) Hlt). discriminate. Qed.
Lemma ex_supto_not B H : size H = B -> node_alloc (ex_supto B) H = None.
Proof. intros E. cbn [ex_supto node_alloc]. rewrite E. by rewrite Nat.ltb_irrefl. Qed.
Lemma ex_small_run : exists w, ex_two [1; 2]%N [3]%N = Ret w /\
  ((prime ∘ tab ∘ ws <$> w !! 1%positive) = Some 3%N /\ (size ∘ heap ∘ ws <$> w !! 1%positive) = Some 2 /\
   snd <$> w_insert ex_F (ex_supto 4) w 1 7%N = Ret 0%Z /\ snd <$> w_insert ex_F (ex_supto 3) w 1 7%N = Fatal /\
   snd <$> w_insert ex_F (ex_supto 3) w 1 2%N = Fatal).
Proof. run. Qed.
Example ex_small_reachable : exists w g y x, whist ex_F w g /\ g !! 1%positive = Some y /\ w !! 1%positive = Some x /\ gro y = 0%Z /\
  length (gel y) = 2 /\ (prime (tab (ws x)) < 2 * N.of_nat 2)%N.
Proof.
  destruct ex_small_run as (w & E & Hp & Hl & _). destruct (ex_two_hist _ _ _ E) as (g & y1 & y2 & H1 & H2 & H3 & H4 & H5 & H6 & H7).
  destruct (wrep_lookup _ _ _ _ _ (whist_rep _ _ _ H1) H2) as (x & Hx & (L & HI & _ & He & _)). exists w, g, y1, x.
  rewrite Hx in Hp, Hl. cbn in Hp, Hl. injection Hp as Hp. injection Hl as Hl.
  split; [exact H1|]. split; [exact H2|]. split; [exact Hx|]. split; [exact H5|]. split; [|rewrite Hp; reflexivity].
  rewrite <- He. unfold elems. rewrite fmap_length, <- (pairs_heap _ _ _ HI). exact Hl.
Qed.
