(** C94: what growing costs.  A table grows inside an insertion that finds fewer
    than two buckets for each entry; growing copies every node before the old
    ones are released. *)
From Verif Require Import Base PrimeModel HashModel HashSpec HashProofs HashOps HashOps2 HashIter HashHist HashTrace HashProps HashGrow.
Local Open Scope nat_scope.

(** [g_map g] is what the calls so far say the table holds, so [n] is the number of entries. *)
(** Memory enough.  [B] nodes are enough for the insertion, where [B] is twice the
    number of entries if the table is to grow and one more than it otherwise:
    if malloc gives a node whenever fewer than [B] are in use, and gives the block
    of buckets, the insertion does not die. *)
Theorem C94_enough_memory : forall {K D} (env : henv K D) s g al k d B,
  good env -> history env s g -> g_ro g = 0%Z -> halloc_ok al ->
  let n := length (g_map g) in (2 * N.of_nat n < 2 ^ 64)%N ->
  (forall H, size H < B -> node_alloc al H <> None) -> (forall bytes, blk_alloc al bytes = true) ->
  (if (prime (tab s) <? 2 * N.of_nat n)%N then 2 * n else n + 1) <= B ->
  exists s', hsh_insert env al s k d = Ret (s', match afind (cmpf env) k (g_map g) with Some _ => 1%Z | None => 0%Z end).
Proof.
  intros K D env s g al k d B G Hh Hro Hal n Hn Hnode Hblk HB.
  destruct (history_inv env s g G Hh) as [L [I1 I2 I3 I4 I5 I6]].
  assert (Hl : length (pairs L) = n) by (unfold n; by rewrite I2).
  assert (Hd : due (tab s) = (prime (tab s) <? 2 * N.of_nat n)%N).
  { unfold due. rewrite (hi_entries _ _ _ I1), Hl. rewrite (u64_small (N.of_nat n)) by lia. rewrite u64_small by lia. by rewrite N.mul_comm. }
  destruct (insert_enough env al s L k d B I1 G Hal ltac:(congruence) Hnode Hblk) as (s' & r & E).
  - unfold need. rewrite Hd, Hl. destruct (_ <? _)%N; lia.
  - rewrite Hd, Hl. intros Hlt%N.ltb_lt. lia.
  - exists s'. pose proof (P_insert env s g al k d G Hh Hal Hro) as Hp. rewrite E in Hp |- *. cbn [ok] in Hp. destruct (afind _ _ _); by rewrite Hp.
Qed.
Print Assumptions C94_enough_memory.

(** And not less: if the table is to grow, and no node is to be had when [B] are
    in use, [B] between [n] and [2 n - 1], the insertion dies even of a key that
    is in the table already. *)
Theorem C94_not_enough : forall {K D} (env : henv K D) s g al k d B,
  good env -> history env s g -> g_ro g = 0%Z -> halloc_ok al ->
  let n := length (g_map g) in (2 * N.of_nat n < 2 ^ 64)%N ->
  (prime (tab s) < 2 * N.of_nat n)%N -> n <= B < 2 * n -> (forall H, size H = B -> node_alloc al H = None) ->
  hsh_insert env al s k d = Fatal.
Proof.
  intros K D env s g al k d B G Hh Hro Hal n Hn Hg HB Hnode.
  destruct (history_inv env s g G Hh) as [L [I1 I2 I3 I4 I5 I6]].
  assert (Hl : length (pairs L) = n) by (unfold n; by rewrite I2).
  apply (insert_not_enough env al s L k d B I1 G Hal ltac:(congruence) Hnode); [|by rewrite Hl].
  unfold due. rewrite (hi_entries _ _ _ I1), Hl. rewrite (u64_small (N.of_nat n)) by lia. rewrite u64_small by lia. apply N.ltb_lt. lia.
Qed.
Print Assumptions C94_not_enough.

(** The count of resizings goes up, by one, exactly at these insertions. *)
Theorem C94_when : forall {K D} (env : henv K D) s g al k d s' r,
  good env -> history env s g -> halloc_ok al -> hsh_insert env al s k d = Ret (s', r) ->
  let n := length (g_map g) in (3 * prime (tab s) <= 4294967279)%N -> (3 * g_max g <= 4294967279)%N ->
  resizings (tab s') = if (prime (tab s) <? 2 * N.of_nat n)%N then (resizings (tab s) + 1)%N else resizings (tab s).
Proof.
  intros K D env s g al k d s' r G Hh Hal E n Hp Hm. destruct (history_spent env s g Hh) as (c & b & p & Hs).
  pose proof (spent_cheap env s g c b p G Hs Hm) as [C1 C2 _ _ _ _ _ _].
  destruct (history_inv env s g G Hh) as [L [I1 I2 I3 I4 I5 I6]].
  destruct (Z.eq_dec (readonly (tab s)) 0%Z) as [Hro|Hro]; [|rewrite (hsh_insert_ro env al s L k d I1 Hro) in E; discriminate E].
  pose proof (hsh_insert_spec env al s L k d I1 G Hal Hro) as Hc. rewrite E in Hc. cbn [ok] in Hc.
  destruct Hc as (L' & _ & _ & _ & _ & _ & _ & J7). unfold size_step in J7.
  assert (Hl : length (pairs L) = n) by (unfold n; by rewrite I2). rewrite (hi_entries _ _ _ I1), Hl in J7.
  destruct (I6 Hm) as (_ & Hn & _). fold n in Hn.
  rewrite (u64_small (N.of_nat n)) in J7 by lia. rewrite (u64_small (N.of_nat n * 2)) in J7 by lia. rewrite (N.mul_comm 2).
  assert (Hr : (resizings (tab s) < 2 ^ 32)%N). { eapply N.lt_trans; [|exact C2]. eapply N.lt_le_trans; [|exact C1]. apply N.pow_gt_lin_r. lia. }
  destruct (_ <? _)%N; destruct J7 as [_ J]; rewrite J; [|done]. apply u64_small. lia.
Qed.
Print Assumptions C94_when.

(** The work of growing, over any history.  [spent env s g c b p] (HashGrow.v):
    the insertions at which the count of resizings went up found [c] entries and
    [b] buckets altogether, and the table never had more than [p] entries.  So
    with [r] resizings it copied at most 1.5 p + r entries and walked at most
    3 p buckets, however long the history is. *)
Theorem C94_amortised : forall {K D} (env : henv K D) s g c b p,
  good env -> spent env s g c b p -> (3 * g_max g <= 4294967279)%N ->
  let r := resizings (tab s) in
  (2 * N.of_nat c <= 3 * N.of_nat p + 2 * r)%N /\ (b <= 3 * N.of_nat p)%N /\ (r <> 0 -> 3 ^ r < 6 * N.of_nat p)%N.
Proof. intros K D env s g c b p G Hs Hm. destruct (spent_cheap env s g c b p G Hs Hm). done. Qed.
Print Assumptions C94_amortised.
(** every history has such a cost *)
Theorem C94_every_history : forall {K D} (env : henv K D) s g, history env s g <-> exists c b p, spent env s g c b p.
Proof. intros K D env s g. split; [apply history_spent|]. intros (c & b & p & H). by eapply spent_history. Qed.
Print Assumptions C94_every_history.

(** ** Concrete instances *)
(** six entries in eleven buckets: twelve nodes are enough for the next insertion, eleven are not *)
Definition ex_upto (B : nat) : halloc N N := HA (fun H => if Nat.ltb (size H) B then node_alloc ex_al H else None) (fun _ => true).
Lemma ex_upto_ok B : halloc_ok (ex_upto B).
Proof. intros H a. cbn [ex_upto node_alloc]. destruct (Nat.ltb _ _); [|discriminate]. apply ex_al_ok. Qed.
Lemma ex_upto_enough B H : size H < B -> node_alloc (ex_upto B) H <> None.
Proof. intros Hlt. cbn [ex_upto node_alloc]. rewrite (proj2 (Nat.ltb_lt _ _) Hlt). discriminate. Qed.
Lemma ex_upto_not B H : size H = B -> node_alloc (ex_upto B) H = None.
Proof. intros E. cbn [ex_upto node_alloc]. rewrite E. by rewrite Nat.ltb_irrefl. Qed.
Example C94_six : exists s, ex_table [1; 2; 3; 4; 5; 6]%N = Ret s /\
  (prime (tab s) = 11%N /\ size (heap s) = 6 /\ resizings (tab s) = 2%N /\
   (fun x => (x.2, prime (tab x.1), resizings (tab x.1))) <$> hsh_insert ex_env (ex_upto 12) s 7%N 70%N = Ret (0%Z, 37%N, 3%N) /\
   snd <$> hsh_insert ex_env (ex_upto 11) s 7%N 70%N = Fatal /\ snd <$> hsh_insert ex_env (ex_upto 11) s 6%N 60%N = Fatal).
Proof. run. Qed.
Example C94_six_reachable : exists s g, history ex_env s g /\ g_ro g = 0%Z /\ length (g_map g) = 6 /\ (prime (tab s) < 2 * N.of_nat 6)%N.
Proof.
  destruct C94_six as (s & E & P1 & P2 & _). destruct (ex_table_history _ _ E) as (g & Hg & Hro).
  exists s, g. split; [exact Hg|]. split; [exact Hro|]. destruct (P_nodes ex_env s g ex_good Hg) as [Hn _]. split; [lia|]. rewrite P1. reflexivity.
Qed.

(** the cost of inserting ten keys, computed: 1 + 2 + 6 entries copied, 1 + 3 + 11 buckets walked *)
Record cost := Cost { co_s : hst N N; co_g : ghost (K := N) (D := N); co_c : nat; co_b : N; co_p : nat }.
Fixpoint ex_cost (ks : list N) (x : cost) : res cost :=
  match ks with
  | [] => Ret x
  | k :: ks' => '(s', _) ← hsh_insert ex_env ex_al (co_s x) k (k * 10)%N;
      let g := co_g x in
      let m := match afind (cmpf ex_env) k (g_map g) with Some _ => g_map g | None => (k, (k * 10)%N) :: g_map g end in
      ex_cost ks' (Cost s' (Gh m (g_ro g) (g_retr g) (g_miss g) (N.max (g_max g) (prime (tab (co_s x)))))
        (if grew (tab (co_s x)) (tab s') then co_c x + length (g_map g) else co_c x)
        (if grew (tab (co_s x)) (tab s') then co_b x + prime (tab (co_s x)) else co_b x)%N (Nat.max (co_p x) (length m)))
  end.
Definition ex_costs ks : res cost := s ← hsh_create ex_al; ex_cost ks (Cost s (Gh [] 0 0 0 0) 0 0 0).
Definition is_spent (x : cost) : Prop := spent ex_env (co_s x) (co_g x) (co_c x) (co_b x) (co_p x).
Lemma ex_cost_spent ks : forall x y, is_spent x -> ex_cost ks x = Ret y -> is_spent y.
Proof.
  induction ks as [|k ks IH]; intros x y Hx E; cbn [ex_cost] in E; [injection E as <-; exact Hx|].
  destruct (hsh_insert ex_env ex_al (co_s x) k (k * 10)%N) as [[s1 r]| | | |] eqn:E1; try discriminate E. cbn [mbind res_bind] in E.
  refine (IH _ _ _ E). exact (sp_insert ex_env ex_al _ _ _ _ _ _ _ _ _ Hx ex_al_ok E1).
Qed.
Lemma ex_costs_spent ks y : ex_costs ks = Ret y -> is_spent y.
Proof.
  unfold ex_costs. intros E. destruct (hsh_create ex_al) as [s0| | | |] eqn:E0; try discriminate E. cbn [mbind res_bind] in E.
  refine (ex_cost_spent ks _ y _ E). exact (sp_create ex_env ex_al s0 ex_al_ok E0).
Qed.
Lemma ex_costs_run : exists y, ex_costs [1; 2; 3; 4; 5; 6; 7; 40; 60; 80]%N = Ret y /\
  (co_c y = 9 /\ co_b y = 15%N /\ co_p y = 10 /\ resizings (tab (co_s y)) = 3%N /\ (3 * g_max (co_g y) <= 4294967279)%N).
Proof. run. Qed.
Example C94_ten : exists s g, spent ex_env s g 9 15 10 /\ resizings (tab s) = 3%N /\ (3 * g_max g <= 4294967279)%N.
Proof.
  destruct ex_costs_run as (y & E & Hc & Hb & Hp & Hr & Hm). apply ex_costs_spent in E. unfold is_spent in E. rewrite Hc, Hb, Hp in E.
  exists (co_s y), (co_g y). exact (conj E (conj Hr Hm)).
Qed.
