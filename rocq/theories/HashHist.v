(** Histories of hash table calls, paired with what the calls alone say the
    contents should be; the invariant of every history. *)
From Coq Require Import Znumtheory.
From Verif Require Import Base PrimeModel PrimeProofs HashModel HashSpec ListLemmas HashProofs HashOps HashOps2 HashIter.

Local Open Scope nat_scope.

Section HashHist.
Context {K D : Type}.
Notation hst := (hst K D).
Notation henv := (henv K D).
Notation halloc := (halloc K D).
Implicit Types (env : henv) (s : hst) (m : list (K * D)).

(** What the user can tell from the calls made: the map, the readonly flag, the
    number of retrievals and of failed ones, and the largest table size at the
    time of an earlier insertion. *)
Record ghost := Gh { g_map : list (K * D); g_ro : Z; g_retr : N; g_miss : N; g_max : N }.

Inductive history env : hst -> ghost -> Prop :=
| h_create al s :
    halloc_ok al -> hsh_create al = Ret s -> history env s (Gh [] 0 0 0 0)
| h_insert al s s' g k d r :
    history env s g -> halloc_ok al -> hsh_insert env al s k d = Ret (s', r) ->
    history env s' (Gh (match afind (cmpf env) k (g_map g) with
                        | Some _ => g_map g | None => (k, d) :: g_map g end)
                       (g_ro g) (g_retr g) (g_miss g) (N.max (g_max g) (prime (tab s))))
| h_delete s s' g k r :
    history env s g -> hsh_delete env s k = Ret (s', r) ->
    history env s' (Gh (aremove (cmpf env) k (g_map g)) (g_ro g) (g_retr g) (g_miss g) (g_max g))
| h_retrieve s s' g k x :
    history env s g -> hsh_retrieve env s k = Ret (s', x) ->
    history env s' (Gh (g_map g) (g_ro g) (g_retr g + 1)
                       (match afind (cmpf env) k (g_map g) with
                        | Some _ => g_miss g | None => g_miss g + 1 end) (g_max g))%N
| h_readonly s s' g f old :
    history env s g -> hsh_readonly s f = Ret (s', old) ->
    history env s' (Gh (g_map g) f (g_retr g) (g_miss g) (g_max g))
| h_init s s' g p :
    history env s g -> hsh_init_position s = Ret (s', p) ->
    history env s' (Gh (g_map g) (match p with Some _ => 1%Z | None => g_ro g end)
                       (g_retr g) (g_miss g) (g_max g))
| h_next s s' g p q :
    history env s g -> hsh_next_position s p = Ret (s', q) ->
    history env s' (Gh (g_map g) (match q with Some _ => g_ro g | None => 0%Z end)
                       (g_retr g) (g_miss g) (g_max g)).

(** [m] lists the stored pairs in the order hsh_iterate calls a (well-behaved)
    iterator. *)
Definition enumerates s m : Prop :=
  forall U (f : K -> D -> U -> U * Z) (u : U) fuel,
    N.to_nat (prime (tab s)) + length m < fuel ->
    hsh_iterate fuel (pure_cb f) s u =
      let '(u', stopped) := visit f m u in Ret (s, u', if stopped then 1%Z else 0%Z).

Definition sized (g : ghost) (p : N) : Prop :=
  (3 * g_max g <= 4294967279)%N ->
  (g_max g <= p)%N /\ (2 * N.of_nat (length (g_map g)) <= p + 2)%N /\
  (p = 1%N \/ Znumtheory.prime (Z.of_N p)).

Record hist_inv env s g L : Prop := {
  hh_inv : hinv env s L;
  hh_map : pairs L ≡ₚ g_map g;
  hh_ro : readonly (tab s) = g_ro g;
  hh_retr : retrievals (tab s) = u64 (g_retr g);
  hh_miss : misses (tab s) = u64 (g_miss g);
  hh_size : sized g (prime (tab s)) }.

Lemma next_position_state s p s' q :
  hsh_next_position s p = Ret (s', q) ->
  s' = match q with Some _ => s | None => MkH (heap s) (set_readonly (tab s) 0) end.
Proof.
  unfold hsh_next_position. intros H. destruct (hsh_check (tab s)); try discriminate H.
  cbn [mbind res_bind] in H. destruct p as [pa|]; [|by injection H as <- <-].
  destruct (hget (heap s) pa) as [b| | | |]; try discriminate H. cbn [mbind res_bind] in H.
  destruct (bnext b) as [c|]; [by injection H as <- <-|].
  destruct (umod (bhash b) (prime (tab s))) as [h| | | |]; try discriminate H.
  cbn [mbind res_bind] in H.
  destruct (first_used _ _ _) as [x| | | |]; try discriminate H. cbn [mbind res_bind] in H.
  destruct x; by injection H as <- <-.
Qed.

Lemma size_insert g k d (cmp : K -> K -> Z) (t t' : table) :
  entries t = u64 (N.of_nat (length (g_map g))) -> sized g (prime t) -> (0 < prime t)%N ->
  size_step t t' ->
  sized (Gh (match afind cmp k (g_map g) with Some _ => g_map g | None => (k, d) :: g_map g end)
            (g_ro g) (g_retr g) (g_miss g) (N.max (g_max g) (prime t))) (prime t').
Proof.
  intros He Hs Hpos Hstep Hfit. cbn [g_max g_map] in *.
  destruct Hs as (Hs1 & Hs2 & Hs3); [lia|].
  set (len := N.of_nat (length (g_map g))) in *.
  set (len' := N.of_nat (length (match afind cmp k (g_map g) with Some _ => g_map g | None => (k, d) :: g_map g end))).
  assert (Hlen' : (len' <= len + 1)%N).
  { unfold len', len. destruct (afind cmp k (g_map g)); cbn [length]; lia. }
  unfold size_step in Hstep. rewrite He in Hstep.
  rewrite (u64_small len) in Hstep by lia. rewrite (u64_small (len * 2)) in Hstep by lia.
  destruct (N.ltb_spec (prime t) (len * 2)) as [Hlt|Hge].
  - destruct Hstep as [Hp _]. rewrite u64_small in Hp by lia. rewrite u32_small in Hp by lia.
    destruct (prm_next_prime_correct (prime t * 3)) as (p & Hp' & Hr & _ & Hprime & _).
    { unfold top_prime. lia. }
    rewrite Hp' in Hp. injection Hp as <-. split; [lia|]. split; [lia|]. by right.
  - destruct Hstep as [-> _]. split; [lia|]. split; [lia|]. done.
Qed.

Lemma history_inv env s g : good env -> history env s g -> exists L, hist_inv env s g L.
Proof.
  intros G Hh. induction Hh as
    [al s Hal E|al s s' g k d r Hh [L [I1 I2 I3 I4 I5 I6]] Hal E
    |s s' g k r Hh [L [I1 I2 I3 I4 I5 I6]] E|s s' g k x Hh [L [I1 I2 I3 I4 I5 I6]] E
    |s s' g f old Hh [L [I1 I2 I3 I4 I5 I6]] E|s s' g p Hh [L [I1 I2 I3 I4 I5 I6]] E
    |s s' g p q Hh [L [I1 I2 I3 I4 I5 I6]] E].
  - pose proof (hsh_create_spec env al) as Hc. rewrite E in Hc. simpl in Hc.
    destruct Hc as [HI Ht]. exists [[]]. constructor; rewrite ?Ht; try done.
    intros _. simpl. split; [lia|]. split; [lia|]. by left.
  - destruct (Z.eq_dec (readonly (tab s)) 0%Z) as [Hro|Hro].
    2:{ rewrite (hsh_insert_ro env al s L k d I1 Hro) in E. discriminate E. }
    pose proof (hsh_insert_spec env al s L k d I1 G Hal Hro) as Hc. rewrite E in Hc. simpl in Hc.
    destruct Hc as (L' & J1 & J2 & J3 & J4 & J5 & J6 & J7). exists L'.
    assert (Hf : afind (cmpf env) k (pairs L) = afind (cmpf env) k (g_map g)).
    { eapply afind_perm; [apply G|apply I1|done]. }
    rewrite Hf in J2.
    constructor; cbn [g_map g_ro g_retr g_miss]; try congruence.
    + destruct (afind (cmpf env) k (g_map g)); destruct J2 as [_ ->]; by rewrite I2.
    + eapply size_insert; [|done|apply (hi_t _ _ _ I1)|done].
      rewrite (hi_entries _ _ _ I1). by rewrite I2.
  - destruct (Z.eq_dec (readonly (tab s)) 0%Z) as [Hro|Hro].
    2:{ rewrite (hsh_delete_ro env s L k I1 Hro) in E. discriminate E. }
    destruct (hsh_delete_spec env s L k I1 G Hro)
      as (s1 & r1 & L' & E1 & J1 & J2 & J3 & J4 & J5 & J6 & J7 & J8).
    rewrite E1 in E. injection E as <- <-. exists L'.
    assert (Hp : pairs L' ≡ₚ aremove (cmpf env) k (g_map g)).
    { rewrite <- (aremove_perm _ k _ _ I2). destruct (afind (cmpf env) k (pairs L)) eqn:Ef.
      - destruct J2 as (_ & -> & _). done.
      - destruct J2 as (_ & _ & ->). rewrite aremove_None; [done|]. by apply afind_None. }
    constructor; cbn [g_map g_ro g_retr g_miss]; try congruence.
    rewrite J7. intros Hfit. destruct (I6 Hfit) as (? & ? & ?). split; [done|]. split; [|done].
    cbn [g_map].
    assert (length (aremove (cmpf env) k (g_map g)) <= length (g_map g)) by apply filter_length.
    lia.
  - destruct (hsh_retrieve_spec env s L k I1 G)
      as (s1 & L' & E1 & J1 & J2 & _ & _ & J3 & J4 & J5 & _ & J6 & J7 & _).
    rewrite E1 in E. injection E as <- <-. exists L'.
    assert (Hf : afind (cmpf env) k (pairs L) = afind (cmpf env) k (g_map g)).
    { eapply afind_perm; [apply G|apply I1|done]. }
    constructor; cbn [g_map g_ro g_retr g_miss]; try congruence.
    + by rewrite J2.
    + rewrite J6, I4. apply u64_succ.
    + rewrite J7, <- Hf, I5. destruct (afind _ _ _); [done|apply u64_succ].
    + by rewrite J5.
  - destruct (hsh_readonly_spec env s L f I1) as [E1 J1]. rewrite E1 in E. injection E as <- <-.
    exists L. constructor; cbn [g_map g_ro g_retr g_miss tab set_readonly readonly retrievals misses]; done.
  - rewrite (hsh_init_position_spec env s L I1) in E. injection E as <- <-.
    exists L. destruct (pos_at L 0); constructor; cbn [g_map g_ro g_retr g_miss]; try done.
    by apply hinv_flag.
  - apply next_position_state in E as ->.
    exists L. destruct q; constructor; cbn [g_map g_ro g_retr g_miss]; try done.
    by apply hinv_flag.
Qed.

Lemma enumerates_pairs env s L : hinv env s L -> enumerates s (pairs L).
Proof. intros HI U f u fuel Hf. by apply (hsh_iterate_pure f env). Qed.

Definition collect (k : K) (d : D) (acc : list (K * D)) : list (K * D) * Z := (acc ++ [(k, d)], 0%Z).
Lemma visit_collect m acc : visit collect m acc = (acc ++ m, false).
Proof.
  revert acc. induction m as [|[k d] m IH]; intros acc; simpl; [by rewrite app_nil_r|].
  rewrite IH, <- app_assoc. done.
Qed.

Lemma enumerates_unique s m m' : enumerates s m -> enumerates s m' -> m = m'.
Proof.
  intros H1 H2. set (fuel := S (N.to_nat (prime (tab s)) + length m + length m')).
  specialize (H1 _ collect [] fuel ltac:(lia)). specialize (H2 _ collect [] fuel ltac:(lia)).
  rewrite visit_collect in H1, H2. rewrite H1 in H2. by injection H2.
Qed.

(** ** Statements for the property file *)

Lemma P_create env al : halloc_ok al ->
  ok (fun s => history env s (Gh [] 0 0 0 0)) (can_fail al) (hsh_create al).
Proof.
  intros Hal. pose proof (hsh_create_spec env al) as Hc.
  destruct (hsh_create al) as [s| | | |] eqn:E; simpl in *; try done. by eapply h_create.
Qed.

Lemma P_insert env s g al k d :
  good env -> history env s g -> halloc_ok al -> g_ro g = 0%Z ->
  ok (fun '(s', r) => match afind (cmpf env) k (g_map g) with
                      | Some _ => r = 1%Z | None => r = 0%Z end)
     (can_fail al) (hsh_insert env al s k d).
Proof.
  intros G Hh Hal Hro. destruct (history_inv env s g G Hh) as [L [I1 I2 I3 I4 I5 I6]].
  eapply ok_mono; [apply (hsh_insert_spec env al s L k d I1 G Hal); congruence| |done].
  intros [s' r] (L' & J1 & J2 & _).
  rewrite (afind_perm _ _ G k _ _ (hi_distinct _ _ _ I1) I2) in J2.
  destruct (afind (cmpf env) k (g_map g)); apply J2.
Qed.

Lemma P_delete env s g k :
  good env -> history env s g -> g_ro g = 0%Z ->
  exists s', hsh_delete env s k =
    Ret (s', match afind (cmpf env) k (g_map g) with Some _ => 0%Z | None => 1%Z end).
Proof.
  intros G Hh Hro. destruct (history_inv env s g G Hh) as [L [I1 I2 I3 I4 I5 I6]].
  destruct (hsh_delete_spec env s L k I1 G ltac:(congruence)) as (s1 & r1 & L' & E1 & J1 & J2 & _).
  rewrite (afind_perm _ _ G k _ _ (hi_distinct _ _ _ I1) I2) in J2.
  exists s1. rewrite E1. do 2 f_equal. destruct (afind _ _ (g_map g)); apply J2.
Qed.

Lemma P_retrieve env s g k :
  good env -> history env s g ->
  exists s', hsh_retrieve env s k = Ret (s', default (dnull env) (afind (cmpf env) k (g_map g))).
Proof.
  intros G Hh. destruct (history_inv env s g G Hh) as [L [I1 I2 I3 I4 I5 I6]].
  destruct (hsh_retrieve_spec env s L k I1 G) as (s1 & L' & E1 & _).
  rewrite (afind_perm _ _ G k _ _ (hi_distinct _ _ _ I1) I2) in E1. eauto.
Qed.

Lemma P_contents env s g :
  good env -> history env s g ->
  exists m, m ≡ₚ g_map g /\ enumerates s m /\ adistinct (cmpf env) m.
Proof.
  intros G Hh. destruct (history_inv env s g G Hh) as [L [I1 I2 I3 I4 I5 I6]].
  exists (pairs L). split; [done|]. split; [by apply (enumerates_pairs env)|apply I1].
Qed.

(** the order after a retrieval on a readonly table *)
Lemma P_readonly env s g :
  good env -> history env s g -> g_ro g <> 0%Z ->
  (forall al k d, hsh_insert env al s k d = Abort) /\
  (forall k, hsh_delete env s k = Abort) /\
  hsh_destroy s = Abort /\
  (forall k s' x m, hsh_retrieve env s k = Ret (s', x) -> enumerates s m -> enumerates s' m).
Proof.
  intros G Hh Hro. destruct (history_inv env s g G Hh) as [L [I1 I2 I3 I4 I5 I6]].
  assert (Hr : readonly (tab s) <> 0%Z) by congruence.
  split; [intros; by eapply hsh_insert_ro|]. split; [intros; by eapply hsh_delete_ro|]. split.
  - rewrite (hsh_destroy_spec env s L I1). destruct (Z.eqb_spec (readonly (tab s)) 0%Z); done.
  - intros k s' x m E Hm.
    destruct (hsh_retrieve_spec env s L k I1 G) as (s1 & L' & E1 & J1 & _ & _ & J & _).
    rewrite E1 in E. injection E as <- <-. destruct (J Hr) as [-> _].
    rewrite (enumerates_unique s m (pairs L) Hm (enumerates_pairs env s L I1)).
    by apply (enumerates_pairs env).
Qed.

Lemma P_readonly_call env s g f :
  good env -> history env s g ->
  exists s', hsh_readonly s f = Ret (s', g_ro g) /\
    (forall m, enumerates s m -> enumerates s' m).
Proof.
  intros G Hh. destruct (history_inv env s g G Hh) as [L [I1 I2 I3 I4 I5 I6]].
  destruct (hsh_readonly_spec env s L f I1) as [E1 J1]. rewrite I3 in E1. eexists. split; [exact E1|].
  intros m Hm. rewrite (enumerates_unique s m (pairs L) Hm (enumerates_pairs env s L I1)).
  by apply (enumerates_pairs env).
Qed.

Lemma P_stats env s g al :
  good env -> history env s g -> (N.of_nat (length (g_map g)) < 2 ^ 32)%N ->
  ok (fun st =>
        let c := bucket_counts (hashf env) (s_size st) (g_map g) in
        s_entries st = N.of_nat (length (g_map g)) /\
        s_buckets_used st = N.of_nat (count_if (fun n => negb (Nat.eqb n 0)) c) /\
        s_singletons st = N.of_nat (count_if (fun n => Nat.eqb n 1) c) /\
        s_maximum_length st = N.of_nat (max_list c) /\
        s_retrievals st = u64 (g_retr g) /\ s_misses st = u64 (g_miss g) /\
        s_size st = prime (tab s) /\ s_resizings st = resizings (tab s) /\ s_hits st = hits (tab s))
     (blk_alloc al 72 = false) (hsh_get_stats al s).
Proof.
  intros G Hh Hlen. destruct (history_inv env s g G Hh) as [L [I1 I2 I3 I4 I5 I6]].
  rewrite (hsh_get_stats_spec env al s L I1) by (by rewrite I2).
  destruct (blk_alloc al 72); [|done]. cbn [ok s_entries s_size s_buckets_used s_singletons s_maximum_length s_retrievals s_misses s_resizings s_hits].
  assert (Hb : bucket_counts (hashf env) (prime (tab s)) (pairs L) =
               bucket_counts (hashf env) (prime (tab s)) (g_map g)).
  { unfold bucket_counts. apply list_fmap_ext. intros i x _. by rewrite I2. }
  rewrite Hb, I2. repeat split; done.
Qed.

(** counters one call at a time *)
Lemma P_retrieve_counters env s g k m :
  good env -> history env s g -> enumerates s m ->
  exists s' x, hsh_retrieve env s k = Ret (s', x) /\
    resizings (tab s') = resizings (tab s) /\
    ((on_top (hashf env) (cmpf env) (prime (tab s)) k m /\ hits (tab s') = u64 (hits (tab s) + 1)) \/
     (~ on_top (hashf env) (cmpf env) (prime (tab s)) k m /\ hits (tab s') = hits (tab s))).
Proof.
  intros G Hh Hm. destruct (history_inv env s g G Hh) as [L [I1 I2 I3 I4 I5 I6]].
  rewrite (enumerates_unique s m (pairs L) Hm (enumerates_pairs env s L I1)).
  destruct (hsh_retrieve_spec env s L k I1 G)
    as (s1 & L' & E1 & _ & _ & _ & _ & _ & _ & _ & J1 & _ & _ & J2). eauto 10.
Qed.

Lemma P_insert_counters env s g al k d s' r :
  good env -> history env s g -> halloc_ok al -> hsh_insert env al s k d = Ret (s', r) ->
  hits (tab s') = hits (tab s) /\ size_step (tab s) (tab s').
Proof.
  intros G Hh Hal E. destruct (history_inv env s g G Hh) as [L [I1 I2 I3 I4 I5 I6]].
  destruct (Z.eq_dec (readonly (tab s)) 0%Z) as [Hro|Hro].
  2:{ rewrite (hsh_insert_ro env al s L k d I1 Hro) in E. discriminate E. }
  pose proof (hsh_insert_spec env al s L k d I1 G Hal Hro) as Hc. rewrite E in Hc.
  destruct Hc as (L' & J1 & J2 & J3 & J4 & J5 & J6 & J7). done.
Qed.

Lemma P_load env s g :
  good env -> history env s g -> (3 * g_max g <= 4294967279)%N ->
  (g_max g <= prime (tab s))%N /\
  (2 * N.of_nat (length (g_map g)) <= prime (tab s) + 2)%N /\
  (prime (tab s) = 1%N \/ Znumtheory.prime (Z.of_N (prime (tab s)))).
Proof.
  intros G Hh Hf. destruct (history_inv env s g G Hh) as [L [I1 I2 I3 I4 I5 I6]]. by apply I6.
Qed.

Lemma P_nodes env s g :
  good env -> history env s g -> size (heap s) = length (g_map g) /\
  (g_ro g = 0%Z -> hsh_destroy s = Ret ∅).
Proof.
  intros G Hh. destruct (history_inv env s g G Hh) as [L [I1 I2 I3 I4 I5 I6]]. split.
  - assert (Hd : dom (heap s) = list_to_set (C := gset positive) (addrs L)).
    { apply set_eq. intros a. rewrite elem_of_dom, elem_of_list_to_set. apply (hi_own _ _ _ I1). }
    rewrite <- (size_dom (D := gset positive)), Hd, size_list_to_set by apply (hi_t _ _ _ I1).
    rewrite <- I2. unfold addrs, pairs, ents. by rewrite !fmap_length.
  - intros Hro. rewrite (hsh_destroy_spec env s L I1), I3, Hro. done.
Qed.

Lemma P_iterate_scr env s g scr m fuel :
  good env -> history env s g -> g_ro g = 0%Z -> enumerates s m -> touches_seen env scr ->
  N.to_nat (prime (tab s)) + length m < fuel ->
  exists s' m', hsh_iterate fuel (scr_cb env scr) s [] = Ret (s', m, 0%Z) /\
    enumerates s' m' /\ m' ≡ₚ foldl (spec_act (cmpf env)) m (all_acts scr [] m) /\
    (hsh_destroy s' = Ret ∅).
Proof.
  intros G Hh Hro Hm Hscr Hf. destruct (history_inv env s g G Hh) as [L [I1 I2 I3 I4 I5 I6]].
  rewrite (enumerates_unique s m (pairs L) Hm (enumerates_pairs env s L I1)) in *.
  destruct (hsh_iterate_scr env scr fuel s L G Hscr I1 ltac:(congruence) Hf)
    as (s' & L' & E & J1 & J2 & J3).
  exists s', (pairs L'). split; [done|]. split; [by apply (enumerates_pairs env)|]. split; [done|].
  rewrite (hsh_destroy_spec env s' L' J1), J2. done.
Qed.

(** HSH_ITERATE whose body looks keys up in the table and updates user state *)
Definition lookup_body {U} env (ks : K -> D -> U -> list K) (f : K -> D -> U -> U * Z) : iterator K D U :=
  fun k d '(s, u) =>
    s' ← run_acts env s (ARet <$> ks k d u);
    let '(u', r) := f k d u in Ret (s', u', r).

Lemma run_retrieves_ro env L ks : good env -> forall s,
  hinv env s L -> readonly (tab s) = 1%Z ->
  exists s', run_acts env s (ARet <$> ks) = Ret s' /\ hinv env s' L /\ readonly (tab s') = 1%Z.
Proof.
  intros G. induction ks as [|k ks IH]; intros s HI Hro; [by exists s|].
  cbn [fmap list_fmap run_acts run_act].
  destruct (hsh_retrieve_spec env s L k HI G) as (s1 & L' & E1 & J1 & _ & _ & J & J3 & _).
  destruct J as [-> _]; [congruence|]. rewrite E1. rb. apply IH; [done|congruence].
Qed.

Lemma P_HSH_ITERATE {U} env s g m ks (f : K -> D -> U -> U * Z) u fuel :
  good env -> history env s g -> enumerates s m -> length m < fuel ->
  exists s', HSH_ITERATE fuel env (lookup_body env ks f) s u =
       Ret (s', (visit f m u).1, (visit f m u).2) /\
    enumerates s' m /\
    readonly (tab s') = (if decide (m = []) then g_ro g else if (visit f m u).2 then 1%Z else 0%Z).
Proof.
  intros G Hh Hm Hf. destruct (history_inv env s g G Hh) as [L [I1 I2 I3 I4 I5 I6]].
  rewrite (enumerates_unique s m (pairs L) Hm (enumerates_pairs env s L I1)) in *.
  rewrite <- I3.
  destruct (HSH_ITERATE_spec env L (lookup_body env ks f) f fuel s u) as (s' & E & J1 & J2).
  - intros k d s1 u1 HI1 Hro1.
    destruct (run_retrieves_ro env L (ks k d u1) G s1 HI1 Hro1) as (s2 & E2 & HI2 & Hro2).
    exists s2. unfold lookup_body. rewrite E2. rb. destruct (f k d u1). done.
  - done.
  - done.
  - exists s'. split; [done|]. split; [by apply (enumerates_pairs env)|done].
Qed.

(** a body that breaks leaves the table readonly until HSH_ITERATE_END *)
Lemma P_ITERATE_END env s g :
  good env -> history env s g ->
  exists s', HSH_ITERATE_END s = Ret (s', g_ro g) /\ readonly (tab s') = 0%Z.
Proof.
  intros G Hh. destruct (history_inv env s g G Hh) as [L [I1 I2 I3 I4 I5 I6]].
  destruct (hsh_readonly_spec env s L 0%Z I1) as [E1 J1]. rewrite I3 in E1. eexists. split; [exact E1|done].
Qed.

End HashHist.
