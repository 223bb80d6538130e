(** C01-C08: hash tables.
    [history env s g] (HashHist.v): [s] is the state of a table after some
    sequence of API calls starting with hsh_create, and [g] is what the calls
    alone imply: [g_map g] the finite map, [g_ro g] the readonly flag,
    [g_retr]/[g_miss] the number of retrievals / failed ones, [g_max g] the
    largest table size at an insertion.  [enumerates s m] (HashHist.v): [m] is
    the list of pairs hsh_iterate hands to its iterator.  [good env]: the user's
    compare is an equivalence and equal keys hash equally.  [ok P fl r]: [r]
    returns with [P], or is a fatal exit while [fl]. *)
From Coq Require Znumtheory.
From Verif Require Import Base PrimeModel HashModel HashSpec HashProofs HashOps HashOps2 HashIter HashHist.
Local Open Scope nat_scope.

(** ** C01 *)
Theorem C01_hsh_create : forall {K D} (env : henv K D) al, halloc_ok al ->
  ok (fun s => history env s (Gh [] 0 0 0 0)) (can_fail al) (hsh_create al).
Proof. exact @P_create. Qed.
Print Assumptions C01_hsh_create.

(** insert: 1 iff present, else 0; with [h_insert] the map then has the pair. *)
Theorem C01_hsh_insert : forall {K D} (env : henv K D) s g al k d,
  good env -> history env s g -> halloc_ok al -> g_ro g = 0%Z ->
  ok (fun '(s', r) => match afind (cmpf env) k (g_map g) with
                      | Some _ => r = 1%Z | None => r = 0%Z end)
     (can_fail al) (hsh_insert env al s k d).
Proof. exact @P_insert. Qed.
Print Assumptions C01_hsh_insert.

Theorem C01_hsh_delete : forall {K D} (env : henv K D) s g k,
  good env -> history env s g -> g_ro g = 0%Z ->
  exists s', hsh_delete env s k =
    Ret (s', match afind (cmpf env) k (g_map g) with Some _ => 0%Z | None => 1%Z end).
Proof. exact @P_delete. Qed.
Print Assumptions C01_hsh_delete.

Theorem C01_hsh_retrieve : forall {K D} (env : henv K D) s g k,
  good env -> history env s g ->
  exists s', hsh_retrieve env s k = Ret (s', default (dnull env) (afind (cmpf env) k (g_map g))).
Proof. exact @P_retrieve. Qed.
Print Assumptions C01_hsh_retrieve.

(** ** C02 *)
Theorem C02_readonly_refuses : forall {K D} (env : henv K D) s g,
  good env -> history env s g -> g_ro g <> 0%Z ->
  (forall al k d, hsh_insert env al s k d = Abort) /\
  (forall k, hsh_delete env s k = Abort) /\
  hsh_destroy s = Abort /\
  (forall k s' x m, hsh_retrieve env s k = Ret (s', x) -> enumerates s m -> enumerates s' m).
Proof. exact @P_readonly. Qed.
Print Assumptions C02_readonly_refuses.

Theorem C02_hsh_readonly : forall {K D} (env : henv K D) s g f,
  good env -> history env s g ->
  exists s', hsh_readonly s f = Ret (s', g_ro g) /\
    (forall m, enumerates s m -> enumerates s' m).
Proof. exact @P_readonly_call. Qed.
Print Assumptions C02_hsh_readonly.

(** ** C03 *)
Theorem C03_hsh_get_stats : forall {K D} (env : henv K D) s g al,
  good env -> history env s g -> (N.of_nat (length (g_map g)) < 2 ^ 32)%N ->
  ok (fun st =>
        let c := bucket_counts (hashf env) (s_size st) (g_map g) in
        s_entries st = N.of_nat (length (g_map g)) /\
        s_buckets_used st = N.of_nat (count_if (fun n => negb (Nat.eqb n 0)) c) /\
        s_singletons st = N.of_nat (count_if (fun n => Nat.eqb n 1) c) /\
        s_maximum_length st = N.of_nat (max_list c) /\
        s_retrievals st = u64 (g_retr g) /\ s_misses st = u64 (g_miss g) /\
        s_size st = prime (tab s) /\ s_resizings st = resizings (tab s) /\ s_hits st = hits (tab s))
     (blk_alloc al 72 = false) (hsh_get_stats al s).
Proof. exact @P_stats. Qed.
Print Assumptions C03_hsh_get_stats.

(** hits counts the retrievals answered from the top of a list ... *)
Theorem C03_hits : forall {K D} (env : henv K D) s g k m,
  good env -> history env s g -> enumerates s m ->
  exists s' x, hsh_retrieve env s k = Ret (s', x) /\
    resizings (tab s') = resizings (tab s) /\
    ((on_top (hashf env) (cmpf env) (prime (tab s)) k m /\ hits (tab s') = u64 (hits (tab s) + 1)) \/
     (~ on_top (hashf env) (cmpf env) (prime (tab s)) k m /\ hits (tab s') = hits (tab s))).
Proof. exact @P_retrieve_counters. Qed.
Print Assumptions C03_hits.

(** ... and resizings the insertions that grew the table (the only calls that
    change its size). *)
Theorem C03_resizings : forall {K D} (env : henv K D) s g al k d s' r,
  good env -> history env s g -> halloc_ok al -> hsh_insert env al s k d = Ret (s', r) ->
  hits (tab s') = hits (tab s) /\
  if (prime (tab s) <? u64 (entries (tab s) * 2))%N
  then prm_next_prime (u32 (u64 (prime (tab s) * 3))) = Ret (prime (tab s')) /\
       resizings (tab s') = u64 (resizings (tab s) + 1)
  else prime (tab s') = prime (tab s) /\ resizings (tab s') = resizings (tab s).
Proof. exact @P_insert_counters. Qed.
Print Assumptions C03_resizings.

(** ** C04 *)
Theorem C04_half_full : forall {K D} (env : henv K D) s g,
  good env -> history env s g -> (3 * g_max g <= 4294967279)%N ->
  (g_max g <= prime (tab s))%N /\
  (2 * N.of_nat (length (g_map g)) <= prime (tab s) + 2)%N /\
  (prime (tab s) = 1%N \/ Znumtheory.prime (Z.of_N (prime (tab s)))).
Proof. exact @P_load. Qed.
Print Assumptions C04_half_full.

(** ** C05.  Some list [m] with exactly the pairs of the map, each once, is what
    every iterator that leaves the table alone is called on, in order, until it
    returns non-zero; the table is unchanged. *)
Theorem C05_hsh_iterate : forall {K D} (env : henv K D) s g,
  good env -> history env s g ->
  exists m, m ≡ₚ g_map g /\ enumerates s m /\ adistinct (cmpf env) m.
Proof. exact @P_contents. Qed.
Print Assumptions C05_hsh_iterate.

(** ** C06.  The iterator may delete and retrieve keys it has already been given. *)
Theorem C06_iterate_modifying : forall {K D} (env : henv K D) s g scr m fuel,
  good env -> history env s g -> g_ro g = 0%Z -> enumerates s m -> touches_seen env scr ->
  N.to_nat (prime (tab s)) + length m < fuel ->
  exists s' m', hsh_iterate fuel (scr_cb env scr) s [] = Ret (s', m, 0%Z) /\
    enumerates s' m' /\ m' ≡ₚ foldl (spec_act (cmpf env)) m (all_acts scr [] m) /\
    (hsh_destroy s' = Ret ∅).
Proof. exact @P_iterate_scr. Qed.
Print Assumptions C06_iterate_modifying.

(** ** C07.  A loop whose body looks up any keys [ks] in the table, updates the
    user's state and possibly breaks, sees exactly the pairs of hsh_iterate. *)
Theorem C07_HSH_ITERATE : forall {K D U} (env : henv K D) s g m ks (f : K -> D -> U -> U * Z) u fuel,
  good env -> history env s g -> enumerates s m -> length m < fuel ->
  exists s', HSH_ITERATE fuel env (lookup_body env ks f) s u =
       Ret (s', (visit f m u).1, (visit f m u).2) /\
    enumerates s' m /\
    readonly (tab s') = (if decide (m = []) then g_ro g else if (visit f m u).2 then 1%Z else 0%Z).
Proof. intros K D U. exact (@P_HSH_ITERATE K D U). Qed.
Print Assumptions C07_HSH_ITERATE.

Theorem C07_HSH_ITERATE_END : forall {K D} (env : henv K D) s g,
  good env -> history env s g ->
  exists s', HSH_ITERATE_END s = Ret (s', g_ro g) /\ readonly (tab s') = 0%Z.
Proof. exact @P_ITERATE_END. Qed.
Print Assumptions C07_HSH_ITERATE_END.

(** ** C08.  [heap s] is the set of nodes obtained from malloc and not freed;
    freeing an address twice would be [UB]. *)
Theorem C08_nodes_and_destroy : forall {K D} (env : henv K D) s g,
  good env -> history env s g -> size (heap s) = length (g_map g) /\
  (g_ro g = 0%Z -> hsh_destroy s = Ret ∅).
Proof. exact @P_nodes. Qed.
Print Assumptions C08_nodes_and_destroy.

(** ** Concrete instances *)
Definition ex_env : henv N N := HE id (fun a b => Z.of_N a - Z.of_N b)%Z 0%N.
Definition ex_al : halloc N N := 
  HA (fun h => Some (map_fold (fun a _ m => Pos.max m (Pos.succ a)) 1%positive h)) (fun _ => true).

Lemma ex_good : good ex_env.
Proof. constructor; unfold ex_env; simpl; intros; unfold id; lia. Qed.
Lemma ex_al_ok : halloc_ok ex_al.
Proof.
  intros h a [= <-]. simpl.
  assert (Hlt : forall b x, h !! b = Some x ->
     (b < map_fold (fun a _ m => Pos.max m (Pos.succ a)) 1 h)%positive).
  { apply (map_fold_ind (fun m h => forall b x, h !! b = Some x -> (b < m)%positive)).
    - intros b x. by rewrite lookup_empty.
    - intros i y h' m Hi IH b x Hb. destruct (decide (b = i)) as [->|Hne]; [lia|].
      rewrite lookup_insert_ne in Hb by done. specialize (IH b x Hb). lia. }
  destruct (h !! _) as [x|] eqn:E; [|done]. specialize (Hlt _ _ E). lia.
Qed.

Fixpoint ex_inserts (ks : list N) (s : hst N N) : res (hst N N) :=
  match ks with
  | [] => Ret s
  | k :: ks' => '(s', _) ← hsh_insert ex_env ex_al s k (k * 10)%N; ex_inserts ks' s'
  end.
Definition ex_table (ks : list N) : res (hst N N) := s ← hsh_create ex_al; ex_inserts ks s.

Lemma ex_inserts_history ks : forall s g s',
  history ex_env s g -> ex_inserts ks s = Ret s' -> exists g', history ex_env s' g' /\ g_ro g' = g_ro g.
Proof.
  induction ks as [|k ks IH]; intros s g s' Hh E; simpl in E.
  - injection E as <-. eauto.
  - destruct (hsh_insert ex_env ex_al s k (k * 10)%N) as [[s1 r]| | | |] eqn:E1; try discriminate E.
    simpl in E. eapply (h_insert ex_env ex_al) in Hh; [|apply ex_al_ok|exact E1].
    destruct (IH _ _ _ Hh E) as (g' & ? & Hro). eauto.
Qed.
Lemma ex_table_history ks s : ex_table ks = Ret s -> exists g, history ex_env s g /\ g_ro g = 0%Z.
Proof.
  unfold ex_table. intros E. destruct (hsh_create ex_al) as [s0| | | |] eqn:E0; try discriminate E.
  simpl in E. assert (Hh := h_create ex_env ex_al s0 ex_al_ok E0).
  destruct (ex_inserts_history ks s0 _ s Hh E) as (g & ? & ?). exists g. done.
Qed.

(** ten keys: the table has grown three times, to 37 buckets; all hypotheses of
    the theorems above hold of it *)
Lemma ex_compute : exists s,
  ex_table [1; 2; 3; 4; 5; 6; 7; 40; 60; 80]%N = Ret s /\
  (prime (tab s) = 37%N /\ size (heap s) = 10 /\ resizings (tab s) = 3%N).
Proof. run. Qed.
Example ex_reachable : exists s g,
  ex_table [1; 2; 3; 4; 5; 6; 7; 40; 60; 80]%N = Ret s /\ history ex_env s g /\ g_ro g = 0%Z /\
  prime (tab s) = 37%N /\ size (heap s) = 10 /\ resizings (tab s) = 3%N.
Proof.
  destruct ex_compute as (s & E & Hs). destruct (ex_table_history _ _ E) as (g & Hg & Hro).
  exists s, g. exact (conj E (conj Hg (conj Hro Hs))).
Qed.

(** ** C06, the other side: what an iterator must not do. *)
Definition ret_cb (k' : N) : iterator N N (list (N * N)) :=
  fun k d '(s, seen) =>
    '(s', _) ← hsh_retrieve ex_env s k'; Ret (s', seen ++ [(k, d)], 0%Z).
Definition ins_cb (k' : N) : iterator N N (list (N * N)) :=
  fun k d '(s, seen) =>
    '(s', _) ← hsh_insert ex_env ex_al s k' 0%N; Ret (s', seen ++ [(k, d)], 0%Z).

(** 1, 12 and 23 share a bucket of an 11-bucket table. *)
Definition ex_shared : res (hst N N) := ex_table [1; 2; 3; 12; 23]%N.

(** An iterator that retrieves another key can make the walk skip a pair (1 is
    never handed over although hsh_iterate returns 0) or visit one twice. *)
Example C06_retrieve_other_key_skips : exists s,
  ex_shared = Ret s /\
  (size (heap s) = 5 /\
   (fun x => (x.1.2, x.2)) <$> hsh_iterate 100 (ret_cb 1) s [] =
     Ret ([(23, 230); (12, 120); (2, 20); (3, 30)]%N, 0%Z) /\
   (fun x => (x.1.2, x.2)) <$> hsh_iterate 100 (ret_cb 12) s [] =
     Ret ([(23, 230); (12, 120); (23, 230); (1, 10); (2, 20); (3, 30)]%N, 0%Z)).
Proof. run. Qed.

(** An inserting iterator can make it read freed memory. *)
Example C06_inserting_iterator_reads_freed_memory : exists s,
  ex_table [1; 4]%N = Ret s /\ (fun x => x.2) <$> hsh_iterate 100 (ins_cb 9) s [] = UB.
Proof. run. Qed.

(** C07: a user's readonly flag does not survive the loop. *)
Example C07_flag_forced_to_zero : exists s1,
  ('(s1, _) ← (s ← ex_table [1; 2]%N; hsh_readonly s 1); Ret s1) = Ret s1 /\
  (readonly (tab s1) = 1%Z /\
   (fun x => (readonly (tab x.1.1), x.1.2, x.2)) <$>
     HSH_ITERATE 100 ex_env (lookup_body ex_env (fun k _ _ => [k]) (fun _ _ n => (S n, 0%Z))) s1 0
     = Ret (0%Z, 2, false)).
Proof. run. Qed.

(** C06: an iterator that deletes the pair it is given empties the table. *)
Definition del_scr (seen : list (N * N)) : list act :=
  match last seen with Some kd => [ADel kd.1] | None => [] end.
Example C06_delete_all_touches_seen : touches_seen ex_env del_scr.
Proof.
  intros seen x Hx. unfold del_scr in Hx. destruct (last seen) as [kd|] eqn:El; [|set_solver].
  apply elem_of_list_singleton in Hx as ->. exists kd. split.
  - apply last_Some in El as [l ->]. set_solver.
  - apply (gc_refl _ _ ex_good).
Qed.
Example C06_delete_all : exists s,
  ex_shared = Ret s /\
  (fun x => (size (heap x.1.1), length x.1.2, x.2)) <$> hsh_iterate 100 (scr_cb ex_env del_scr) s []
    = Ret (0, 5, 0%Z).
Proof. run. Qed.
