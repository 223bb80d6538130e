(** C86: the lists of hash tables and sets are self-organizing.  [enumerates s m]: an iteration over
    the table [s] visits [m], in this order; [after_lookup] (HashTop.v) is [m] with the entry of the
    key looked up moved to the front of its bucket, everything else staying where it is. *)
From Verif Require Import Base CStr HashModel HashSpec HashProofs HashOps HashOps2 HashHist HashTop HashProps.
From Verif Require Import SetModel SetSpec SetProofs SetWorld SetHist SetProps.
From Verif Require Import StackModel ObjModel MemModel MemProofs MemHist StrModel StrProofs StrHist StrProps.
Local Open Scope nat_scope.

(** hsh_retrieve reorders the table in exactly this way, unless it is read-only (for instance
    because it is being iterated over): then not at all *)
Theorem C86_retrieve : forall {K D} (env : henv K D) s g k m, good env -> history env s g -> enumerates s m ->
  exists s' m', hsh_retrieve env s k = Ret (s', default (dnull env) (afind (cmpf env) k m)) /\ enumerates s' m' /\
    m' = (if decide (g_ro g = 0%Z) then after_lookup (hashf env) (cmpf env) (prime (tab s)) k m else m).
Proof.
  intros K D env s g k m G Hh Hm. destruct (P_order env s g k m G Hh Hm) as (s' & m' & J1 & J2 & J3 & _). by exists s', m'.
Qed.
Print Assumptions C86_retrieve.
(** so a second lookup in a row finds the key at the top, which the statistics count as a hit *)
Theorem C86_again : forall {K D} (env : henv K D) s g k k' s' d, good env -> history env s g -> g_ro g = 0%Z ->
  cmpf env k k' = 0%Z -> afind (cmpf env) k (g_map g) = Some d -> hsh_retrieve env s k = Ret (s', d) ->
  exists s'', hsh_retrieve env s' k' = Ret (s'', d) /\ hits (tab s'') = u64 (hits (tab s') + 1).
Proof. exact @P_again. Qed.
Print Assumptions C86_again.
(** a new key is put at the top of its bucket, also when the table grows *)
Theorem C86_insert : forall {K D} (env : henv K D) s g al k d s' m', good env -> history env s g -> halloc_ok al ->
  hsh_insert env al s k d = Ret (s', 0%Z) -> enumerates s' m' ->
  exists r, filter (in_row (hashf env) (prime (tab s')) (N.to_nat (hashf env k mod prime (tab s')))) m' = (k, d) :: r.
Proof. exact @P_new_top. Qed.
Print Assumptions C86_insert.

(** sets: set_member *)
Theorem C86_set_member : forall {K} (F : fns K) w g h y x k xs ro,
  whist F w g -> g !! h = Some y -> w !! h = Some x -> SetHist.holds w h xs ro ->
  exists s' r xs', set_member (wenv F x) (ws x) k = Ret (s', r) /\ senumerates s' xs' /\
    xs' = (if decide (ro = 0%Z)
           then (after_lookup (fhash F (ghid y)) (gcmp F y) (prime (tab (ws x))) k ((fun k => (k, tt)) <$> xs)).*1 else xs).
Proof.
  intros K F w g h y x k xs ro Hw Hy Hx (x' & Hx' & He & Hro). rewrite Hx in Hx'. injection Hx' as <-.
  destruct (wrep_lookup _ _ _ _ _ (whist_rep _ _ _ Hw) Hy) as (x' & Hx' & Hr). pose proof (rep1_cmp _ _ _ Hr) as Hc.
  destruct Hr as (L & HI & G & Hp & _ & H1 & H2). rewrite Hx in Hx'. injection Hx' as <-.
  rewrite (senumerates_unique _ _ _ He (senumerates_elems _ _ _ HI)) in *.
  destruct (retrieve_order _ _ L k HI G) as (s' & L' & E & J2 & J3 & J4 & _).
  destruct (set_member_as_retrieve _ _ _ _ _ E) as (r & Er & _).
  exists s', r, (elems L'). split; [exact Er|]. split; [apply (senumerates_elems _ _ _ J2)|].
  unfold elems at 1. rewrite J4, Hro.
  destruct (decide (ro = 0%Z)); [|done]. rewrite Hc in *.
  replace ((fun k => (k, tt)) <$> elems L) with (pairs L).
  - rewrite <- H1. reflexivity.
  - unfold elems. clear. induction (pairs L) as [|[k []] m IH]; [done|]. cbn [fmap list_fmap fst]. by rewrite <- IH.
Qed.
Print Assumptions C86_set_member.

(** string pools: an interned string asked for twice in a row is a hit the second time (C61) *)
Theorem C86_pool : forall w G p g s rest rest' w1, pool_history w G -> G !! p = Some g -> q_ro g = 0%Z ->
  str_ok s -> str_pool_exists w (Some p) (s ++ 0%N :: rest) = Ret (w1, 1%Z) ->
  exists w2 x1 x2, str_pool_exists w1 (Some p) (s ++ 0%N :: rest') = Ret (w2, 1%Z) /\
    pools w1 !! p = Some x1 /\ pools w2 !! p = Some x2 /\ hits (tab (phash x2)) = u64 (hits (tab (phash x1)) + 1).
Proof.
  intros w G p g s rest rest' w1 Hw Hg Hro Hs E. destruct (pool_history_inv w G Hw) as [GM I].
  destruct (wi_pool _ _ _ I p g Hg) as (x & Hx & Ho). destruct (po_hash _ _ _ Ho) as (gh & Hh & Hk & Hv & Hr & H1 & H2).
  destruct (exists_ok w G GM I p g Hg s rest Hs) as (w1' & E1 & I1 & _). rewrite E in E1.
  destruct (assoc s (q_int g)) as [a|] eqn:Ha; [|discriminate E1]. injection E1 as <-.
  destruct (mk_key_ok None s Hs) as (k & Ek & _ & Hkv).
  destruct (P_retrieve penv (phash x) gh k penv_good Hh) as [t Et]. rewrite afind_view, Hkv, Hv, Ha in Et by done. cbn in Et.
  unfold str_pool_exists, ppool in E. rewrite (hget_Some _ _ _ Hx) in E. cbn [mbind res_bind] in E.
  unfold pool_retrieve in E. rewrite c_string_spec in E by done. cbn [mbind res_bind] in E. rewrite Ek in E. cbn [mbind res_bind] in E.
  rewrite (live (pmem w) GM (wi_mem _ _ _ I) x g Ho), Et in E. cbn [mbind res_bind] in E. injection E as <-.
  destruct (P_again penv (phash x) gh k k t (Some a) penv_good Hh ltac:(congruence)) as (t2 & Et2 & Ht2).
  { apply (gc_refl _ _ penv_good). }
  { rewrite afind_view, Hkv, Hv, Ha by done. done. }
  { exact Et. }
  exists (upd_hash (upd_hash w p x t) p (Pool (pstr x) t) t2), (Pool (pstr x) t), (Pool (pstr x) t2).
  split; [|split; [cbn; by rewrite lookup_insert|split; [cbn; by rewrite lookup_insert|done]]].
  destruct (wi_pool _ _ _ I1 p _ (lookup_insert _ _ _)) as (x1 & Hx1 & Ho1). cbn in Hx1. rewrite lookup_insert in Hx1. injection Hx1 as <-.
  unfold str_pool_exists, ppool. cbn [upd_hash pools]. rewrite (hget_Some _ _ (Pool (pstr x) t)) by (by rewrite lookup_insert). rb.
  unfold pool_retrieve. rewrite c_string_spec by done. rb. rewrite Ek. rb. cbn [upd_hash pmem].
  rewrite (live (pmem w) GM (wi_mem _ _ _ I1) _ _ Ho1). cbn [phash]. rewrite Et2. rb. done.
Qed.
Print Assumptions C86_pool.
(** str_pool_get_stats reports these hits *)
Theorem C61_hits : forall w G p g al x, pool_history w G -> G !! p = Some g -> (N.of_nat (length (q_int g)) < 2 ^ 32)%N ->
  pools w !! p = Some x ->
  ok (fun '(_, _, _, h, _) => h = to_int (Z.of_N (hits (tab (phash x))))) (blk_alloc (pa_hash al) 72 = false) (str_pool_get_stats true al w (Some p)).
Proof.
  intros w G p g al x Hw Hg Hlen Hx. destruct (pool_history_inv w G Hw) as [GM I].
  destruct (wi_pool _ _ _ I p g Hg) as (x' & Hx' & Ho). rewrite Hx in Hx'. injection Hx' as <-. unfold str_pool_get_stats.
  rewrite (hget_Some _ _ _ Hx). rb. rewrite (sh_stats _ _ (wi_mem _ _ _ I) _ _ (po_mem _ _ _ Ho)). rb.
  destruct (po_hash _ _ _ Ho) as (gh & Hh & _ & Hv & _ & H1 & H2).
  assert (Hl : (N.of_nat (length (g_map gh)) < 2 ^ 32)%N).
  { rewrite <- Hv in Hlen. unfold view in Hlen. by rewrite fmap_length in Hlen. }
  eapply ok_bind; [apply (P_stats penv (phash x) gh (pa_hash al) penv_good Hh Hl)|].
  intros st Hst. cbn [ok]. destruct Hst as (_ & _ & _ & _ & _ & _ & _ & _ & ->). done.
Qed.
Print Assumptions C61_hits.

(** ** instances *)
(** keys 3, 40 and 77 share a bucket of 37: the last one entered is first; looking 3 up puts it first,
    and counts no hit; looking it up again does *)
Definition order_of (s : hst N N) : list N := match hsh_iterate 200 (pure_cb (fun k _ l => (l ++ [k], 0%Z))) s [] with Ret (_, l, _) => l | _ => [] end.
Example ex_order : exists s, ex_table [1; 2; 3; 4; 5; 6; 7; 40; 60; 77]%N = Ret s /\
  order_of s = [1; 2; 77; 40; 3; 4; 5; 6; 7; 60]%N /\
  (('(s1, x) ← hsh_retrieve ex_env s 3%N; '(s2, _) ← hsh_retrieve ex_env s1 3%N; '(s3, _) ← hsh_retrieve ex_env s2 40%N;
    Ret (x, order_of s1, hits (tab s1), hits (tab s2), order_of s3)) =
   Ret (30%N, [1; 2; 3; 77; 40; 4; 5; 6; 7; 60]%N, 0%N, 1%N, [1; 2; 40; 3; 77; 4; 5; 6; 7; 60]%N)).
Proof. run. Qed.
