(** C86: the lists of a hash table (and of a set) are self-organizing. *)
From Verif Require Import Base PrimeModel HashModel HashSpec ListLemmas HashProofs HashOps HashOps2 HashHist.
Local Open Scope nat_scope.

(** ** specification *)
Section Spec.
Context {K D : Type}.
(** the entries equal to [k] first, the others in the order they had *)
Definition to_front (cmp : K -> K -> Z) (k : K) (l : list (K * D)) : list (K * D) :=
  filter (fun x => cmp x.1 k = 0%Z) l ++ filter (fun x => cmp x.1 k <> 0%Z) l.
(** an iteration order [m] of a table of [p] buckets, after a lookup of [k]: bucket by bucket,
    with [k] moved to the front of its bucket *)
Definition after_lookup (hf : K -> N) (cmp : K -> K -> Z) (p : N) (k : K) (m : list (K * D)) : list (K * D) :=
  List.concat ((fun i => let bucket := filter (in_row hf p i) m in
                         if decide (i = N.to_nat (hf k mod p)) then to_front cmp k bucket else bucket)
               <$> seq 0 (N.to_nat p)).
End Spec.

Section HashTop.
Context {K D : Type}.
Notation bheap := (bheap K D).
Notation hst := (hst K D).
Notation henv := (henv K D).
Notation nent := (positive * @ent K D)%type.
Implicit Types (l : list nent) (L : list (list nent)) (env : henv) (s : hst).

Lemma elem_of_concat {A} (x : A) (ls : list (list A)) : x ∈ concat ls <-> exists l : list A, x ∈ l /\ l ∈ ls.
Proof.
  rewrite elem_of_list_In, in_concat. split; intros (l & H1 & H2); exists l; rewrite !elem_of_list_In in *; done.
Qed.
Lemma pairs_concat L : pairs L = concat (rpairs <$> L).
Proof. induction L as [|l L IH]; [done|]. by rewrite pairs_cons, IH. Qed.
Lemma to_front_mid (cmp : K -> K -> Z) k (l1 l2 : list (K * D)) x : cmp x.1 k = 0%Z ->
  (forall y, y ∈ l1 ++ l2 -> cmp y.1 k <> 0%Z) -> to_front cmp k (l1 ++ x :: l2) = x :: l1 ++ l2.
Proof.
  intros Hx Hy. unfold to_front. rewrite !filter_app, !filter_cons.
  rewrite decide_True by done. rewrite (decide_False (P := cmp x.1 k <> 0%Z)) by (intros H; done).
  rewrite (filter_none (fun x => cmp x.1 k = 0%Z) l1) by (intros y Hin; apply Hy, elem_of_app; by left).
  rewrite (filter_none (fun x => cmp x.1 k = 0%Z) l2) by (intros y Hin; apply Hy, elem_of_app; by right).
  rewrite (filter_all (fun x => cmp x.1 k <> 0%Z) l1) by (intros y Hin; apply Hy, elem_of_app; by left).
  rewrite (filter_all (fun x => cmp x.1 k <> 0%Z) l2) by (intros y Hin; apply Hy, elem_of_app; by right). done.
Qed.
Lemma to_front_none (cmp : K -> K -> Z) k (l : list (K * D)) :
  (forall y, y ∈ l -> cmp y.1 k <> 0%Z) -> to_front cmp k l = l.
Proof. intros H. unfold to_front. rewrite filter_none, filter_all by done. done. Qed.

Lemma after_rows env s L k (L' : list (list nent)) : hinv env s L -> length L' = length L ->
  (forall i l l', L !! i = Some l -> L' !! i = Some l' ->
     rpairs l' = if decide (i = N.to_nat (hashf env k mod prime (tab s))) then to_front (cmpf env) k (rpairs l) else rpairs l) ->
  pairs L' = after_lookup (hashf env) (cmpf env) (prime (tab s)) k (pairs L).
Proof.
  intros HI Hlen Hr. rewrite pairs_concat. unfold after_lookup. f_equal. apply list_eq. intros i.
  pose proof (hi_t _ _ _ HI) as HT. pose proof (ti_lenL _ _ _ _ HT) as HL.
  rewrite !list_lookup_fmap. destruct (decide (i < length L)) as [Hlt|Hge].
  - destruct (lookup_lt_is_Some_2 L i Hlt) as [l Hl]. destruct (lookup_lt_is_Some_2 L' i ltac:(lia)) as [l' Hl'].
    rewrite Hl', lookup_seq_lt by lia. cbn [fmap option_fmap option_map]. f_equal. rewrite (Hr i l l' Hl Hl').
    cbn [Nat.add]. rewrite (row_pairs _ _ _ _ i l HT Hl). done.
  - rewrite lookup_ge_None_2 by lia. rewrite lookup_seq_ge by lia. done.
Qed.

(** in a row, the other entries differ from the one that equals [k] *)
Lemma row_others env s L h l1 a e l2 k : hinv env s L -> good env -> L !! h = Some (l1 ++ (a, e) :: l2) -> cmpf env (ekey e) k = 0%Z ->
  forall y, y ∈ rpairs l1 ++ rpairs l2 -> cmpf env y.1 k <> 0%Z.
Proof.
  intros HI G Hh Hc y Hy Hyk.
  assert (Hp : pairs L ≡ₚ epair e :: (rpairs l1 ++ rpairs l2) ++ pairs (delete h L)).
  { unfold pairs, ents. rewrite (concat_delete L h _ Hh), !fmap_app. cbn [fmap list_fmap fst snd]. unfold rpairs.
    rewrite <- app_assoc. cbn [app]. rewrite <- Permutation_middle. by rewrite <- !app_assoc. }
  pose proof (adistinct_perm (hashf env) (cmpf env) G _ _ Hp (hi_distinct _ _ _ HI)) as Hd. 
  apply adistinct_cons in Hd as [Hd _]. apply (Hd y); [apply elem_of_app; by left|].
  apply (gc_trans _ _ G _ k); [done|]. by apply (gc_sym _ _ G).
Qed.
Lemma row_at env s L h l x k : hinv env s L -> good env -> L !! h = Some l -> x ∈ l -> cmpf env (ekey x.2) k = 0%Z ->
  h = N.to_nat (hashf env k mod prime (tab s)).
Proof.
  intros HI G Hl Hx Hc. destruct (ti_placed _ _ _ _ (hi_t _ _ _ HI) h l x Hl Hx) as [H1 H2].
  rewrite <- (gc_hash _ _ G _ _ Hc), <- H1. done.
Qed.
Lemma rpairs_app l1 l2 : rpairs (l1 ++ l2) = rpairs l1 ++ rpairs l2.
Proof. unfold rpairs. by rewrite !fmap_app. Qed.

Lemma retrieve_order env s L k : hinv env s L -> good env ->
  exists s' L', hsh_retrieve env s k = Ret (s', default (dnull env) (afind (cmpf env) k (pairs L))) /\
    hinv env s' L' /\ prime (tab s') = prime (tab s) /\
    pairs L' = (if decide (readonly (tab s) = 0%Z) then after_lookup (hashf env) (cmpf env) (prime (tab s)) k (pairs L) else pairs L) /\
    (readonly (tab s) = 0%Z -> afind (cmpf env) k (pairs L) <> None -> on_top (hashf env) (cmpf env) (prime (tab s)) k (pairs L')).
Proof.
  intros HI G. destruct (hsh_retrieve_full env s L k HI G)
    as (s' & L' & J1 & J2 & J3 & J4 & J5 & J6 & J7 & J8 & J9 & J10 & J11 & J12 & J13 & J14).
  exists s', L'. split; [done|]. split; [done|]. split; [done|]. split; [|done].
  destruct (decide (readonly (tab s) = 0%Z)) as [Hro|Hro]; [|by destruct (J5 Hro) as [-> _]].
  destruct J4 as [->|(h & l1 & a & e & l2 & Hh & Hc & ->)].
  - apply (after_rows env s L k L HI eq_refl). intros i l l' Hl Hl'. rewrite Hl in Hl'. injection Hl' as <-.
    destruct (decide (i = _)) as [Hi|]; [|done]. symmetry.
    destruct (afind (cmpf env) k (pairs L)) as [d|] eqn:Ef.
    + destruct (J14 Hro ltac:(done)) as (kd & Hkd & Hc). rewrite <- Hi in Hkd.
      rewrite (row_pairs _ _ _ _ i l (hi_t _ _ _ HI) Hl) in Hkd. destruct l as [|[a e] l]; [done|]. injection Hkd as <-.
      change (rpairs ((a, e) :: l)) with (epair e :: rpairs l). apply (to_front_mid (cmpf env) k [] (rpairs l)); [done|].
      apply (row_others env s L i [] a e l k HI G Hl Hc).
    + apply to_front_none. intros y Hy. rewrite afind_None in Ef. apply Ef. rewrite pairs_concat.
      apply elem_of_concat. exists (rpairs l). split; [done|]. apply elem_of_list_fmap. exists l. split; [done|]. by eapply elem_of_list_lookup_2.
  - apply (after_rows env s L k _ HI); [by rewrite insert_length|]. intros i l l' Hl Hl'.
    assert (Hrow : h = N.to_nat (hashf env k mod prime (tab s))).
    { apply (row_at env s L h _ (a, e) k HI G Hh); [|done]. apply elem_of_app. right. left. }
    destruct (decide (i = h)) as [->|Hne].
    + rewrite decide_True by done. rewrite list_lookup_insert in Hl' by (by eapply lookup_lt_Some). injection Hl' as <-.
      rewrite Hh in Hl. injection Hl as <-. rewrite rpairs_app. change (rpairs ((a, e) :: l1 ++ l2)) with (epair e :: rpairs (l1 ++ l2)).
      change (rpairs ((a, e) :: l2)) with (epair e :: rpairs l2). rewrite rpairs_app. symmetry.
      apply to_front_mid; [done|]. apply (row_others env s L h l1 a e l2 k HI G Hh Hc).
    + rewrite list_lookup_insert_ne in Hl' by done. rewrite Hl in Hl'. injection Hl' as <-. rewrite decide_False by congruence. done.
Qed.
Lemma P_order env s g k m : good env -> history env s g -> enumerates s m ->
  exists s' m', hsh_retrieve env s k = Ret (s', default (dnull env) (afind (cmpf env) k m)) /\ enumerates s' m' /\
    m' = (if decide (g_ro g = 0%Z) then after_lookup (hashf env) (cmpf env) (prime (tab s)) k m else m) /\
    (g_ro g = 0%Z -> afind (cmpf env) k m <> None -> on_top (hashf env) (cmpf env) (prime (tab s')) k m').
Proof.
  intros G Hh Hm. destruct (history_inv env s g G Hh) as [L [I1 I2 I3 I4 I5 I6]].
  rewrite (enumerates_unique s m (pairs L) Hm (enumerates_pairs env s L I1)).
  destruct (retrieve_order env s L k I1 G) as (s' & L' & J1 & J2 & J3 & J4 & J5). exists s', (pairs L').
  rewrite <- I3, J3. split; [done|]. split; [by apply (enumerates_pairs env)|]. done.
Qed.
(** a second lookup finds the key at the top *)
Lemma P_again env s g k k' s' d : good env -> history env s g -> g_ro g = 0%Z -> cmpf env k k' = 0%Z ->
  afind (cmpf env) k (g_map g) = Some d -> hsh_retrieve env s k = Ret (s', d) ->
  exists s'', hsh_retrieve env s' k' = Ret (s'', d) /\ hits (tab s'') = u64 (hits (tab s') + 1).
Proof.
  intros G Hh Hro Hk Hf E. destruct (history_inv env s g G Hh) as [L [I1 I2 I3 I4 I5 I6]].
  destruct (retrieve_order env s L k I1 G) as (s1 & L' & J1 & J2 & J3 & J4 & J5). rewrite E in J1. injection J1 as <- Hd.
  assert (Hf' : afind (cmpf env) k (pairs L) = Some d).
  { rewrite <- Hf. apply (afind_perm (hashf env) (cmpf env) G k); [apply I1|done]. }
  pose proof (J5 ltac:(congruence) ltac:(congruence)) as Htop. rewrite <- J3 in Htop.
  assert (Htop' : on_top (hashf env) (cmpf env) (prime (tab s')) k' (pairs L')).
  { destruct Htop as (kd & H1 & H2). exists kd. rewrite <- (gc_hash _ _ G _ _ Hk). split; [done|]. by apply (gc_trans _ _ G _ k). }
  destruct (hsh_retrieve_spec env s' L' k' J2 G) as (s2 & L2 & M1 & _ & _ & _ & _ & _ & _ & _ & _ & _ & _ & [[_ M2]|[M2 _]]); [|done].
  exists s2. split; [|done]. rewrite M1. do 2 f_equal. 
  destruct (retrieve_order env s L k I1 G) as (s1 & L1 & K1 & _).
  destruct Htop' as (kd & H1 & H2).
  assert (Hin : kd ∈ pairs L'). { destruct (filter _ (pairs L')) as [|x l'] eqn:Ef; [done|]. injection H1 as ->. assert (Hx : kd ∈ kd :: l') by left. rewrite <- Ef in Hx. by apply elem_of_list_filter in Hx as [_ Hx]. }
  destruct kd as [k0 d0]. rewrite (afind_Some (hashf env) (cmpf env) G k' k0 d0 _ (hi_distinct _ _ _ J2) Hin H2). cbn [default from_option id].
  destruct (hsh_retrieve_spec env s L k I1 G) as (s3 & L3 & M3 & _ & M4 & _).
  assert (Hin' : (k0, d0) ∈ pairs L).
  { rewrite J4 in Hin. destruct (decide _) as [|]; [|done]. unfold after_lookup in Hin. apply elem_of_concat in Hin as (b & Hb & Hin).
    apply elem_of_list_fmap in Hin as (i & -> & _). cbv zeta in Hb. destruct (decide _); [|by apply elem_of_list_filter in Hb as [_ Hb]].
    unfold to_front in Hb. apply elem_of_app in Hb as [Hb|Hb]; apply elem_of_list_filter in Hb as [_ Hb]; by apply elem_of_list_filter in Hb as [_ Hb]. }
  assert (Hc : cmpf env k0 k = 0%Z). { apply (gc_trans _ _ G _ k'); [done|]. by apply (gc_sym _ _ G). }
  pose proof (afind_Some (hashf env) (cmpf env) G k k0 d0 _ (hi_distinct _ _ _ I1) Hin' Hc) as Hd0. congruence.
Qed.
(** a new key goes to the top *)
Lemma P_new_top env s g al k d s' m' : good env -> history env s g -> halloc_ok al ->
  hsh_insert env al s k d = Ret (s', 0%Z) -> enumerates s' m' ->
  exists r, filter (in_row (hashf env) (prime (tab s')) (N.to_nat (hashf env k mod prime (tab s')))) m' = (k, d) :: r.
Proof.
  intros G Hh Hal E Hm. destruct (history_inv env s g G Hh) as [L [I1 I2 I3 I4 I5 I6]].
  destruct (Z.eq_dec (readonly (tab s)) 0%Z) as [Hro|Hro].
  2:{ rewrite (hsh_insert_ro env al s L k d I1 Hro) in E. discriminate E. }
  pose proof (hsh_insert_full env al s L k d I1 G Hal Hro) as Hc. rewrite E in Hc. cbn [ok] in Hc.
  destruct Hc as (L' & J1 & J2 & _ & _ & _ & _ & _ & J3).
  destruct (afind (cmpf env) k (pairs L)); [by destruct J2|]. destruct (J3 eq_refl) as (a & l & Hl).
  rewrite (enumerates_unique s' m' (pairs L') Hm (enumerates_pairs env s' L' J1)).
  rewrite (row_pairs _ _ _ _ _ _ (hi_t _ _ _ J1) Hl). by exists (rpairs l).
Qed.
End HashTop.
