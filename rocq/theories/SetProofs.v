(** set.c functions behave like their hash.c counterparts wherever those return
    or exit; specifications of the single-set operations. *)
From Verif Require Import Base PrimeModel PrimeProofs HashModel HashSpec ListLemmas HashProofs HashOps HashOps2 HashIter SetModel SetSpec.
Local Open Scope nat_scope.

(** wherever [r] returns or exits, [r'] does the same *)
Definition fits {A} (r r' : res A) : Prop :=
  match r with Ret _ | Fatal => r' = r | _ => True end.

Lemma fits_refl {A} (r : res A) : fits r r.
Proof. by destruct r. Qed.
Lemma fits_bind {A B} (m m' : res A) (f f' : A -> res B) :
  fits m m' -> (forall a, fits (f a) (f' a)) -> fits (m ≫= f) (m' ≫= f').
Proof. intros Hm Hf. destruct m; simpl in *; subst; simpl; auto. Qed.
Lemma fits_ok {A} (P : A -> Prop) fl (r r' : res A) : fits r r' -> ok P fl r -> ok P fl r'.
Proof. destruct r; simpl; intros E H; try done; by rewrite E. Qed.
Lemma fits_check {A} (t : table) (m m' : res A) : fits m m' -> fits (_ ← hsh_check t; m) m'.
Proof. intros. unfold hsh_check. destruct (buckets t); simpl; done. Qed.
Lemma fits_for_up {T} n : forall i (b b' : nat -> T -> res T) s,
  (forall i s, fits (b i s) (b' i s)) -> fits (for_up n i b s) (for_up n i b' s).
Proof.
  induction n as [|n IH]; intros i b b' s Hb; simpl; [done|].
  apply fits_bind; [apply Hb|]. intros. by apply IH.
Qed.
Lemma fits_Ret {A} (r r' : res A) a : fits r r' -> r = Ret a -> r' = Ret a.
Proof. intros H ->. done. Qed.

Section SetProofs.
Context {K : Type}.
Notation hst := (hst K unit).
Notation halloc := (halloc K unit).
Notation bheap := (bheap K unit).
Notation henv := (henv K unit).
Notation nent := (positive * @ent K unit)%type.
Implicit Types (L : list (list nent)) (env : henv) (s : hst) (al : halloc).

(** the allocator as hash.c would have seen it (its nodes are 32 bytes, not 24) *)
Definition hal al : halloc :=
  HA (node_alloc al)
     (fun n => if (n =? 88)%N then blk_alloc al 88
               else if (n =? 72)%N then blk_alloc al 72 else blk_alloc al (n / 32 * 24))%N.
Lemma hal_ok al : halloc_ok al -> halloc_ok (hal al).
Proof. done. Qed.
Lemma hal_fail al : can_fail (hal al) -> can_fail al.
Proof.
  intros [H|[n H]]; [by left|right]. simpl in H. repeat case_match; eauto.
Qed.

Lemma set_create__fits al seed : fits (hsh_create_ (hal al) seed) (set_create_ al seed).
Proof.
  unfold hsh_create_, set_create_.
  destruct (prm_next_prime_total (u32 seed)) as (p & -> & Hp & _); [apply u32_lt|]. rb.
  unfold xmalloc_blk, hal. cbn [blk_alloc]. rewrite N.eqb_refl.
  destruct (blk_alloc al 88); [|done]. rb.
  unfold u64. rewrite !(N.mod_small _ (2 ^ 64)) by lia.
  destruct (N.eqb_spec (p * 32) 88); [lia|]. destruct (N.eqb_spec (p * 32) 72); [lia|].
  rewrite N.div_mul by lia. apply fits_refl.
Qed.

Lemma set_destroy_buckets_fits (H : bheap) t : fits (destroy_buckets H t) (set_destroy_buckets H t).
Proof. apply fits_check. apply fits_refl. Qed.

Lemma set_insert__fits al (H : bheap) t hash k :
  fits (hsh_insert_ (hal al) H t hash k tt) (set_insert_ al H t hash k).
Proof.
  unfold hsh_insert_, set_insert_. apply fits_bind; [apply fits_refl|]. intros h.
  apply fits_check. cbn [hal node_alloc]. apply fits_refl.
Qed.

Lemma set_copy_chain_fits al n : forall (H : bheap) new p,
  fits (copy_chain (hal al) n H new p) (set_copy_chain al n H new p).
Proof.
  induction n as [|n IH]; intros H new [a|]; simpl; try done.
  apply fits_bind; [apply fits_refl|]. intros b. apply fits_bind.
  - destruct (bdatum b). apply set_insert__fits.
  - intros [H' new']. apply fits_bind; [apply fits_refl|]. intros b'. apply IH.
Qed.

Lemma set_grow_fits al (H : bheap) t : fits (hsh_grow (hal al) H t) (set_grow al H t).
Proof.
  unfold hsh_grow, set_grow. apply fits_bind; [apply set_create__fits|]. intros new.
  apply fits_bind.
  - apply fits_for_up. intros i [H' new']. apply fits_bind; [apply fits_refl|]. intros p.
    apply set_copy_chain_fits.
  - intros [H1 new1]. apply fits_bind; [apply set_destroy_buckets_fits|]. intros [H2 ?].
    apply fits_refl.
Qed.

Lemma set_insert_fits env al s k : fits (hsh_insert env (hal al) s k tt) (set_insert env al s k).
Proof.
  unfold hsh_insert, set_insert. apply fits_check.
  destruct (negb (readonly (tab s) =? 0)%Z); [done|]. apply fits_bind.
  - destruct (prime (tab s) <? u64 (entries (tab s) * 2))%N; [apply set_grow_fits|apply fits_refl].
  - intros [H t]. do 3 (apply fits_bind; [apply fits_refl|intros ?]).
    destruct a1 as [x|]; [apply fits_refl|].
    apply fits_bind; [apply set_insert__fits|]. intros [H' t']. apply fits_refl.
Qed.

Lemma set_delete_fits env s k : fits (hsh_delete env s k) (set_delete env s k).
Proof.
  unfold hsh_delete, set_delete. apply fits_bind; [apply fits_refl|]. intros h.
  apply fits_check. apply fits_refl.
Qed.

Lemma set_destroy_fits s : fits (hsh_destroy s) (set_destroy s).
Proof.
  unfold hsh_destroy, set_destroy. apply fits_check.
  destruct (negb (readonly (tab s) =? 0)%Z); [done|].
  apply fits_bind; [apply set_destroy_buckets_fits|]. intros [? ?]. apply fits_refl.
Qed.

Lemma set_init_position_fits s : fits (hsh_init_position s) (set_init_position s).
Proof. apply fits_check, fits_refl. Qed.
Lemma set_next_position_fits s p : fits (hsh_next_position s p) (set_next_position s p).
Proof. apply fits_check, fits_refl. Qed.

Lemma set_pos_loop_fits {U} env n (body : siterator K U) : forall p su,
  fits (pos_loop n env (fun k _ su => body k su) p su) (set_pos_loop n body p su).
Proof.
  induction n as [|n IH]; intros [a|] su; cbn [pos_loop set_pos_loop]; try done.
  unfold hsh_get_position, set_get_position.
  destruct (hget (heap su.1) a) as [b| | | |]; try done. rb.
  apply fits_bind; [apply fits_refl|]. intros [su' r].
  destruct (negb (r =? 0)%Z); [done|]. apply fits_bind; [apply set_next_position_fits|].
  intros [s2 p']. apply IH.
Qed.

Lemma SET_ITERATE_fits {U} env n (body : siterator K U) s u :
  fits (HSH_ITERATE n env (fun k _ su => body k su) s u) (SET_ITERATE n body s u).
Proof.
  apply fits_bind; [apply set_init_position_fits|]. intros [s1 p]. apply set_pos_loop_fits.
Qed.

(** ** contents *)
Definition elems L : list K := (pairs L).*1.

Lemma smem_afind cmp k (m : list (K * unit)) :
  smem cmp k m.*1 = match afind cmp k m with Some _ => true | None => false end.
Proof.
  induction m as [|[x u] m IH]; [done|]. cbn [fmap list_fmap fst smem existsb afind].
  destruct (cmp x k =? 0)%Z; [done|]. apply IH.
Qed.
Lemma sremove_aremove cmp k (m : list (K * unit)) : sremove cmp k m.*1 = (aremove cmp k m).*1.
Proof.
  unfold sremove, aremove. induction m as [|[x u] m IH]; [done|]. cbn [fmap list_fmap fst].
  destruct (cmp x k =? 0)%Z eqn:E.
  - rewrite !filter_cons_False; [done|simpl; congruence..].
  - rewrite !filter_cons_True by (simpl; congruence). cbn [fmap list_fmap fst]. by rewrite <- IH.
Qed.
Lemma sdistinct_adistinct cmp (m : list (K * unit)) : adistinct cmp m -> sdistinct cmp m.*1.
Proof.
  induction 1 as [|x m Hx Hm IH]; simpl; constructor; [|done].
  rewrite Forall_forall in Hx. apply Forall_forall. intros y Hy.
  apply elem_of_list_fmap in Hy as (z & -> & Hz). by apply Hx.
Qed.

Lemma set_create_spec env al :
  ok (fun s => hinv env s [[]] /\ tab s = Tab 1 0 [None] 0 0 0 0 0) (can_fail al) (set_create al).
Proof.
  eapply fits_ok.
  - apply (fits_bind (hsh_create_ (hal al) 0) (set_create_ al 0)); [apply set_create__fits|].
    intros t. apply fits_refl.
  - eapply ok_mono; [apply (hsh_create_spec env (hal al))|done|apply hal_fail].
Qed.

Lemma set_insert_ro env al s k : readonly (tab s) <> 0%Z -> set_insert env al s k = Abort.
Proof. intros Hr. unfold set_insert. destruct (Z.eqb_spec (readonly (tab s)) 0%Z); done. Qed.

Lemma set_delete_ro env s L k : hinv env s L -> readonly (tab s) <> 0%Z -> set_delete env s k = Abort.
Proof.
  intros HI Hr. unfold set_delete. rewrite (umod_ok _ _ (ti_prime _ _ _ _ (hi_t _ _ _ HI))). rb.
  destruct (Z.eqb_spec (readonly (tab s)) 0%Z); done.
Qed.
Lemma set_destroy_spec env s L : hinv env s L ->
  set_destroy s = if (readonly (tab s) =? 0)%Z then Ret ∅ else Abort.
Proof.
  intros HI. destruct (readonly (tab s) =? 0)%Z eqn:E.
  - eapply fits_Ret; [apply set_destroy_fits|]. rewrite (hsh_destroy_spec env s L HI), E. done.
  - unfold set_destroy. by rewrite E.
Qed.

Lemma set_insert_spec env al s L k :
  hinv env s L -> good env -> halloc_ok al -> readonly (tab s) = 0%Z ->
  ok (fun '(s', r) => exists L',
        hinv env s' L' /\
        r = (if smem (cmpf env) k (elems L) then 1%Z else 0%Z) /\
        elems L' ≡ₚ sinsert (cmpf env) k (elems L) /\
        readonly (tab s') = 0%Z /\ retrievals (tab s') = retrievals (tab s) /\
        hits (tab s') = hits (tab s) /\ misses (tab s') = misses (tab s) /\
        size_step (tab s) (tab s'))
     (can_fail al) (set_insert env al s k).
Proof.
  intros HI G Hal Hro. eapply fits_ok; [apply set_insert_fits|].
  eapply ok_mono; [apply (hsh_insert_spec env (hal al) s L k tt HI G Hal Hro)| |apply hal_fail].
  intros [s' r] (L' & J1 & J2 & J3). exists L'. split; [done|].
  unfold sinsert, elems. rewrite smem_afind.
  destruct (afind (cmpf env) k (pairs L)); destruct J2 as [-> J2]; (split; [done|]); (split; [|done]).
  - by rewrite J2.
  - rewrite J2. done.
Qed.

Lemma set_delete_spec env s L k :
  hinv env s L -> good env -> readonly (tab s) = 0%Z ->
  exists s' L', set_delete env s k =
      Ret (s', if smem (cmpf env) k (elems L) then 0%Z else 1%Z) /\ hinv env s' L' /\
    elems L' ≡ₚ sremove (cmpf env) k (elems L) /\
    readonly (tab s') = 0%Z /\ retrievals (tab s') = retrievals (tab s) /\
    hits (tab s') = hits (tab s) /\ misses (tab s') = misses (tab s) /\
    prime (tab s') = prime (tab s) /\ resizings (tab s') = resizings (tab s).
Proof.
  intros HI G Hro.
  destruct (hsh_delete_spec env s L k HI G Hro) as (s' & r & L' & E & J1 & J2 & J3).
  exists s', L'. unfold elems. rewrite smem_afind, sremove_aremove.
  rewrite (fits_Ret _ _ _ (set_delete_fits env s k) E).
  destruct (afind (cmpf env) k (pairs L)) eqn:Ef.
  - destruct J2 as (-> & -> & _). done.
  - destruct J2 as (-> & -> & ->). rewrite aremove_None; [done|]. by apply afind_None.
Qed.

Lemma u64_succ_ne m : u64 (m + 1) <> m.
Proof.
  unfold u64. intros E. assert (m < 2 ^ 64)%N by (rewrite <- E; apply N.mod_lt; lia).
  destruct (decide (m = 2 ^ 64 - 1)%N) as [->|Hne]; [vm_compute in E; discriminate E|].
  rewrite N.mod_small in E by lia. lia.
Qed.

(** set_member does what hsh_retrieve does; its result shows in [misses] *)
Lemma set_member_as_retrieve env s k s' x :
  hsh_retrieve env s k = Ret (s', x) ->
  exists r, set_member env s k = Ret (s', r) /\
    ((r = 1%Z /\ misses (tab s') = misses (tab s)) \/
     (r = 0%Z /\ misses (tab s') = u64 (misses (tab s) + 1))).
Proof.
  unfold hsh_retrieve, set_member. intros E.
  destruct (umod (hashf env k) (prime (tab s))) as [h| | | |]; try discriminate E. rewrite !bind_Ret in *.
  unfold hsh_check in E. destruct (buckets (tab s)) as [|b0 bs0] eqn:Eb; [discriminate E|].
  rewrite !bind_Ret in *. cbn [set_counts buckets readonly retrievals hits misses] in *.
  rewrite Eb in *.
  destruct (aget (b0 :: bs0) (N.to_nat h)) as [p| | | |]; try discriminate E. rewrite !bind_Ret in *.
  destruct (find_loop _ _ _ _ _ _) as [[[[q|] a]|]| | | |]; try discriminate E; rewrite !bind_Ret in *.
  - destruct (readonly (tab s) =? 0)%Z.
    + destruct (hget (heap s) a) as [b| | | |]; try discriminate E. rewrite !bind_Ret in *.
      destruct (hget (heap s) q) as [bq| | | |]; try discriminate E. rewrite !bind_Ret in *.
      destruct (hset (heap s) q _) as [H1| | | |]; try discriminate E. rewrite !bind_Ret in *.
      destruct (hget H1 a) as [b1| | | |]; try discriminate E. rewrite !bind_Ret in *.
      destruct (hset H1 a _) as [H2| | | |]; try discriminate E. rewrite !bind_Ret in *.
      destruct (aset (b0 :: bs0) (N.to_nat h) (Some a)) as [bs| | | |]; try discriminate E. rewrite !bind_Ret in *.
      destruct (hget H2 a) as [b2| | | |]; try discriminate E. rewrite !bind_Ret in *.
      injection E as <- <-. eexists. split; [done|]. left. done.
    + destruct (hget (heap s) a) as [b| | | |]; try discriminate E. rewrite !bind_Ret in *.
      injection E as <- <-. eexists. split; [done|]. left. done.
  - destruct (hget (heap s) a) as [b| | | |]; try discriminate E. rewrite !bind_Ret in *.
    injection E as <- <-. eexists. split; [done|]. left. done.
  - injection E as <- <-. eexists. split; [done|]. right. done.
Qed.

Lemma set_member_spec env s L k :
  hinv env s L -> good env ->
  exists s' L', set_member env s k = Ret (s', if smem (cmpf env) k (elems L) then 1%Z else 0%Z) /\
    hinv env s' L' /\ elems L' ≡ₚ elems L /\
    (readonly (tab s) <> 0%Z -> L' = L /\ heap s' = heap s /\ buckets (tab s') = buckets (tab s)) /\
    readonly (tab s') = readonly (tab s) /\ entries (tab s') = entries (tab s) /\
    prime (tab s') = prime (tab s) /\ resizings (tab s') = resizings (tab s) /\
    retrievals (tab s') = u64 (retrievals (tab s) + 1) /\
    misses (tab s') = (if smem (cmpf env) k (elems L) then misses (tab s) else u64 (misses (tab s) + 1)) /\
    ((on_top (hashf env) (cmpf env) (prime (tab s)) k (pairs L) /\ hits (tab s') = u64 (hits (tab s) + 1)) \/
     (~ on_top (hashf env) (cmpf env) (prime (tab s)) k (pairs L) /\ hits (tab s') = hits (tab s))).
Proof.
  intros HI G.
  destruct (hsh_retrieve_spec env s L k HI G)
    as (s' & L' & E & J1 & J2 & _ & J3 & J4 & J5 & J6 & J7 & J8 & J9 & J10).
  exists s', L'. unfold elems. rewrite smem_afind.
  destruct (set_member_as_retrieve env s k s' _ E) as (r & -> & Hr).
  split; [|split; [done|]; split; [by rewrite J2|]; split; [|do 5 (split; [done|])]].
  - f_equal. f_equal. rewrite J9 in Hr. destruct (afind (cmpf env) k (pairs L)).
    + destruct Hr as [[-> _]|[-> Hr]]; [done|]. exfalso. by apply (u64_succ_ne (misses (tab s))).
    + destruct Hr as [[-> Hr]|[-> _]]; [|done]. exfalso. by apply (u64_succ_ne (misses (tab s))).
  - intros Hro. destruct (J3 Hro) as [-> Hh]. split; [done|]. split; [done|].
    (* same rows in the same heap: same heads *)
    pose proof (ti_rows _ _ _ _ (hi_t _ _ _ HI)) as R1.
    pose proof (ti_rows _ _ _ _ (hi_t _ _ _ J1)) as R2. rewrite Hh in R2.
    clear -R1 R2. revert R2. generalize (buckets (tab s')). intros bs2 R2.
    revert bs2 R2. induction R1 as [|p l bs L Hpl R1 IH]; intros bs2 R2; inversion R2 as [|? q ? ? Hq R3]; subst; [done|].
    f_equal; [|auto]. destruct l as [|[a e] l]; simpl in *; [congruence|].
    destruct Hpl as [-> _]. by destruct Hq as [-> _].
  - split; [|done]. rewrite J9. by destruct (afind (cmpf env) k (pairs L)).
Qed.

Lemma set_get_stats_spec env al s L :
  hinv env s L -> (N.of_nat (length (elems L)) < 2 ^ 64)%N ->
  set_get_stats al s =
    if blk_alloc al 72 then
      let c := bucket_counts (hashf env) (prime (tab s)) (pairs L) in
      Ret (HS (prime (tab s)) (resizings (tab s)) (N.of_nat (length (elems L)))
              (N.of_nat (count_if (fun c => negb (Nat.eqb c 0)) c))
              (N.of_nat (count_if (fun c => Nat.eqb c 1) c))
              (N.of_nat (max_list c))
              (retrievals (tab s)) (hits (tab s)) (misses (tab s)))
    else Fatal.
Proof.
  unfold elems. rewrite fmap_length. intros HI Hlen. unfold set_get_stats, xmalloc_blk.
  destruct (blk_alloc al 72); [|done]. rb.
  pose proof (hi_t _ _ _ HI) as HT.
  assert (Hpl : length (pairs L) = sum_list (length <$> L)).
  { unfold pairs, ents. rewrite !fmap_length. apply concat_length_sum. }
  rewrite (stats_loop (2 ^ 64) s L).
  2:{ done. }
  2:{ intros i l Hl. eapply row_nodup; [apply HT|done]. }
  2:{ apply HT. }
  2:{ rewrite (ti_lenL _ _ _ _ HT). done. }
  2:{ rewrite drop_0. cbn [s_entries]. lia. }
  2:{ done. } 2:{ done. }
  rb. rewrite drop_0. cbn [s_size s_resizings s_entries s_buckets_used s_singletons s_maximum_length s_retrievals s_hits s_misses].
  rewrite (counts_rows _ _ _ _ HT), (hi_entries _ _ _ HI), <- Hpl, !N.add_0_l, N.max_0_l.
  rewrite u64_small by lia. rewrite N.eqb_refl. done.
Qed.

(** ** The double loop on a set whose chains do not change *)
Section Walk.
Context {T : Type} (get : T -> res hst) (body : K -> T -> res (T * bool)).

Fixpoint vfold (ks : list K) (w : T) : res (T * bool) :=
  match ks with
  | [] => Ret (w, false)
  | k :: ks' => '(w', stop) ← body k w; if (stop : bool) then Ret (w', true) else vfold ks' w'
  end.

Lemma vfold_app ks1 ks2 w :
  vfold (ks1 ++ ks2) w =
  '(w', stop) ← vfold ks1 w; if (stop : bool) then Ret (w', true) else vfold ks2 w'.
Proof.
  revert w. induction ks1 as [|k ks IH]; intros w; [done|]. cbn [app vfold].
  destruct (body k w) as [[w' [|]]| | | |]; simpl; done.
Qed.

(** chains of the walked set *)
Definition frozen (t0 : hst) (w : T) : Prop :=
  exists s, get w = Ret s /\ heap s = heap t0 /\ buckets (tab s) = buckets (tab t0) /\
            prime (tab s) = prime (tab t0).

Context (P : T -> Prop) (t0 : hst)
  (Pfrozen : forall w, P w -> frozen t0 w)
  (Pbody : forall k w r, P w -> body k w = Ret r -> P r.1).

Lemma vfold_P ks : forall w r, P w -> vfold ks w = Ret r -> P r.1.
Proof.
  induction ks as [|k ks IH]; intros w r Pw; cbn [vfold]; [by intros [= <-]|].
  destruct (body k w) as [[w' st]| | | |] eqn:E; try done. apply Pbody in E; [|done]. rb.
  destruct st; [by intros [= <-]|]. by apply IH.
Qed.

Lemma walk_chain_vfold (l : list nent) : forall n p w,
  row (heap t0) p l -> length l < n -> P w ->
  walk_chain get body n p w = vfold ((fun x => ekey x.2) <$> l) w.
Proof.
  induction l as [|[a e] l IH]; intros n p w Hr Hn Pw.
  - simpl in Hr. rewrite Hr. by destruct n.
  - destruct n as [|n]; [simpl in Hn; lia|]. destruct Hr as (-> & nx & Ha & Hs).
    cbn [walk_chain fmap list_fmap vfold snd].
    destruct (Pfrozen w Pw) as (s & Hg & Hh & _). rewrite Hg. rb.
    rewrite Hh, (hget_Some _ _ _ Ha). rb. cbn [bkey mkB].
    destruct (body (ekey e) w) as [[w' [|]]| | | |] eqn:Hb; try done. rb. apply Pbody in Hb; [|done].
    destruct (Pfrozen w' Hb) as (s' & Hg' & Hh' & _). rewrite Hg'. rb.
    rewrite Hh', (hget_Some _ _ _ Ha). rb. cbn [bnext mkB].
    apply IH; [done|simpl in Hn; lia|done].
Qed.

Lemma walk_rows_vfold env L : hinv env t0 L -> forall n fuel i w,
  length (pairs L) < fuel -> length L < n + N.to_nat i -> N.to_nat i <= length L -> P w ->
  walk_rows get body n fuel i w = vfold (elems (drop (N.to_nat i) L)) w.
Proof.
  intros HI. pose proof (hi_t _ _ _ HI) as HT. pose proof (ti_lenL _ _ _ _ HT) as Hlen.
  induction n as [|n IH]; intros fuel i w Hf Hn Hi Pw; [lia|].
  cbn [walk_rows]. destruct (Pfrozen w Pw) as (s & Hg & Hh & Hb & Hp). rewrite Hg. rb.
  rewrite Hp, Hb. destruct (N.ltb_spec i (prime (tab t0))) as [Hlt|Hge].
  - destruct (row_of _ _ _ _ i HT Hlt) as (p & l & Hpi & Hl & Hrow & Hnd & _).
    rewrite (aget_Some _ _ _ Hpi). rb.
    rewrite (drop_S _ _ _ Hl). unfold elems, pairs, ents. cbn [concat].
    rewrite !fmap_app, vfold_app.
    assert (Hrl : length l <= length (pairs L)).
    { unfold pairs, ents. rewrite !fmap_length. rewrite (concat_delete L _ l Hl), app_length. lia. }
    rewrite (walk_chain_vfold l) by (done || lia).
    replace ((fun x => ekey x.2) <$> l) with (((epair <$> l.*2).*1) : list K)
      by (rewrite <- !list_fmap_compose; done).
    destruct (vfold (epair <$> l.*2).*1 w) as [[w' [|]]| | | |] eqn:Hv; try done. rb.
    apply vfold_P in Hv; [|done].
    rewrite IH by (done || lia).
    replace (N.to_nat (i + 1)) with (S (N.to_nat i)) by lia. done.
  - rewrite drop_ge by lia. done.
Qed.

Lemma walk_vfold env L fuel w : hinv env t0 L ->
  N.to_nat (prime (tab t0)) + length (elems L) < fuel -> P w ->
  walk get body fuel w = vfold (elems L) w.
Proof.
  intros HI Hf Pw. unfold walk. unfold elems in Hf. rewrite fmap_length in Hf.
  pose proof (ti_lenL _ _ _ _ (hi_t _ _ _ HI)) as Hlen.
  rewrite (walk_rows_vfold env L HI) by (done || lia). done.
Qed.
End Walk.

End SetProofs.
