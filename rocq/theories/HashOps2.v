(** Retrieval, destruction, iteration, positions and statistics. *)
From Verif Require Import Base PrimeModel PrimeProofs HashModel HashSpec ListLemmas HashProofs HashOps.
Local Open Scope nat_scope.

Section HashOps2.
Context {K D : Type}.
Notation bheap := (bheap K D).
Notation hst := (hst K D).
Notation henv := (henv K D).
Notation halloc := (halloc K D).
Notation nent := (positive * @ent K D)%type.
Implicit Types (H : bheap) (l : list nent) (L : list (list nent)) (env : henv) (s : hst).

(** the pairs of one bucket *)
Definition rpairs l : list (K * D) := epair <$> l.*2.

Lemma filter_all {A} (P : A -> Prop) `{forall x, Decision (P x)} (xs : list A) :
  (forall x, x ∈ xs -> P x) -> filter P xs = xs.
Proof.
  induction xs as [|x xs IH]; intros Hx; [done|].
  rewrite filter_cons_True by (apply Hx; set_solver). f_equal. apply IH. set_solver.
Qed.
Lemma filter_none {A} (P : A -> Prop) `{forall x, Decision (P x)} (xs : list A) :
  (forall x, x ∈ xs -> ~ P x) -> filter P xs = [].
Proof.
  induction xs as [|x xs IH]; intros Hx; [done|].
  rewrite filter_cons_False by (apply Hx; set_solver). apply IH. set_solver.
Qed.

Lemma pairs_cons l L : pairs (l :: L) = rpairs l ++ pairs L.
Proof. unfold pairs, ents, rpairs. simpl. by rewrite !fmap_app. Qed.

Lemma filter_rows hf p L0 i h :
  (forall j l x, L0 !! j = Some l -> x ∈ l ->
     ehash x.2 = hf (ekey x.2) /\ N.to_nat (ehash x.2 mod p) = i + j) ->
  filter (in_row hf p h) (pairs L0) =
  if decide (i <= h) then match L0 !! (h - i) with Some l => rpairs l | None => [] end else [].
Proof.
  revert i. induction L0 as [|l L0 IH]; intros i Hpl.
  - destruct (decide _); by rewrite ?lookup_nil.
  - rewrite pairs_cons, filter_app.
    assert (Hl : forall x, x ∈ rpairs l -> N.to_nat (hf x.1 mod p) = i).
    { intros x Hx. unfold rpairs in Hx. apply elem_of_list_fmap in Hx as (e & -> & Hx).
      apply elem_of_list_fmap in Hx as ([a e'] & -> & Hx). simpl.
      destruct (Hpl 0 l _ eq_refl Hx) as [H1 H2]. simpl in *. rewrite <- H1. lia. }
    rewrite (IH (S i)).
    2:{ intros j l' x Hj Hx. destruct (Hpl (S j) l' x Hj Hx). split; [done|lia]. }
    destruct (decide (i <= h)) as [Hle|Hgt].
    + destruct (decide (i = h)) as [->|Hne].
      * rewrite filter_all by (intros x Hx; by apply Hl). rewrite Nat.sub_diag. simpl.
        destruct (decide (S h <= h)); [lia|]. by rewrite app_nil_r.
      * rewrite filter_none.
        2:{ intros x Hx E. unfold in_row in E. rewrite (Hl x Hx) in E. lia. }
        destruct (decide (S i <= h)); [|lia]. simpl.
        replace (h - i) with (S (h - S i)) by lia. done.
    + rewrite filter_none.
      2:{ intros x Hx E. unfold in_row in E. rewrite (Hl x Hx) in E. lia. }
      destruct (decide (S i <= h)); [lia|]. done.
Qed.

Lemma row_pairs hf H t L h l :
  tinv hf H t L -> L !! h = Some l -> filter (in_row hf (prime t) h) (pairs L) = rpairs l.
Proof.
  intros HT Hl. rewrite (filter_rows hf (prime t) L 0 h).
  - destruct (decide (0 <= h)); [|lia]. rewrite Nat.sub_0_r, Hl. done.
  - intros j l' x Hj Hx. simpl. eapply (ti_placed _ _ _ _ HT); eauto.
Qed.

(** ** hsh_retrieve *)

Lemma hsh_retrieve_full env s L k :
  hinv env s L -> good env ->
  exists s' L',
    hsh_retrieve env s k = Ret (s', default (dnull env) (afind (cmpf env) k (pairs L))) /\
    hinv env s' L' /\ pairs L' ≡ₚ pairs L /\
    (L' = L \/ exists h l1 a e l2, L !! h = Some (l1 ++ (a, e) :: l2) /\
       cmpf env (ekey e) k = 0%Z /\ L' = <[h := (a, e) :: l1 ++ l2]> L) /\
    (readonly (tab s) <> 0%Z -> L' = L /\ heap s' = heap s) /\
    readonly (tab s') = readonly (tab s) /\ entries (tab s') = entries (tab s) /\
    prime (tab s') = prime (tab s) /\ resizings (tab s') = resizings (tab s) /\
    retrievals (tab s') = u64 (retrievals (tab s) + 1) /\
    misses (tab s') = match afind (cmpf env) k (pairs L) with
                      | Some _ => misses (tab s) | None => u64 (misses (tab s) + 1) end /\
    ((on_top (hashf env) (cmpf env) (prime (tab s)) k (pairs L) /\ hits (tab s') = u64 (hits (tab s) + 1)) \/
     (~ on_top (hashf env) (cmpf env) (prime (tab s)) k (pairs L) /\ hits (tab s') = hits (tab s))) /\
    (afind (cmpf env) k (pairs L) = None -> L' = L) /\
    (readonly (tab s) = 0%Z -> afind (cmpf env) k (pairs L) <> None -> on_top (hashf env) (cmpf env) (prime (tab s)) k (pairs L')).
Proof.
  intros HI G. unfold hsh_retrieve. pose proof (hi_t _ _ _ HI) as HT.
  rewrite (umod_ok _ _ (ti_prime _ _ _ _ HT)). rb.
  rewrite (hsh_check_ok _ _ _ _ HT). rb.
  set (h := N.to_nat (hashf env k mod prime (tab s))).
  destruct (row_of _ _ _ _ (hashf env k mod prime (tab s))%N HT) as (p & l & Hbp & HLl & Hrow & Hnd & Hlen).
  { apply N.mod_lt. pose proof (ti_prime _ _ _ _ HT). lia. }
  fold h in Hbp, HLl. cbn [set_counts buckets]. rewrite (aget_Some _ _ _ Hbp). rb.
  assert (Htop : on_top (hashf env) (cmpf env) (prime (tab s)) k (pairs L) <->
                 exists x, head l = Some x /\ cmpf env (ekey x.2) k = 0%Z).
  { unfold on_top. fold h. rewrite (row_pairs _ _ _ _ h l HT HLl).
    destruct l as [|[a e] l']; simpl.
    - split; intros (? & ? & _); done.
    - split.
      + intros (kd & [= <-] & Hc). eauto.
      + intros (x & [= <-] & Hc). eexists; split; [done|]. done. }
  assert (Hsame : forall t', prime t' = prime (tab s) -> buckets t' = buckets (tab s) ->
            entries t' = entries (tab s) -> hinv env (MkH (heap s) t') L).
  { intros t' E1 E2 E3. destruct HI as [HIt HIo HIe HId]. constructor; cbn [heap tab]; try done.
    - destruct HIt. constructor; rewrite ?E1, ?E2; done.
    - by rewrite E3. }
  destruct (find_loop_spec env (heap s) l (S (size (heap s))) None p k Hrow Hlen)
    as [[-> Hno]|(l1 & a & e & l2 & -> & Hno & Hc & ->)]; rb.
  - rewrite (find_row_none _ _ _ _ _ HI G HLl Hno).
    eexists _, L. split; [reflexivity|]. split; [by apply Hsame|].
    split; [done|]. split; [by left|].
    do 7 (split; [done|]). split; [|split; [done|by intros _ []]]. right. split; [|done]. rewrite Htop. intros (x & Hx & Hcx).
    destruct l; [done|]. injection Hx as ->. exact (Hno x ltac:(set_solver) Hcx).
  - rewrite (find_row_some _ _ _ _ _ a e HI G HLl) by (done || set_solver). cbn [default].
    destruct (unlink _ _ _ _ _ _ Hrow Hnd) as (n & Ha & Hun).
    destruct (NoDup_mid _ _ _ _ Hnd) as (Hnd' & Ha1 & Ha2 & Hn1 & Hn2 & Hdis).
    unfold last_ptr in *. destruct (last l1) as [[q qe]|] eqn:El.
    + destruct Hun as (b & Hq & Hqa & Hqin & Hrow'). cbn [fst] in *. cbn [set_counts readonly].
      assert (Hntop : ~ on_top (hashf env) (cmpf env) (prime (tab s)) k (pairs L)).
      { rewrite Htop. intros (x & Hx & Hcx). destruct l1 as [|x' l1']; [done|].
        simpl in Hx. injection Hx as ->. exact (Hno x ltac:(set_solver) Hcx). }
      destruct (Z.eqb_spec (readonly (tab s)) 0) as [Hro|Hro].
      * rewrite (hget_Some _ _ _ Ha). rb. rewrite (hget_Some _ _ _ Hq). rb.
        rewrite (hset_Some _ _ _ _ Hq). rb. cbn [bnext mkB].
        set (H1 := <[q := set_next b n]> (heap s)).
        assert (Ha' : H1 !! a = Some (mkB e n)) by (unfold H1; rewrite lookup_insert_ne; done).
        rewrite (hget_Some _ _ _ Ha'). rb. rewrite (hset_Some _ _ _ _ Ha'). rb.
        rewrite (aset_Some _ _ _ _ Hbp). rb.
        set (H2 := <[a := set_next (mkB e n) p]> H1).
        assert (Ha2' : H2 !! a = Some (mkB e p)) by (unfold H2; by rewrite lookup_insert).
        rewrite (hget_Some _ _ _ Ha2'). rb. cbn [bdatum mkB].
        set (L' := <[h := (a, e) :: l1 ++ l2]> L).
        assert (HpL : concat L' ≡ₚ concat L).
        { unfold L'. rewrite (concat_delete L h _ HLl), (concat_insert L h _ _ HLl).
          rewrite <- Permutation_middle. done. }
        assert (Hpairs : pairs L' ≡ₚ pairs L) by (by apply pairs_perm, ents_perm).
        eexists _, L'. split; [reflexivity|].
        assert (HT' : tinv (hashf env) H2 (set_buckets (tab s) (<[h := Some a]> (buckets (tab s)))) L').
        { eapply (tinv_row _ (heap s)); [done|done|done| | | |].
          - split; [done|]. exists p. split; [done|]. apply (seg_frame H1); [done|].
            intros c Hcin. unfold H2. apply lookup_insert_ne. intros ->.
            rewrite fmap_app in Hcin. set_solver.
          - simpl. apply NoDup_cons. split; [|done]. rewrite fmap_app. set_solver.
          - intros x Hx. set_solver.
          - intros c Hcin. destruct (row_nodup L h _ (ti_nodup _ _ _ _ HT) HLl) as [_ Hother].
            assert (Hnc : c ∉ (l1 ++ (a, e) :: l2).*1) by (intros Hc'; by apply (Hother c)).
            rewrite fmap_app in Hnc. simpl in Hnc.
            unfold H2, H1. rewrite !lookup_insert_ne by set_solver. done. }
        split; [|split; [done|]; split; [right; by exists h, l1, a, e, l2|]; do 7 (split; [done|]); split; [right; done|split; [done|]]].
        2:{ intros _ _. unfold on_top. fold h. change (prime (tab s)) with (prime (set_buckets (tab s) (<[h := Some a]> (buckets (tab s))))).
            rewrite (row_pairs _ _ _ _ h ((a, e) :: l1 ++ l2) HT'); [|unfold L'; apply list_lookup_insert; by eapply lookup_lt_Some].
            eexists. split; [done|]. done. }
        constructor; cbn [heap tab].
        -- destruct HT'. constructor; done.
        -- intros c. unfold addrs. rewrite HpL. fold (addrs L). rewrite <- (hi_own _ _ _ HI c).
           unfold H2, H1. destruct (decide (c = a)) as [->|Hca].
           ++ rewrite lookup_insert. rewrite Ha. split; eauto.
           ++ rewrite lookup_insert_ne by done. destruct (decide (c = q)) as [->|Hcq].
              ** rewrite lookup_insert, Hq. split; eauto.
              ** by rewrite lookup_insert_ne.
        -- cbn [set_buckets entries set_counts]. rewrite (hi_entries _ _ _ HI). by rewrite Hpairs.
        -- eapply adistinct_perm; [apply G|symmetry; exact Hpairs|apply HI].
      * rewrite (hget_Some _ _ _ Ha). rb. cbn [bdatum mkB].
        eexists _, L. split; [reflexivity|]. split; [by apply Hsame|].
        split; [done|]. split; [by left|]. do 7 (split; [done|]). split; [right; done|split; [done|]]. intros Hr. by destruct Hro.
    + destruct Hun as (-> & -> & Hrow').
      rewrite (hget_Some _ _ _ Ha). rb. cbn [bdatum mkB].
      eexists _, L. split; [reflexivity|]. split; [by apply Hsame|].
      assert (Hx : on_top (hashf env) (cmpf env) (prime (tab s)) k (pairs L)). { rewrite Htop. simpl. eexists. split; [done|]. done. }
      split; [done|]. split; [by left|]. do 7 (split; [done|]). split; [left; done|split; [done|]]. done.
Qed.
Lemma hsh_retrieve_spec env s L k :
  hinv env s L -> good env ->
  exists s' L',
    hsh_retrieve env s k = Ret (s', default (dnull env) (afind (cmpf env) k (pairs L))) /\
    hinv env s' L' /\ pairs L' ≡ₚ pairs L /\
    (L' = L \/ exists h l1 a e l2, L !! h = Some (l1 ++ (a, e) :: l2) /\
       cmpf env (ekey e) k = 0%Z /\ L' = <[h := (a, e) :: l1 ++ l2]> L) /\
    (readonly (tab s) <> 0%Z -> L' = L /\ heap s' = heap s) /\
    readonly (tab s') = readonly (tab s) /\ entries (tab s') = entries (tab s) /\
    prime (tab s') = prime (tab s) /\ resizings (tab s') = resizings (tab s) /\
    retrievals (tab s') = u64 (retrievals (tab s) + 1) /\
    misses (tab s') = match afind (cmpf env) k (pairs L) with
                      | Some _ => misses (tab s) | None => u64 (misses (tab s) + 1) end /\
    ((on_top (hashf env) (cmpf env) (prime (tab s)) k (pairs L) /\ hits (tab s') = u64 (hits (tab s) + 1)) \/
     (~ on_top (hashf env) (cmpf env) (prime (tab s)) k (pairs L) /\ hits (tab s') = hits (tab s))).
Proof.
  intros HI G. destruct (hsh_retrieve_full env s L k HI G) as (s' & L' & J1 & J2 & J3 & J4 & J5 & J6 & J7 & J8 & J9 & J10 & J11 & J12 & _).
  exists s', L'. done.
Qed.

(** ** hsh_readonly, hsh_destroy *)
Lemma hinv_flag env s L f : hinv env s L -> hinv env (MkH (heap s) (set_readonly (tab s) f)) L.
Proof.
  intros [HIt HIo HIe HId]. constructor; cbn [heap tab]; try done.
  destruct HIt. constructor; done.
Qed.

Lemma hsh_readonly_spec env s L f :
  hinv env s L ->
  hsh_readonly s f = Ret (MkH (heap s) (set_readonly (tab s) f), readonly (tab s)) /\
  hinv env (MkH (heap s) (set_readonly (tab s) f)) L.
Proof.
  intros HI. split; [|by apply hinv_flag].
  unfold hsh_readonly. rewrite (hsh_check_ok _ _ _ _ (hi_t _ _ _ HI)). by rb.
Qed.

Lemma hsh_destroy_spec env s L :
  hinv env s L ->
  hsh_destroy s = if (readonly (tab s) =? 0)%Z then Ret ∅ else Abort.
Proof.
  intros HI. unfold hsh_destroy. rewrite (hsh_check_ok _ _ _ _ (hi_t _ _ _ HI)). rb.
  destruct (readonly (tab s) =? 0)%Z eqn:E; cbn [negb]; [|done].
  destruct (destroy_buckets_spec _ _ _ _ (hi_t _ _ _ HI)) as (H' & -> & D1 & D2). rb. f_equal.
  apply map_eq. intros a. rewrite lookup_empty.
  destruct (decide (a ∈ addrs L)) as [Hin|Hin]; [by apply D1|].
  rewrite D2 by done. destruct (heap s !! a) eqn:Ea; [|done].
  exfalso. apply Hin, (hi_own _ _ _ HI). eauto.
Qed.

(** ** hsh_iterate with an iterator that leaves the table alone *)
Definition pure_cb {U} (f : K -> D -> U -> U * Z) : iterator K D U :=
  fun k d '(s, u) => let '(u', r) := f k d u in Ret (s, u', r).

Lemma visit_app {U} (f : K -> D -> U -> U * Z) m1 m2 u :
  visit f (m1 ++ m2) u =
  let '(u', b) := visit f m1 u in if b then (u', true) else visit f m2 u'.
Proof.
  revert u. induction m1 as [|[k d] m1 IH]; intros u; simpl; [done|].
  destruct (f k d u) as [u' r]. destruct (r =? 0)%Z; [apply IH|done].
Qed.

Lemma iter_chain_pure {U} (f : K -> D -> U -> U * Z) s l : forall n p u,
  row (heap s) p l -> length l < n ->
  iter_chain n (pure_cb f) p (s, u) =
  let '(u', b) := visit f (rpairs l) u in Ret (s, u', b).
Proof.
  induction l as [|[a e] l IH]; intros n p u Hr Hn.
  - simpl in Hr. rewrite Hr. destruct n; done.
  - destruct n as [|n]; [simpl in Hn; lia|]. destruct Hr as (-> & nx & Ha & Hs). simpl in Hn.
    cbn [iter_chain]. cbn [fst]. rewrite (hget_Some _ _ _ Ha). rb. cbn [bkey bdatum bnext mkB].
    assert (Epc : pure_cb f (ekey e) (edatum e) (s, u) =
      let '(u', r) := f (ekey e) (edatum e) u in Ret (s, u', r)) by done.
    rewrite Epc. clear Epc.
    change (rpairs ((a, e) :: l)) with ((ekey e, edatum e) :: rpairs l). cbn [visit].
    destruct (f (ekey e) (edatum e) u) as [u' r]. rb.
    destruct (r =? 0)%Z; cbn [negb]; [|done].
    apply IH; [done|lia].
Qed.

Lemma iter_rows_pure {U} (f : K -> D -> U -> U * Z) env s L fuel : hinv env s L ->
  length (pairs L) < fuel -> forall n i u,
  (i <= prime (tab s))%N -> N.to_nat (prime (tab s)) - N.to_nat i < n ->
  iter_rows n fuel (pure_cb f) i (s, u) =
  let '(u', b) := visit f (pairs (drop (N.to_nat i) L)) u in Ret (s, u', if b then 1%Z else 0%Z).
Proof.
  intros HI Hfuel. pose proof (hi_t _ _ _ HI) as HT. pose proof (ti_lenL _ _ _ _ HT) as HlenL.
  induction n as [|n IH]; intros i u Hi Hn; [lia|]. cbn [iter_rows fst].
  destruct (N.ltb_spec i (prime (tab s))) as [Hlt|Hge].
  - destruct (row_of _ _ _ _ i HT Hlt) as (p & l & Hbp & HLl & Hrow & Hnd & _).
    rewrite (aget_Some _ _ _ Hbp). rb.
    rewrite (drop_S _ _ _ HLl), pairs_cons, visit_app.
    rewrite (iter_chain_pure f s l fuel p u Hrow).
    2:{ assert (length l <= length (pairs L)); [|lia].
        unfold pairs, ents. rewrite !fmap_length, (concat_delete L _ l HLl), app_length. lia. }
    destruct (visit f (rpairs l) u) as [u' b]. rb. destruct b; [done|].
    rewrite IH by lia. replace (N.to_nat (i + 1)) with (S (N.to_nat i)) by lia. done.
  - rewrite drop_ge by lia. done.
Qed.

Lemma hsh_iterate_pure {U} (f : K -> D -> U -> U * Z) env s L fuel u :
  hinv env s L -> N.to_nat (prime (tab s)) + length (pairs L) < fuel ->
  hsh_iterate fuel (pure_cb f) s u =
  let '(u', b) := visit f (pairs L) u in Ret (s, u', if b then 1%Z else 0%Z).
Proof.
  intros HI Hf. unfold hsh_iterate. rewrite (hsh_check_ok _ _ _ _ (hi_t _ _ _ HI)). rb.
  rewrite (iter_rows_pure f env s L) by (done || lia). done.
Qed.

(** ** positions *)
Lemma first_used_spec H bs L : rows H bs L -> forall n i, i + n = length L ->
  exists p, first_used bs n i = Ret p /\
    match concat (drop i L) with
    | [] => p = None
    | x :: _ => p = Some x.1
    end.
Proof.
  intros Hr n. induction n as [|n IH]; intros i Hi.
  - exists None. split; [done|]. rewrite drop_ge by lia. done.
  - assert (Hlen := Forall2_length _ _ _ Hr).
    destruct (lookup_lt_is_Some_2 bs i) as [p Hp]; [lia|].
    destruct (rows_lookup _ _ _ _ _ Hr Hp) as (l & Hl & Hrow).
    cbn [first_used]. rewrite (aget_Some _ _ _ Hp). rb. rewrite (drop_S _ _ _ Hl). simpl.
    destruct l as [|[a e] l]; simpl in Hrow.
    + rewrite Hrow. destruct (IH (S i)) as (q & -> & Hq); [lia|]. eauto.
    + destruct Hrow as (-> & _). exists (Some a). done.
Qed.

(** following next_position from position [n] of the layout *)
Definition pos_at L (n : nat) : ptr := fst <$> concat L !! n.

Lemma hsh_init_position_spec env s L :
  hinv env s L ->
  hsh_init_position s =
    Ret (match pos_at L 0 with
         | Some _ => MkH (heap s) (set_readonly (tab s) 1)
         | None => s end, pos_at L 0).
Proof.
  intros HI. pose proof (hi_t _ _ _ HI) as HT. unfold hsh_init_position.
  rewrite (hsh_check_ok _ _ _ _ HT). rb.
  destruct (first_used_spec (heap s) (buckets (tab s)) L (ti_rows _ _ _ _ HT)
              (N.to_nat (prime (tab s))) 0) as (p & -> & Hp).
  { rewrite (ti_lenL _ _ _ _ HT). done. }
  rb. rewrite drop_0 in Hp. unfold pos_at. destruct (concat L) as [|[a e] r]; subst p; done.
Qed.

Lemma concat_lookup_row {A} (M : list (list A)) n x :
  concat M !! n = Some x ->
  exists i r j, M !! i = Some r /\ r !! j = Some x /\ n = length (concat (take i M)) + j.
Proof.
  revert n. induction M as [|r M IH]; intros n Hn; [done|]. simpl in Hn.
  destruct (decide (n < length r)) as [Hlt|Hge].
  - rewrite lookup_app_l in Hn by done. exists 0, r, n. done.
  - rewrite lookup_app_r in Hn by lia. destruct (IH _ Hn) as (i & r' & j & H1 & H2 & H3).
    exists (S i), r', j. split; [done|]. split; [done|]. simpl. rewrite app_length. lia.
Qed.

Lemma hsh_next_position_spec env s L n :
  hinv env s L -> n < length (concat L) ->
  hsh_next_position s (pos_at L n) =
    Ret (match pos_at L (S n) with
         | Some _ => s
         | None => MkH (heap s) (set_readonly (tab s) 0) end, pos_at L (S n)).
Proof.
  intros HI Hn. pose proof (hi_t _ _ _ HI) as HT. unfold hsh_next_position.
  rewrite (hsh_check_ok _ _ _ _ HT). rb.
  destruct (lookup_lt_is_Some_2 (concat L) n Hn) as [[a e] Hx].
  unfold pos_at at 1. rewrite Hx. cbn [fmap option_fmap option_map fst].
  destruct (concat_lookup_row _ _ _ Hx) as (i & r & j & Hi & Hj & Hnij).
  pose proof (ti_lenL _ _ _ _ HT) as HlenL.
  assert (Hil : i < length L) by (eapply lookup_lt_Some; eauto).
  destruct (Forall2_lookup_r _ _ _ _ _ (ti_rows _ _ _ _ HT) Hi) as (p & Hp & Hrow).
  assert (Hsplit : concat L = concat (take i L) ++ r ++ concat (drop (S i) L)).
  { rewrite <- (take_drop_middle L i r Hi) at 1. rewrite concat_app. done. }
  assert (Hr : r = take j r ++ (a, e) :: drop (S j) r) by (symmetry; by apply take_drop_middle).
  unfold row in Hrow. rewrite Hr in Hrow. apply seg_app in Hrow as (m & _ & Hs).
  simpl in Hs. destruct Hs as (-> & nx & Ha & Hs).
  rewrite (hget_Some _ _ _ Ha). rb. cbn [bnext mkB].
  assert (HjS : S n = length (concat (take i L)) + S j) by lia.
  assert (Hjl : j < length r) by (eapply lookup_lt_Some; eauto).
  destruct (drop (S j) r) as [|[b f] r'] eqn:Ed.
  - (* end of the row *)
    simpl in Hs. subst nx.
    assert (Hlr : length r = S j).
    { assert (length (drop (S j) r) = 0) by (by rewrite Ed). rewrite drop_length in *. lia. }
    assert (Hpl := ti_placed _ _ _ _ HT i r (a, e) Hi (elem_of_list_lookup_2 _ _ _ Hj)).
    simpl in Hpl. destruct Hpl as [_ Hmod].
    rewrite (umod_ok _ _ (ti_prime _ _ _ _ HT)). rb. cbn [bhash mkB]. rewrite Hmod.
    destruct (first_used_spec (heap s) (buckets (tab s)) L (ti_rows _ _ _ _ HT)
                (N.to_nat (prime (tab s)) - (i + 1)) (i + 1)) as (q & -> & Hq).
    { lia. }
    rb. replace (i + 1) with (S i) in Hq by lia.
    assert (Hpos : pos_at L (S n) = q).
    { unfold pos_at. rewrite Hsplit, HjS, lookup_app_r by lia.
      rewrite lookup_app_r by lia.
      replace (length (concat (take i L)) + S j - length (concat (take i L)) - length r) with 0 by lia.
      destruct (concat (drop (S i) L)); subst q; done. }
    rewrite Hpos. destruct q; done.
  - simpl in Hs. destruct Hs as (-> & _).
    assert (Hpos : pos_at L (S n) = Some b).
    { unfold pos_at. rewrite Hsplit, HjS, lookup_app_r by lia.
      replace (length (concat (take i L)) + S j - length (concat (take i L))) with (S j) by lia.
      assert (Hb : r !! S j = Some (b, f)).
      { rewrite <- (Nat.add_0_r (S j)), <- lookup_drop, Ed. done. }
      rewrite lookup_app_l by (eapply lookup_lt_Some; eauto). rewrite Hb. done. }
    rewrite Hpos. done.
Qed.

Lemma hsh_next_position_null env s L :
  hinv env s L -> hsh_next_position s None = Ret (MkH (heap s) (set_readonly (tab s) 0), None).
Proof.
  intros HI. unfold hsh_next_position. rewrite (hsh_check_ok _ _ _ _ (hi_t _ _ _ HI)). by rb.
Qed.

Lemma hsh_get_position_spec env s L n :
  hinv env s L ->
  hsh_get_position env s (pos_at L n) =
    Ret match pairs L !! n with Some (k, d) => (Some k, d) | None => (None, dnull env) end.
Proof.
  intros HI. pose proof (hi_t _ _ _ HI) as HT. unfold pos_at, pairs, ents.
  rewrite !list_lookup_fmap. destruct (concat L !! n) as [[a e]|] eqn:E; [|done]. simpl.
  assert (Hin : (a, e) ∈ concat L) by (by eapply elem_of_list_lookup_2).
  apply concat_elem in Hin as (i & l & Hi & Hin).
  destruct (Forall2_lookup_r _ _ _ _ _ (ti_rows _ _ _ _ HT) Hi) as (p & _ & Hrow).
  destruct (seg_in _ _ _ _ _ _ Hrow Hin) as [m Hm].
  unfold hget. rewrite Hm. done.
Qed.

(** ** statistics *)
Lemma count_chain_spec w H l : forall n p c,
  row H p l -> length l < n -> (N.of_nat (length l) + c < w)%N ->
  count_chain w n H p c = Ret (N.of_nat (length l) + c)%N.
Proof.
  induction l as [|[a e] l IH]; intros n p c Hr Hn Hc.
  - simpl in Hr. rewrite Hr. destruct n; simpl; f_equal; lia.
  - destruct n as [|n]; [simpl in Hn; lia|]. destruct Hr as (-> & nx & Ha & Hs).
    cbn [length] in *. cbn [count_chain]. rewrite (hget_Some _ _ _ Ha). rb. cbn [bnext mkB].
    rewrite N.mod_small by lia.
    rewrite IH; [f_equal; lia|done|lia|lia].
Qed.

End HashOps2.
