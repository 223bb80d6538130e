(** C95: the order of iteration is a function of the calls. *)
From Verif Require Import Base Trace PrimeModel PrimeProofs HashModel HashSpec ListLemmas HashProofs HashOps HashOps2 HashIter HashHist HashTop HashTrace HashGrow.
Local Open Scope nat_scope.

(** ** specification *)
Section Spec.
Context {K D : Type}.
(** [p] buckets one after the other, bucket [i] holding [f i] *)
Definition buckets_of (p : N) (f : nat -> list (K * D)) : list (K * D) := List.concat (f <$> seq 0 (N.to_nat p)).
(** the entries met in the order [m] are put, each at the front of its bucket, into [p] empty buckets *)
Definition rehash (hf : K -> N) (p : N) (m : list (K * D)) : list (K * D) :=
  buckets_of p (fun i => reverse (filter (in_row hf p i) m)).
(** a new pair at the front of its bucket *)
Definition put (hf : K -> N) (p : N) (k : K) (d : D) (m : list (K * D)) : list (K * D) :=
  buckets_of p (fun i => (if decide (i = N.to_nat (hf k mod p)) then [(k, d)] else []) ++ filter (in_row hf p i) m).
(** fewer than two buckets per entry; the next size *)
Definition crowded (p : N) (m : list (K * D)) : bool := (p <? u64 (2 * N.of_nat (length m)))%N.
Definition next_size (p : N) : res N := prm_next_prime (u32 (u64 (p * 3))).
Definition after_insert (hf : K -> N) (cmp : K -> K -> Z) (k : K) (d : D) (p : N) (m : list (K * D)) : res (N * list (K * D)) :=
  '(p, m) ← (if crowded p m then p' ← next_size p; Ret (p', rehash hf p' m) else Ret (p, m));
  Ret (p, match afind cmp k m with Some _ => m | None => put hf p k d m end).
End Spec.

Section HashOrder.
Context {K D : Type}.
Notation bheap := (bheap K D).
Notation hst := (hst K D).
Notation henv := (henv K D).
Notation halloc := (halloc K D).
Notation nent := (positive * @ent K D)%type.
Implicit Types (H : bheap) (l : list nent) (L : list (list nent)) (env : henv) (s : hst) (al : halloc) (t : table).

Definition rw L (i : nat) : list (K * D) := rpairs (default [] (L !! i)).
Lemma pairs_rw hf H t L : tinv hf H t L -> pairs L = buckets_of (prime t) (rw L).
Proof.
  intros HT. rewrite pairs_concat. unfold buckets_of. f_equal. apply list_eq. intros i. rewrite !list_lookup_fmap.
  pose proof (ti_lenL _ _ _ _ HT) as HL. destruct (decide (i < length L)) as [Hlt|Hge].
  - destruct (lookup_lt_is_Some_2 L i Hlt) as [l Hl]. rewrite Hl, lookup_seq_lt by lia. cbn. unfold rw. by rewrite Hl.
  - rewrite lookup_ge_None_2 by lia. rewrite lookup_seq_ge by lia. done.
Qed.
Lemma rw_pairs hf H t L i : tinv hf H t L -> i < N.to_nat (prime t) -> rw L i = filter (in_row hf (prime t) i) (pairs L).
Proof.
  intros HT Hi. pose proof (ti_lenL _ _ _ _ HT) as HL. destruct (lookup_lt_is_Some_2 L i ltac:(lia)) as [l Hl].
  unfold rw. rewrite Hl. cbn. by rewrite (row_pairs _ _ _ _ i l HT Hl).
Qed.
Lemma buckets_of_ext p (f g : nat -> list (K * D)) : (forall i, i < N.to_nat p -> f i = g i) -> buckets_of p f = buckets_of p g.
Proof.
  intros E. unfold buckets_of. f_equal. apply list_eq. intros i. rewrite !list_lookup_fmap. destruct (decide (i < N.to_nat p)) as [Hlt|Hge].
  - rewrite lookup_seq_lt by lia. cbn. f_equal. by apply E.
  - rewrite lookup_seq_ge by lia. done.
Qed.
(** the layout is determined by the memory *)
Lemma seg_unique H : forall l l' p, seg H p l None -> seg H p l' None -> l = l'.
Proof.
  induction l as [|[a e] l IH]; intros [|[a' e'] l'] p; cbn; try (intros ->; by intros [? _]); try (intros [-> _]; done); [done|].
  intros (-> & n & Ha & Hs) ([= <-] & n' & Ha' & Hs'). rewrite Ha in Ha'. injection Ha' as E1 E2 E3 E4. subst n'.
  rewrite (IH _ _ Hs Hs'). destruct e, e'. cbn in *. by subst.
Qed.
Lemma rows_unique H bs : forall L L', rows H bs L -> rows H bs L' -> L = L'.
Proof.
  intros L L' HF. revert L'. induction HF as [|p l bs L Hp HF IH]; intros L' HF'; inversion HF'; subst; [done|].
  f_equal; [by eapply seg_unique|by apply IH].
Qed.

(** ** _hsh_insert *)
Lemma insert__order hf al H t L k d H' t' : tinv hf H t L -> halloc_ok al -> hsh_insert_ al H t (hf k) k d = Ret (H', t') ->
  exists L', tinv hf H' t' L' /\ prime t' = prime t /\ H ⊆ H' /\
    forall i, rw L' i = (if decide (i = N.to_nat (hf k mod prime t)) then [(k, d)] else []) ++ rw L i.
Proof.
  intros HT Hal E. destruct (hsh_insert__spec hf al H t L (hf k) k d HT Hal eq_refl)
    as [[E' _]|(a & l & L' & Ha & Hl & -> & H1 & t1 & E1 & HT' & Hfr & Hin & Hp & Ht')]; [congruence|].
  rewrite E in E1. injection E1 as <- <-. eexists. split; [exact HT'|]. split; [by rewrite Ht'|]. split.
  - apply map_subseteq_spec. intros b x Hb. rewrite Hfr; [done|]. intros ->. congruence.
  - intros i. unfold rw. destruct (decide (i = _)) as [->|Hne].
    + rewrite list_lookup_insert by (by eapply lookup_lt_Some). rewrite Hl. done.
    + rewrite list_lookup_insert_ne by done. done.
Qed.
(** ** growing *)
Lemma copy_chain_order hf al : halloc_ok al -> forall l n H new Lnew p H' new',
  row H p l -> tinv hf H new Lnew -> (forall x, x ∈ l -> ehash x.2 = hf (ekey x.2)) -> copy_chain al n H new p = Ret (H', new') ->
  exists Lnew', tinv hf H' new' Lnew' /\ prime new' = prime new /\ H ⊆ H' /\
    forall i, rw Lnew' i = reverse (filter (in_row hf (prime new) i) (rpairs l)) ++ rw Lnew i.
Proof.
  intros Hal l. induction l as [|[a e] l IH]; intros n H new Lnew p H' new' Hr HT Hhash E.
  - cbn in Hr. rewrite Hr in E. destruct n; cbn in E; injection E as <- <-; (exists Lnew; done).
  - destruct Hr as (-> & nx & Ha & Hs). destruct n as [|n]; [discriminate E|]. cbn [copy_chain] in E. rewrite (hget_Some _ _ _ Ha) in E.
    cbn [mbind res_bind mkB bhash bkey bdatum] in E.
    assert (Hh : ehash e = hf (ekey e)) by (apply (Hhash (a, e)); left). rewrite Hh in E.
    destruct (hsh_insert_ al H new (hf (ekey e)) (ekey e) (edatum e)) as [[H1 new1]| | | |] eqn:E1; try discriminate E. cbn [mbind res_bind] in E.
    destruct (insert__order hf al H new Lnew _ _ H1 new1 HT Hal E1) as (L1 & HT1 & Hp1 & Hsub & Hrw).
    rewrite (hget_Some _ _ _ (lookup_weaken _ _ _ _ Ha Hsub)) in E. cbn [mbind res_bind mkB bnext] in E.
    destruct (IH n H1 new1 L1 nx H' new') as (L2 & HT2 & Hp2 & Hsub2 & Hrw2); try done.
    + apply (seg_frame H); [done|]. intros c Hc. apply elem_of_list_fmap in Hc as ([c' f] & -> & Hc).
      destruct (seg_in _ _ _ _ _ _ Hs Hc) as [m Hm]. cbn. rewrite Hm. by eapply lookup_weaken.
    + intros x Hx. apply Hhash. by right.
    + exists L2. split; [done|]. split; [congruence|]. split; [by trans H1|]. intros i. rewrite Hrw2, Hrw, Hp1.
      change (rpairs ((a, e) :: l)) with (epair e :: rpairs l). rewrite filter_cons. unfold in_row at 2. cbn [epair fst].
      destruct (decide (N.to_nat (hf (ekey e) mod prime new) = i)) as [<-|Hne].
      * rewrite decide_True by done. rewrite reverse_cons, <- app_assoc. done.
      * rewrite decide_False by done. done.
Qed.
Lemma copy_rows_order hf al bs L : halloc_ok al -> forall n i H new Lnew H' new',
  rows H bs L -> tinv hf H new Lnew -> (forall x, x ∈ concat L -> ehash x.2 = hf (ekey x.2)) -> i + n = length L ->
  for_up n i (fun i '(H, new) => p ← aget bs i; copy_chain al (S (size H)) H new p) (H, new) = Ret (H', new') ->
  exists Lnew', tinv hf H' new' Lnew' /\ prime new' = prime new /\ H ⊆ H' /\
    forall j, rw Lnew' j = reverse (filter (in_row hf (prime new) j) (pairs (drop i L))) ++ rw Lnew j.
Proof.
  intros Hal n. induction n as [|n IH]; intros i H new Lnew H' new' Hr HT Hhash Hi E.
  - injection E as <- <-. exists Lnew. split; [done|]. split; [done|]. split; [done|]. intros j. rewrite drop_ge by lia. done.
  - assert (Hlen := Forall2_length _ _ _ Hr). destruct (lookup_lt_is_Some_2 bs i) as [p Hp]; [lia|].
    destruct (rows_lookup _ _ _ _ _ Hr Hp) as (l & Hl & Hrow). cbn [for_up] in E. rewrite (aget_Some _ _ _ Hp) in E. cbn [mbind res_bind] in E.
    destruct (copy_chain al (S (size H)) H new p) as [[H1 new1]| | | |] eqn:E1; try discriminate E.
    destruct (copy_chain_order hf al Hal l (S (size H)) H new Lnew p H1 new1 Hrow HT) as (L1 & HT1 & Hp1 & Hsub & Hrw); [|done|].
    { intros x Hx. apply Hhash. apply HashTop.elem_of_concat. exists l. split; [done|]. by eapply elem_of_list_lookup_2. }
    destruct (IH (S i) H1 new1 L1 H' new') as (L2 & HT2 & Hp2 & Hsub2 & Hrw2); try done.
    + eapply rows_frame; [exact Hr|]. intros a Ha. apply elem_of_list_fmap in Ha as ([a' e] & -> & Ha).
      apply concat_elem in Ha as (j & l0 & Hj & Ha). destruct (Forall2_lookup_r _ _ _ _ _ Hr Hj) as (q & _ & Hq).
      destruct (seg_in _ _ _ _ _ _ Hq Ha) as [m Hm]. cbn. rewrite Hm. by eapply lookup_weaken.
    + lia.
    + exists L2. split; [done|]. split; [congruence|]. split; [by trans H1|]. intros j. rewrite Hrw2, Hrw, Hp1.
      rewrite (drop_S _ _ _ Hl), pairs_cons, filter_app, reverse_app, <- app_assoc. done.
Qed.
Lemma rest_order hf al H t L new H' t' L' : tinv hf H t L -> owns H L -> halloc_ok al -> tinv hf H new (replicate (N.to_nat (prime new)) []) ->
  grow_rest al H t new = Ret (H', t') -> tinv hf H' t' L' -> pairs L' = rehash hf (prime t') (pairs L).
Proof.
  intros HT Hown Hal HTn E HT'. unfold grow_rest in E.
  destruct (for_up (N.to_nat (prime t)) 0 _ (H, new)) as [[H1 new1]| | | |] eqn:Ef; try discriminate E. cbn [mbind res_bind] in E.
  destruct (copy_rows_order hf al (buckets t) L Hal (N.to_nat (prime t)) 0 H new _ H1 new1 (ti_rows _ _ _ _ HT) HTn) as (L1 & HT1 & Hp1 & Hsub & Hrw); [|by rewrite (ti_lenL _ _ _ _ HT)|exact Ef|].
  { intros x Hx. apply concat_elem in Hx as (i & l & Hi & Hx). eapply (ti_placed _ _ _ _ HT); eauto. }
  assert (HTo : tinv hf H1 t L).
  { constructor; try apply HT. eapply rows_frame; [apply HT|]. intros a Ha. apply Hown in Ha as [v Hv]. rewrite Hv. by eapply lookup_weaken. }
  destruct (destroy_buckets_spec hf H1 t L HTo) as (H2 & Ed & D1 & D2). rewrite Ed in E. cbn [mbind res_bind] in E. injection E as <- <-.
  assert (HL : L' = L1).
  { apply (rows_unique H1 (buckets new1)); [|apply HT1]. eapply rows_frame; [apply HT'|]. cbn [buckets]. intros a Ha.
    destruct (decide (a ∈ addrs L)) as [Hin|Hin]; [|symmetry; by apply D2]. exfalso.
    apply elem_of_list_fmap in Ha as ([a' e] & -> & Ha). apply concat_elem in Ha as (j & l0 & Hj & Ha).
    destruct (Forall2_lookup_r _ _ _ _ _ (ti_rows _ _ _ _ HT') Hj) as (q & _ & Hq). destruct (seg_in _ _ _ _ _ _ Hq Ha) as [m Hm]. cbn in Hin. rewrite (D1 _ Hin) in Hm. discriminate Hm. }
  subst L'. cbn [prime]. rewrite (pairs_rw _ _ _ _ HT1). apply buckets_of_ext. intros i Hi. rewrite Hrw, drop_0, Hp1.
  unfold rw at 1. replace (default [] _) with (@nil nent); [by rewrite app_nil_r|].
  destruct (decide (i < N.to_nat (prime new))); [by rewrite lookup_replicate_2 by done|]. rewrite lookup_ge_None_2; [done|]. rewrite replicate_length. lia.
Qed.
Lemma grow_order hf al H t L H' t' L' : tinv hf H t L -> owns H L -> halloc_ok al -> hsh_grow al H t = Ret (H', t') -> tinv hf H' t' L' ->
  pairs L' = rehash hf (prime t') (pairs L).
Proof.
  intros HT Hown Hal E HT'. rewrite grow_eq in E. pose proof (hsh_create__spec hf al H (u64 (prime t * 3))) as Hc.
  revert E Hc. generalize (hsh_create_ al (u64 (prime t * 3))). intros r E Hc. destruct r as [new| | | |]; try discriminate E.
  destruct Hc as (HTn & _). exact (rest_order hf al H t L new H' t' L' HT Hown Hal HTn E HT').
Qed.
(** ** hsh_insert *)
Lemma insert_order env al s L k d : hinv env s L -> good env -> halloc_ok al -> readonly (tab s) = 0%Z ->
  ok (fun '(s', r) => exists L', hinv env s' L' /\ readonly (tab s') = 0%Z /\
        r = match afind (cmpf env) k (pairs L) with Some _ => 1%Z | None => 0%Z end /\
        after_insert (hashf env) (cmpf env) k d (prime (tab s)) (pairs L) = Ret (prime (tab s'), pairs L'))
     (can_fail al) (hsh_insert env al s k d).
Proof.
  intros HI G Hal Hro. pose proof (hsh_insert_spec env al s L k d HI G Hal Hro) as Hs.
  destruct (hsh_insert env al s k d) as [[s' r]| | | |] eqn:E; cbn [ok] in Hs |- *; try done.
  destruct Hs as (L' & J1 & J2 & J3 & _). exists L'. split; [done|]. split; [done|]. split; [destruct (afind _ _ _); apply J2|].
  unfold hsh_insert in E. rewrite (hsh_check_ok _ _ _ _ (hi_t _ _ _ HI)) in E. cbn [mbind res_bind] in E. rewrite Hro in E. cbn [negb Z.eqb] in E.
  unfold after_insert, crowded. replace (u64 (2 * N.of_nat (length (pairs L)))) with (u64 (entries (tab s) * 2)).
  2:{ rewrite (hi_entries _ _ _ HI). rewrite N.mul_comm. unfold u64. rewrite N.mul_mod_idemp_r by discriminate. done. }
  assert (Hpost : forall H1 t1 L1, tinv (hashf env) H1 t1 L1 -> pairs L1 ≡ₚ pairs L ->
    (h ← umod (hashf env k) (prime t1); p ← aget (buckets t1) (N.to_nat h); r ← find_loop env (S (size H1)) H1 None p k;
      match r with Some _ => Ret (MkH H1 t1, 1%Z) | None => '(H', t') ← hsh_insert_ al H1 t1 (hashf env k) k d; Ret (MkH H' t', 0%Z) end) = Ret (s', r) ->
    prime (tab s') = prime t1 /\ pairs L' = match afind (cmpf env) k (pairs L1) with Some _ => pairs L1 | None => put (hashf env) (prime t1) k d (pairs L1) end).
  { intros H1 t1 L1 HT1 Hp1 E1. assert (Hd1 : adistinct (cmpf env) (pairs L1)) by (eapply adistinct_perm; [apply G|symmetry; exact Hp1|apply HI]).
    rewrite (umod_ok _ _ (ti_prime _ _ _ _ HT1)) in E1. cbn [mbind res_bind] in E1.
    destruct (aget _ _) as [p| | | |]; try discriminate E1. cbn [mbind res_bind] in E1.
    destruct (find_loop _ _ _ _ _ _) as [o| | | |]; try discriminate E1. cbn [mbind res_bind] in E1.
    rewrite (afind_perm (hashf env) (cmpf env) G k _ _ Hd1 Hp1).
    destruct o as [x|].
    - injection E1 as <- <-. cbn [tab]. split; [done|]. destruct (afind (cmpf env) k (pairs L)); [|by destruct J2].
      f_equal. apply (rows_unique H1 (buckets t1)); [apply (hi_t _ _ _ J1)|apply HT1].
    - destruct (hsh_insert_ al H1 t1 (hashf env k) k d) as [[H2 t2]| | | |] eqn:E2; try discriminate E1. cbn [mbind res_bind] in E1. injection E1 as <- <-.
      destruct (afind (cmpf env) k (pairs L)); [by destruct J2|]. cbn [tab].
      destruct (insert__order (hashf env) al H1 t1 L1 k d H2 t2 HT1 Hal E2) as (L2 & HT2 & Hpr & _ & Hrw). split; [done|].
      replace L' with L2 by (apply (rows_unique H2 (buckets t2)); [apply HT2|apply (hi_t _ _ _ J1)]).
      rewrite (pairs_rw _ _ _ _ HT2), Hpr. apply buckets_of_ext. intros i Hi. rewrite Hrw. f_equal. by apply (rw_pairs _ H1). }
  destruct (prime (tab s) <? u64 (entries (tab s) * 2))%N.
  - pose proof (hsh_grow_spec (hashf env) al (heap s) (tab s) L (hi_t _ _ _ HI) (hi_own _ _ _ HI) Hal) as Hg.
    destruct (hsh_grow al (heap s) (tab s)) as [[H1 t1]| | | |] eqn:Egr; try discriminate E. cbn [ok mbind res_bind] in Hg, E.
    destruct Hg as (L1 & HT1 & _ & Hents & Hnp & _).
    pose proof (grow_order _ _ _ _ _ _ _ L1 (hi_t _ _ _ HI) (hi_own _ _ _ HI) Hal Egr HT1) as Ho.
    destruct (Hpost H1 t1 L1 HT1 (pairs_perm _ _ Hents) E) as [P1 P2]. unfold next_size. rewrite Hnp. cbn [mbind res_bind]. rewrite P1, P2, Ho. done.
  - cbn [mbind res_bind] in E |- *. destruct (Hpost (heap s) (tab s) L (hi_t _ _ _ HI) ltac:(done) E) as [P1 P2]. rewrite P1, P2. done.
Qed.

(** ** programs *)
(** the number of buckets, the entries in the order of iteration, the readonly flag *)
Definition ostate : Type := N * list (K * D) * Z.
Definition ospec (hf : K -> N) (cmp : K -> K -> Z) (null : D) (g : ostate) (c : hcall K D) : res (ostate * hres K D) :=
  let '(p, m, ro) := g in
  match c with
  | HInsert _ k d =>
      if (ro =? 0)%Z then '(p', m') ← after_insert hf cmp k d p m; Ret (p', m', ro, RInt (match afind cmp k m with Some _ => 1 | None => 0 end))
      else Abort
  | HDelete k =>
      if (ro =? 0)%Z then Ret (p, aremove cmp k m, ro, RInt (match afind cmp k m with Some _ => 0 | None => 1 end)) else Abort
  | HRetrieve k => Ret (p, if decide (ro = 0%Z) then after_lookup hf cmp p k m else m, ro, RDatum (default null (afind cmp k m)))
  | HReadonly f => Ret (p, m, f, RInt ro)
  | HIterate => Ret (p, m, ro, RPairs m)
  | HLoop _ => Ret (p, m, 0%Z, RPairs m)
  end.
Definition orel env s (g : ostate) : Prop :=
  exists L, hinv env s L /\ prime (tab s) = g.1.1 /\ pairs L = g.1.2 /\ readonly (tab s) = g.2.
Lemma ostep_ok env s g c : good env -> orel env s g -> hlegal c ->
  call_ok eq hcan (orel env) c (hstep env s c) (ospec (hashf env) (cmpf env) (dnull env) g c).
Proof.
  intros G (L & HI & Hpr & Hp & Hro) Hl. destruct g as [[p m] ro]. cbn [fst snd] in *. subst p m ro. unfold hstep, ospec.
  pose proof (pairs_heap env s L HI) as Hsz.
  destruct c as [al k d|k|k|f| |ks]; cbn [hlegal] in Hl.
  - destruct (Z.eqb_spec (readonly (tab s)) 0) as [Hz|Hnz]; [|rewrite (hsh_insert_ro env al s L k d HI) by congruence; done].
    pose proof (insert_order env al s L k d HI G Hl Hz) as Hc. revert Hc. generalize (after_insert (hashf env) (cmpf env) k d (prime (tab s)) (pairs L)). intros r Hc.
    destruct (hsh_insert env al s k d) as [[s' z]| | | |]; cbn [ok] in Hc; try done.
    + destruct Hc as (L' & J1 & J2 & -> & ->). cbn. split; [|done]. exists L'. cbn. split; [done|]. split; [done|]. split; [done|]. congruence.
    + destruct r as [[p' m']| | | |]; done.
  - destruct (Z.eqb_spec (readonly (tab s)) 0) as [Hz|Hnz]; [|rewrite (hsh_delete_ro env s L k HI) by congruence; done].
    destruct (hsh_delete_spec env s L k HI G Hz) as (s1 & r1 & L' & E1 & J1 & J2 & J3 & _ & _ & _ & J4 & _). rewrite E1. rb.
    destruct (afind (cmpf env) k (pairs L)) eqn:Ef.
    + destruct J2 as (-> & J2 & _). cbn. split; [|done]. exists L'. cbn. split; [done|]. split; [done|]. split; [done|congruence].
    + destruct J2 as (-> & -> & ->). cbn. split; [|done]. exists L. cbn. split; [done|]. split; [done|]. split; [|done]. symmetry. apply aremove_None. by apply afind_None.
  - destruct (retrieve_order env s L k HI G) as (s1 & L' & E1 & J1 & J2 & J3 & _).
    destruct (hsh_retrieve_spec env s L k HI G) as (s2 & L2 & E2 & _ & _ & _ & _ & J4 & _). rewrite E1 in E2. injection E2 as <-. rewrite E1. rb. cbn.
    split; [|done]. exists L'. cbn. done.
  - destruct (hsh_readonly_spec env s L f HI) as [E1 J1]. rewrite E1. rb. cbn. split; [|congruence]. by exists L.
  - rewrite (hsh_iterate_pure collect env) with (L := L) by (done || lia). rewrite visit_collect. rb. cbn. split; [|done]. by exists L.
  - destruct (HSH_ITERATE_spec env L (lookup_body env (fun k _ _ => ks k) collect) collect (S (N.to_nat (prime (tab s)) + size (heap s))) s []) as (s' & E & J1 & J2).
    + intros k d s1 u1 HI1 Hro1. destruct (run_retrieves_ro env L (ks k) G s1 HI1 Hro1) as (s2 & E2 & HI2 & Hro2).
      exists s2. unfold lookup_body. rewrite E2. rb. destruct (collect k d u1). done.
    + done.
    + lia.
    + rewrite E. rb. unfold HSH_ITERATE_END. destruct (hsh_readonly_spec env s' L 0%Z J1) as [E1 J3]. rewrite E1. rb. cbn.
      rewrite visit_collect. cbn. split; [|done]. exists L. cbn. split; [done|]. split; [|done].
      pose proof (ti_lenL _ _ _ _ (hi_t _ _ _ J1)). pose proof (ti_lenL _ _ _ _ (hi_t _ _ _ HI)). lia.
Qed.
Lemma order_trace env al0 cs : good env -> halloc_ok al0 -> Forall hlegal cs ->
  ok (fun s => refines eq hcan (fun s' g => prime (tab s') = g.1.1 /\ enumerates s' g.1.2) cs
                 (run (hstep env) s cs) (run (ospec (hashf env) (cmpf env) (dnull env)) (1%N, [], 0%Z) cs))
     (can_fail al0) (hsh_create al0).
Proof.
  intros G Hal Hl. eapply ok_mono; [apply (hsh_create_spec env al0)| |done]. intros s [HI Ht].
  eapply refines_Q; [|apply (run_refines _ _ _ _ (fun _ => hlegal) (orel env)); [intros; by apply ostep_ok| |by apply lawful_all]].
  - intros s' [[p m] ro] (L & HI' & Hpr & Hp & Hro). cbn [fst snd] in *. split; [done|]. rewrite <- Hp. by apply (enumerates_pairs env).
  - exists [[]]. rewrite Ht. done.
Qed.
(** the same calls, with other allocators *)
Definition same_call (c c' : hcall K D) : Prop :=
  match c, c' with
  | HInsert _ k d, HInsert _ k' d' => k = k' /\ d = d'
  | _, _ => c = c'
  end.
Lemma ospec_same hf cmp null g c c' : same_call c c' -> ospec hf cmp null g c = ospec hf cmp null g c'.
Proof. destruct c, c'; cbn; try (intros [= ->]; done); try done. by intros [-> ->]. Qed.
Lemma orun_same hf cmp null cs : forall cs' g, Forall2 same_call cs cs' -> run (ospec hf cmp null) g cs = run (ospec hf cmp null) g cs'.
Proof.
  induction cs as [|c cs IH]; intros cs' g HF; inversion HF as [|? c' ? cs1 Hc HF']; subst; [done|]. cbn [run].
  rewrite (ospec_same _ _ _ _ _ _ Hc). destruct (ospec hf cmp null g c') as [[g' r]| | | |]; try done. by rewrite (IH cs1 g' HF').
Qed.

End HashOrder.
