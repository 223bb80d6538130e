(** Representation invariant of hash tables and refinement to association lists. *)
From Verif Require Import Base PrimeModel PrimeProofs HashModel HashSpec ListLemmas.
Local Open Scope nat_scope.

Section HashProofs.
Context {K D : Type}.
Notation bheap := (bheap K D).
Notation hst := (hst K D).
Notation henv := (henv K D).
Notation halloc := (halloc K D).

Record ent := Ent { ekey : K; ehash : N; edatum : D }.
Notation nent := (positive * ent)%type.
Definition mkB (e : ent) (n : ptr) : bucket K D := Bk (ekey e) (ehash e) (edatum e) n.
Implicit Types (H : bheap) (l : list nent) (L : list (list nent)).

(** list segment from [p] to [q] *)
Fixpoint seg H (p : ptr) (l : list nent) (q : ptr) : Prop :=
  match l with
  | [] => p = q
  | (a, e) :: l' => p = Some a /\ exists n, H !! a = Some (mkB e n) /\ seg H n l' q
  end.

Lemma seg_app H p l1 l2 q :
  seg H p (l1 ++ l2) q <-> exists m, seg H p l1 m /\ seg H m l2 q.
Proof.
  revert p. induction l1 as [|[a e] l1 IH]; intros p; simpl.
  - split; [intros; eauto|]. intros (m & -> & ?). done.
  - split.
    + intros (-> & n & Ha & Hs). apply IH in Hs as (m & ? & ?). eauto 10.
    + intros (m & (-> & n & Ha & Hs) & Hs2). split; [done|]. exists n. split; [done|].
      apply IH. eauto.
Qed.

Lemma seg_frame H H' p l q :
  seg H p l q -> (forall a, a ∈ l.*1 -> H' !! a = H !! a) -> seg H' p l q.
Proof.
  revert p. induction l as [|[a e] l IH]; intros p; simpl; [done|].
  intros (-> & n & Ha & Hs) Hf. split; [done|]. exists n. split.
  - rewrite Hf; [done|set_solver].
  - apply IH; [done|]. intros b Hb. apply Hf. set_solver.
Qed.

Lemma seg_in H p l q a e : seg H p l q -> (a, e) ∈ l -> exists n, H !! a = Some (mkB e n).
Proof.
  revert p. induction l as [|[b f] l IH]; intros p; simpl; [set_solver|].
  intros (-> & n & Ha & Hs) Hin. apply elem_of_cons in Hin as [[= -> ->]|Hin]; eauto.
Qed.

Lemma seg_size H p l q : seg H p l q -> NoDup l.*1 -> length l <= size H.
Proof.
  intros Hs Hnd. rewrite <- (fmap_length fst l).
  rewrite <- (size_list_to_set (C := gset positive) l.*1) by done.
  rewrite <- (size_dom (D:=gset positive) H). apply subseteq_size.
  intros a Ha. apply elem_of_list_to_set, elem_of_list_fmap in Ha as ([b e] & -> & Hin).
  destruct (seg_in _ _ _ _ _ _ Hs Hin) as [n Hn]. apply elem_of_dom. eauto.
Qed.

(** redirect the last pointer of a segment *)
Lemma seg_redirect H p l a e q q' :
  seg H p (l ++ [(a, e)]) q -> NoDup (l ++ [(a, e)]).*1 ->
  seg (<[a := mkB e q']> H) p (l ++ [(a, e)]) q'.
Proof.
  intros Hs Hnd. apply seg_app in Hs as (m & Hs1 & Hs2). simpl in Hs2.
  destruct Hs2 as (-> & n & Ha & ->).
  apply seg_app. exists (Some a). split.
  - apply (seg_frame H); [done|]. intros b Hb.
    rewrite lookup_insert_ne; [done|]. intros ->.
    rewrite fmap_app in Hnd. apply NoDup_app in Hnd as (_ & Hd & _).
    apply (Hd b); [done|]. simpl. set_solver.
  - simpl. split; [done|]. exists q'. rewrite lookup_insert. done.
Qed.

(** rows: the bucket array against the layout *)
Definition row H (p : ptr) (l : list nent) : Prop := seg H p l None.
Definition rows H (bs : list ptr) L : Prop := Forall2 (row H) bs L.
Definition addrs L : list positive := (concat L).*1.
Definition ents L : list ent := (concat L).*2.
Definition epair (e : ent) : K * D := (ekey e, edatum e).
Definition pairs L : list (K * D) := epair <$> ents L.

Lemma rows_lookup H bs L i p : rows H bs L -> bs !! i = Some p ->
  exists l, L !! i = Some l /\ row H p l.
Proof.
  intros HF Hp. destruct (Forall2_lookup_l _ _ _ _ _ HF Hp) as (l & ? & ?). eauto.
Qed.

Lemma rows_frame H H' bs L :
  rows H bs L -> (forall a, a ∈ addrs L -> H' !! a = H !! a) -> rows H' bs L.
Proof.
  unfold rows, addrs. intros HF. induction HF as [|p l bs L Hpl HF IH]; intros Hf; constructor.
  - apply (seg_frame H); [done|]. intros a Ha. apply Hf. simpl. rewrite fmap_app. set_solver.
  - apply IH. intros a Ha. apply Hf. simpl. rewrite fmap_app. set_solver.
Qed.

Lemma rows_update H H' bs L h l p' l' :
  rows H bs L -> L !! h = Some l -> row H' p' l' ->
  (forall a, a ∈ (concat (delete h L)).*1 -> H' !! a = H !! a) ->
  rows H' (<[h := p']> bs) (<[h := l']> L).
Proof.
  unfold rows. intros HF Hl Hr Hf.
  apply Forall2_same_length_lookup. split.
  { rewrite !insert_length. eapply Forall2_length; eauto. }
  assert (Hlen := Forall2_length _ _ _ HF).
  intros i p l0 Hp Hl0.
  destruct (decide (i = h)) as [->|Hne].
  - rewrite list_lookup_insert in Hp by (rewrite Hlen; eapply lookup_lt_Some; eauto).
    rewrite list_lookup_insert in Hl0 by (eapply lookup_lt_Some; eauto).
    simplify_eq. done.
  - rewrite list_lookup_insert_ne in Hp by done.
    rewrite list_lookup_insert_ne in Hl0 by done.
    apply (seg_frame H).
    + apply (proj2 (proj1 (Forall2_same_length_lookup (row H) bs L) HF) i); done.
    + intros a Ha. apply Hf. apply elem_of_list_fmap in Ha as (x & -> & Hx).
      apply elem_of_list_fmap. exists x. split; [done|]. eapply elem_of_concat_delete; eauto.
Qed.

(** every entry sits in the bucket its hash selects, and carries its key's hash *)
Definition placed (hf : K -> N) (p : N) L : Prop :=
  forall i l x, L !! i = Some l -> x ∈ l ->
    ehash x.2 = hf (ekey x.2) /\ N.to_nat (ehash x.2 mod p) = i.

(** The structural invariant of one table inside a heap that may hold more. *)
Record tinv (hf : K -> N) H (t : table) L : Prop := {
  ti_prime : (0 < prime t)%N;
  ti_len : length (buckets t) = N.to_nat (prime t);
  ti_rows : rows H (buckets t) L;
  ti_nodup : NoDup (addrs L);
  ti_placed : placed hf (prime t) L }.

Lemma ti_lenL hf H t L : tinv hf H t L -> length L = N.to_nat (prime t).
Proof. intros [_ Hl Hr _ _]. rewrite <- Hl. symmetry. eapply Forall2_length, Hr. Qed.

Lemma hsh_check_ok hf H t L : tinv hf H t L -> hsh_check t = Ret tt.
Proof.
  intros [Hp Hl _ _ _]. unfold hsh_check. destruct (buckets t); [|done]. simpl in Hl. lia.
Qed.

Lemma addrs_perm L L' : concat L ≡ₚ concat L' -> addrs L ≡ₚ addrs L'.
Proof. unfold addrs. intros ->. done. Qed.

Lemma row_nodup L h l : NoDup (addrs L) -> L !! h = Some l ->
  NoDup l.*1 /\ (forall a, a ∈ l.*1 -> a ∉ (concat (delete h L)).*1).
Proof.
  intros Hnd Hl. unfold addrs in Hnd. rewrite (concat_delete L h l Hl), fmap_app in Hnd.
  apply NoDup_app in Hnd as (? & ? & ?). split; auto.
Qed.

Lemma row_of hf H t L (h : N) :
  tinv hf H t L -> (h < prime t)%N ->
  exists p l, buckets t !! N.to_nat h = Some p /\ L !! N.to_nat h = Some l /\
              row H p l /\ NoDup l.*1 /\ length l < S (size H).
Proof.
  intros HT Hh. pose proof (ti_len _ _ _ _ HT) as Hlen.
  destruct (lookup_lt_is_Some_2 (buckets t) (N.to_nat h)) as [p Hp]; [lia|].
  destruct (rows_lookup _ _ _ _ _ (ti_rows _ _ _ _ HT) Hp) as (l & Hl & Hr).
  destruct (row_nodup L _ l (ti_nodup _ _ _ _ HT) Hl) as [Hnd _].
  exists p, l. repeat split; try done. pose proof (seg_size _ _ _ _ Hr Hnd). lia.
Qed.

(** ** Traversals *)

(** outcome of a search in a row *)
Definition no_match (env : henv) (k : K) l : Prop :=
  forall x, x ∈ l -> cmpf env (ekey x.2) k <> 0%Z.

Definition last_ptr (prev : ptr) l : ptr :=
  match last l with Some x => Some x.1 | None => prev end.

Lemma find_loop_spec env H l : forall n prev p k,
  row H p l -> length l < n ->
  (find_loop env n H prev p k = Ret None /\ no_match env k l) \/
  (exists l1 a e l2, l = l1 ++ (a, e) :: l2 /\ no_match env k l1 /\
     cmpf env (ekey e) k = 0%Z /\
     find_loop env n H prev p k = Ret (Some (last_ptr prev l1, a))).
Proof.
  induction l as [|[a e] l IH]; intros n prev p k Hr Hn.
  - simpl in Hr. left. rewrite Hr. destruct n; simpl; (split; [done|]); intros x Hx; set_solver.
  - destruct n as [|n]; [simpl in Hn; lia|]. destruct Hr as (-> & nx & Ha & Hs).
    simpl. rewrite (hget_Some _ _ _ Ha). simpl.
    destruct (cmpf env (ekey e) k =? 0)%Z eqn:Ec.
    + right. exists [], a, e, l. apply Z.eqb_eq in Ec. repeat split; try done.
      intros x Hx. set_solver.
    + apply Z.eqb_neq in Ec. simpl in Hn.
      destruct (IH n (Some a) nx k Hs ltac:(lia)) as [[Hf Hno]|(l1 & b & f & l2 & -> & Hno & Hc & Hf)].
      * left. split; [done|]. intros x Hx. apply elem_of_cons in Hx as [->|Hx]; auto.
      * right. exists ((a, e) :: l1), b, f, l2. repeat split; try done.
        -- intros x Hx. apply elem_of_cons in Hx as [->|Hx]; auto.
        -- rewrite Hf. do 3 f_equal. unfold last_ptr. rewrite last_cons. destruct (last l1); done.
Qed.

Lemma free_chain_spec H l : forall n p,
  row H p l -> NoDup l.*1 -> length l < n ->
  exists H', free_chain n H p = Ret H' /\
    (forall a, a ∈ l.*1 -> H' !! a = None) /\ (forall a, a ∉ l.*1 -> H' !! a = H !! a).
Proof.
  revert H. induction l as [|[a e] l IH]; intros H n p Hr Hnd Hn.
  - simpl in Hr. rewrite Hr. destruct n; (eexists; split; [done|]); set_solver.
  - destruct n as [|n]; [simpl in Hn; lia|]. destruct Hr as (-> & nx & Ha & Hs).
    simpl. rewrite (hget_Some _ _ _ Ha). simpl. rewrite (hfree_Some _ _ _ Ha). simpl.
    simpl in Hnd. apply NoDup_cons in Hnd as [Hni Hnd]. simpl in Hn.
    destruct (IH (delete a H) n nx) as (H' & Hf & H1 & H2); [|done|lia|].
    { apply (seg_frame H); [done|]. intros b Hb. apply lookup_delete_ne. set_solver. }
    exists H'. split; [done|]. split.
    + simpl. intros b Hb. apply elem_of_cons in Hb as [->|Hb]; [|auto].
      rewrite H2 by done. apply lookup_delete.
    + simpl. intros b Hb. rewrite H2 by set_solver. apply lookup_delete_ne. set_solver.
Qed.

(** destroying all rows from [i] on *)
Lemma free_rows_spec bs L : forall n i H,
  rows H bs L -> NoDup (addrs L) -> i + n = length L ->
  exists H',
    for_up n i (fun i H => p ← aget bs i; free_chain (S (size H)) H p) H = Ret H' /\
    (forall a, a ∈ addrs (drop i L) -> H' !! a = None) /\
    (forall a, a ∉ addrs (drop i L) -> H' !! a = H !! a).
Proof.
  intros n i H Hr. assert (Hlen := Forall2_length _ _ _ Hr).
  assert (Hr' : rows H (drop i bs) (drop i L)) by (by apply Forall2_drop).
  clear Hr. revert i H Hr'. induction n as [|n IH]; intros i H Hr Hnd Hi.
  - exists H. split; [done|]. rewrite drop_ge by lia. split; [set_solver|done].
  - destruct (lookup_lt_is_Some_2 bs i) as [p Hp]; [lia|].
    destruct (lookup_lt_is_Some_2 L i) as [l Hl]; [lia|].
    rewrite (drop_S _ _ _ Hp), (drop_S _ _ _ Hl) in Hr.
    apply Forall2_cons in Hr as [Hrow Hrest].
    assert (Hnd' : NoDup (addrs (drop i L))).
    { unfold addrs in *. rewrite <- (take_drop i L), concat_app, fmap_app in Hnd.
      apply NoDup_app in Hnd as (_ & _ & ?). done. }
    rewrite (drop_S _ _ _ Hl) in Hnd'. unfold addrs in Hnd'. simpl in Hnd'. rewrite fmap_app in Hnd'.
    apply NoDup_app in Hnd' as (Hnd1 & Hdis & Hnd2).
    cbn [for_up]. rewrite (aget_Some _ _ _ Hp). rb.
    destruct (free_chain_spec H l (S (size H)) p Hrow Hnd1) as (H1 & -> & Hf1 & Hf2).
    { pose proof (seg_size _ _ _ _ Hrow Hnd1). lia. }
    rb.
    destruct (IH (S i) H1) as (H2 & -> & Hg1 & Hg2); [|done|lia|].
    { eapply rows_frame; [exact Hrest|]. intros a Ha. apply Hf2. intros Ha'. by apply (Hdis a). }
    exists H2. split; [done|]. rewrite (drop_S _ _ _ Hl). unfold addrs. simpl.
    split; intros a Ha; rewrite fmap_app in Ha.
    + destruct (decide (a ∈ (concat (drop (S i) L)).*1)) as [Hin|Hin]; [by apply Hg1|].
      rewrite Hg2 by done. apply Hf1. set_solver.
    + rewrite Hg2 by (unfold addrs; set_solver). apply Hf2. set_solver.
Qed.

Lemma destroy_buckets_spec hf H t L :
  tinv hf H t L ->
  exists H', destroy_buckets H t = Ret (H', set_buckets t []) /\
    (forall a, a ∈ addrs L -> H' !! a = None) /\ (forall a, a ∉ addrs L -> H' !! a = H !! a).
Proof.
  intros HT. unfold destroy_buckets. rewrite (hsh_check_ok _ _ _ _ HT). rb.
  destruct (free_rows_spec (buckets t) L (N.to_nat (prime t)) 0 H) as (H' & -> & H1 & H2).
  - apply HT.
  - apply HT.
  - rewrite (ti_lenL _ _ _ _ HT). done.
  - exists H'. split; [done|]. done.
Qed.

(** ** _hsh_insert *)
Lemma hsh_insert__spec hf al H t L hash key datum :
  tinv hf H t L -> halloc_ok al -> hash = hf key ->
  (hsh_insert_ al H t hash key datum = Fatal /\ node_alloc al H = None) \/
  exists a l L',
    H !! a = None /\
    L !! N.to_nat (hash mod prime t) = Some l /\
    L' = <[N.to_nat (hash mod prime t) := (a, Ent key hash datum) :: l]> L /\
    exists H' t', hsh_insert_ al H t hash key datum = Ret (H', t') /\
    tinv hf H' t' L' /\
    (forall b, b <> a -> H' !! b = H !! b) /\ is_Some (H' !! a) /\
    concat L' ≡ₚ (a, Ent key hash datum) :: concat L /\
    t' = set_entries (set_buckets t (buckets t')) (u64 (entries t + 1)).
Proof.
  intros HT Hal Hhash. unfold hsh_insert_, umod.
  pose proof (ti_prime _ _ _ _ HT) as Hp.
  replace (prime t =? 0)%N with false by (symmetry; apply N.eqb_neq; lia).
  rb. rewrite (hsh_check_ok _ _ _ _ HT). rb.
  destruct (node_alloc al H) as [a|] eqn:Ea; [|by left].
  right. specialize (Hal _ _ Ea).
  set (h := (hash mod prime t)%N).
  assert (Hh : (h < prime t)%N) by (apply N.mod_lt; lia).
  destruct (row_of _ _ _ _ h HT Hh) as (p & l & Hbp & HLl & Hrow & Hnd & _).
  rewrite (aget_Some _ _ _ Hbp). rb.
  rewrite (aset_Some _ _ _ _ Hbp). rb.
  set (e := Ent key hash datum).
  assert (Hb : match p with Some _ => set_next (Bk key hash datum None) p | None => Bk key hash datum None end
               = mkB e p) by (by destruct p).
  rewrite Hb.
  assert (Hfresh : a ∉ addrs L).
  { intros Hin. apply elem_of_list_fmap in Hin as ([b f] & -> & Hin).
    apply concat_elem in Hin as (i & l0 & Hi & Hin).
    destruct (Forall2_lookup_r _ _ _ _ _ (ti_rows _ _ _ _ HT) Hi) as (q & _ & Hq).
    destruct (seg_in _ _ _ _ _ _ Hq Hin) as [n Hn]. simpl in Hal. congruence. }
  exists a, l, (<[N.to_nat h := (a, e) :: l]> L). split; [done|]. split; [done|]. split; [done|].
  eexists _, _. split; [reflexivity|].
  assert (Hperm : concat (<[N.to_nat h := (a, e) :: l]> L) ≡ₚ (a, e) :: concat L).
  { rewrite (concat_insert L _ l) by done. rewrite (concat_delete L _ l HLl). done. }
  split; [|split; [|split; [|split]]].
  - constructor; simpl.
    + done.
    + rewrite insert_length. apply HT.
    + eapply rows_update; [apply HT|done| |].
      * split; [done|]. exists p. rewrite lookup_insert. split; [done|].
        apply (seg_frame H); [done|]. intros b Hb'. apply lookup_insert_ne.
        intros ->. apply Hfresh. unfold addrs. apply elem_of_list_fmap in Hb' as (x & -> & Hx).
        apply elem_of_list_fmap. exists x. split; [done|]. eapply elem_of_concat; eauto.
      * intros b Hb'. apply lookup_insert_ne. intros ->. apply Hfresh.
        unfold addrs. rewrite (concat_delete L _ l HLl), fmap_app. set_solver.
    + unfold addrs. rewrite Hperm. simpl. apply NoDup_cons. split; [done|apply HT].
    + intros i l0 x Hi Hx. destruct (decide (i = N.to_nat h)) as [->|Hne].
      * rewrite list_lookup_insert in Hi by (eapply lookup_lt_Some; eauto). injection Hi as <-.
        apply elem_of_cons in Hx as [->|Hx]; [by simpl|]. eapply (ti_placed _ _ _ _ HT); eauto.
      * rewrite list_lookup_insert_ne in Hi by done. eapply (ti_placed _ _ _ _ HT); eauto.
  - intros b Hb'. apply lookup_insert_ne. done.
  - rewrite lookup_insert. eauto.
  - done.
  - done.
Qed.


(** some allocation fails under [al] *)
Definition can_fail (al : halloc) : Prop :=
  (exists h, node_alloc al h = None) \/ (exists n, blk_alloc al n = false).

(** what a sequence of _hsh_insert calls did: [added] new nodes *)
Definition grown hf H (new : table) Lnew H' (new' : table) Lnew' (added : list nent) : Prop :=
  tinv hf H' new' Lnew' /\ prime new' = prime new /\ H ⊆ H' /\
  (forall a, is_Some (H' !! a) <-> is_Some (H !! a) \/ a ∈ added.*1) /\
  (forall a, a ∈ added.*1 -> H !! a = None) /\
  concat Lnew' ≡ₚ added ++ concat Lnew.

Lemma grown_refl hf H new Lnew : tinv hf H new Lnew -> grown hf H new Lnew H new Lnew [].
Proof. intros. split; [done|]. repeat split; try done; set_solver. Qed.

Lemma grown_trans hf H1 t1 L1 H2 t2 L2 H3 t3 L3 x y :
  grown hf H1 t1 L1 H2 t2 L2 x -> grown hf H2 t2 L2 H3 t3 L3 y ->
  grown hf H1 t1 L1 H3 t3 L3 (y ++ x).
Proof.
  intros (A1 & A2 & A3 & A4 & A5 & A6) (B1 & B2 & B3 & B4 & B5 & B6).
  split; [done|]. split; [congruence|]. split; [by trans H2|].
  split; [|split].
  - intros a. rewrite fmap_app, elem_of_app, B4, A4. tauto.
  - intros a. rewrite fmap_app, elem_of_app. intros [Ha|Ha]; [|auto].
    destruct (H1 !! a) as [v|] eqn:E; [|done].
    specialize (B5 a Ha). rewrite (lookup_weaken _ _ _ _ E A3) in B5. done.
  - rewrite B6, A6, app_assoc. done.
Qed.

Lemma insert__grown hf al H t L hash key datum :
  tinv hf H t L -> halloc_ok al -> hash = hf key ->
  ok (fun '(H', t') => exists a L',
        grown hf H t L H' t' L' [(a, Ent key hash datum)] /\
        L' !! N.to_nat (hash mod prime t) =
          ((a, Ent key hash datum) ::.) <$> L !! N.to_nat (hash mod prime t) /\
        t' = set_entries (set_buckets t (buckets t')) (u64 (entries t + 1)))
     (can_fail al) (hsh_insert_ al H t hash key datum).
Proof.
  intros HT Hal Hh.
  destruct (hsh_insert__spec hf al H t L hash key datum HT Hal Hh)
    as [[-> Hf]|(a & l & L' & Ha & Hl & -> & H' & t' & -> & HT' & Hfr & Hin & Hp & Ht')].
  { left. eauto. }
  simpl. exists a, (<[N.to_nat (hash mod prime t) := (a, Ent key hash datum) :: l]> L).
  split; [|split; [|done]].
  2:{ rewrite list_lookup_insert by (eapply lookup_lt_Some; eauto). rewrite Hl. done. }
  split; [done|]. split; [by rewrite Ht'|]. split; [|split; [|split]].
  - apply map_subseteq_spec. intros b x Hb. rewrite Hfr; [done|]. intros ->. congruence.
  - intros b. destruct (decide (b = a)) as [->|Hne].
    + split; [|done]. intros _. right. set_solver.
    + rewrite (Hfr b Hne). set_solver.
  - intros b Hb. assert (b = a) as -> by set_solver. done.
  - done.
Qed.

Lemma copy_chain_spec hf al : halloc_ok al -> forall l n H new Lnew p,
  row H p l -> tinv hf H new Lnew -> (forall x, x ∈ l -> ehash x.2 = hf (ekey x.2)) ->
  length l < n ->
  ok (fun '(H', new') => exists Lnew' added,
        grown hf H new Lnew H' new' Lnew' added /\ added.*2 ≡ₚ l.*2)
     (can_fail al) (copy_chain al n H new p).
Proof.
  intros Hal l. induction l as [|[a e] l IH]; intros n H new Lnew p Hr HT Hhash Hn.
  - simpl in Hr. rewrite Hr. destruct n; simpl; (eexists _, []; split; [by apply grown_refl|done]).
  - destruct n as [|n]; [simpl in Hn; lia|]. destruct Hr as (-> & nx & Ha & Hs).
    cbn [copy_chain]. rewrite (hget_Some _ _ _ Ha). rb. simpl bhash. simpl bkey. simpl bdatum.
    eapply ok_bind.
    { apply insert__grown; [done|done|]. apply (Hhash (a, e)). set_solver. }
    intros [H1 new1] (b & L1 & HG & _ & _). pose proof HG as (G1 & G2 & G3 & G4 & G5 & G6).
    rewrite (hget_Some _ _ _ (lookup_weaken _ _ _ _ Ha G3)). rb. simpl bnext.
    simpl in Hn.
    eapply ok_mono; [apply (IH n H1 new1 L1 nx)|..].
    + apply (seg_frame H); [done|]. intros c Hc.
      apply elem_of_list_fmap in Hc as ([c' f] & -> & Hc).
      destruct (seg_in _ _ _ _ _ _ Hs Hc) as [m Hm]. simpl. rewrite Hm.
      by eapply lookup_weaken.
    + done.
    + intros x Hx. apply Hhash. set_solver.
    + lia.
    + intros [H2 new2] (L2 & added & HG2 & Hperm). exists L2, (added ++ [(b, e)]). split.
      * eapply grown_trans; [|exact HG2]. destruct e. exact HG.
      * rewrite fmap_app. simpl. rewrite Hperm. by rewrite Permutation_app_comm.
    + done.
Qed.

Lemma copy_rows_spec hf al bs L : halloc_ok al -> forall n i H new Lnew,
  rows H bs L -> NoDup (addrs L) -> tinv hf H new Lnew ->
  (forall x, x ∈ concat L -> ehash x.2 = hf (ekey x.2)) ->
  i + n = length L ->
  ok (fun '(H', new') => exists Lnew' added,
        grown hf H new Lnew H' new' Lnew' added /\ added.*2 ≡ₚ (concat (drop i L)).*2)
     (can_fail al)
     (for_up n i (fun i '(H, new) => p ← aget bs i; copy_chain al (S (size H)) H new p) (H, new)).
Proof.
  intros Hal n. induction n as [|n IH]; intros i H new Lnew Hr Hnd HT Hhash Hi.
  - simpl. exists Lnew, []. split; [by apply grown_refl|]. rewrite drop_ge by lia. done.
  - assert (Hlen := Forall2_length _ _ _ Hr).
    destruct (lookup_lt_is_Some_2 bs i) as [p Hp]; [lia|].
    destruct (rows_lookup _ _ _ _ _ Hr Hp) as (l & Hl & Hrow).
    cbn [for_up]. rewrite (aget_Some _ _ _ Hp). rb.
    destruct (row_nodup L i l Hnd Hl) as [Hndl _].
    eapply ok_bind.
    { eapply copy_chain_spec; [done|exact Hrow|exact HT| |].
      - intros x Hx. apply Hhash. eapply elem_of_concat; eauto.
      - pose proof (seg_size _ _ _ _ Hrow Hndl). lia. }
    intros [H1 new1] (L1 & added & HG & Hperm).
    eapply ok_mono; [apply (IH (S i) H1 new1 L1)|..]; try done.
    + eapply rows_frame; [exact Hr|]. intros a Ha.
      apply elem_of_list_fmap in Ha as ([a' e] & -> & Ha).
      apply concat_elem in Ha as (j & l0 & Hj & Ha).
      destruct (Forall2_lookup_r _ _ _ _ _ Hr Hj) as (q & _ & Hq).
      destruct (seg_in _ _ _ _ _ _ Hq Ha) as [m Hm]. simpl. rewrite Hm.
      eapply lookup_weaken; [done|apply HG].
    + apply HG.
    + lia.
    + intros [H2 new2] (L2 & added2 & HG2 & Hperm2). exists L2, (added2 ++ added). split.
      * by eapply grown_trans.
      * rewrite (drop_S _ _ _ Hl). simpl. rewrite !fmap_app, Hperm2, Hperm.
        apply Permutation_app_comm.
Qed.

Lemma concat_replicate_nil {A} n : concat (replicate n (@nil A)) = [].
Proof. induction n; simpl; auto. Qed.

Lemma hsh_create__spec hf al H seed :
  ok (fun t => tinv hf H t (replicate (N.to_nat (prime t)) []) /\
               prm_next_prime (u32 seed) = Ret (prime t) /\
               t = Tab (prime t) 0 (replicate (N.to_nat (prime t)) None) 0 0 0 0 0)
     (can_fail al) (hsh_create_ al seed).
Proof.
  unfold hsh_create_.
  destruct (prm_next_prime_total (u32 seed)) as (p & Hp & Hr & _); [apply u32_lt|].
  rewrite Hp. rb. unfold xmalloc_blk.
  destruct (blk_alloc al 88) eqn:E1; [|right; eauto]. rb.
  destruct (blk_alloc al (u64 (p * 32))) eqn:E2; [|right; eauto]. rb.
  simpl. split; [|done]. constructor; simpl.
  - lia.
  - apply replicate_length.
  - apply Forall2_replicate. done.
  - unfold addrs. rewrite concat_replicate_nil. constructor.
  - intros i l x Hi Hx. apply lookup_replicate in Hi as [-> _]. set_solver.
Qed.

(** a table alone in its heap *)
Definition owns H L : Prop := forall a, is_Some (H !! a) <-> a ∈ addrs L.

Lemma hsh_grow_spec hf al H t L :
  tinv hf H t L -> owns H L -> halloc_ok al ->
  ok (fun '(H', t') => exists L',
        tinv hf H' t' L' /\ owns H' L' /\ ents L' ≡ₚ ents L /\
        prm_next_prime (u32 (u64 (prime t * 3))) = Ret (prime t') /\
        t' = Tab (prime t') (entries t) (buckets t') (u64 (resizings t + 1))
                 (retrievals t) (hits t) (misses t) (readonly t))
     (can_fail al) (hsh_grow al H t).
Proof.
  intros HT Hown Hal. unfold hsh_grow.
  eapply ok_bind; [apply (hsh_create__spec hf al H)|].
  intros new (HTn & Hprime & Hnew).
  eapply ok_bind.
  { eapply (copy_rows_spec hf al (buckets t) L Hal); [apply HT|apply HT|exact HTn| |].
    - intros x Hx. apply concat_elem in Hx as (i & l & Hi & Hx).
      eapply (ti_placed _ _ _ _ HT); eauto.
    - rewrite (ti_lenL _ _ _ _ HT). done. }
  intros [H1 new1] (L1 & added & HG & Hperm).
  destruct HG as (G1 & G2 & G3 & G4 & G5 & G6).
  rewrite concat_replicate_nil, app_nil_r in G6. rewrite drop_0 in Hperm.
  assert (HT1 : tinv hf H1 t L).
  { constructor; try apply HT. eapply rows_frame; [apply HT|].
    intros a Ha. apply Hown in Ha as [v Hv]. rewrite Hv. by eapply lookup_weaken. }
  destruct (destroy_buckets_spec hf H1 t L HT1) as (H2 & -> & D1 & D2). rb. cbn [ok].
  assert (Hdis : forall a, a ∈ addrs L1 -> a ∉ addrs L).
  { intros a Ha HaL. unfold addrs in Ha. rewrite G6 in Ha. apply G5 in Ha.
    apply Hown in HaL. destruct HaL as [v Hv]. congruence. }
  exists L1. cbn [prime buckets]. split; [|split; [|split; [|split]]].
  - constructor; simpl; try apply G1.
    eapply rows_frame; [apply G1|]. intros a Ha. apply D2. auto.
  - intros a. destruct (decide (a ∈ addrs L)) as [Hin|Hin].
    + rewrite (D1 a Hin). split; [intros [? ?]; done|]. intros Ha. by apply Hdis in Ha.
    + rewrite (D2 a Hin), G4. unfold addrs at 1. rewrite G6.
      split; [|tauto]. intros [Ha|Ha]; [|done]. apply Hown in Ha. done.
  - unfold ents. rewrite G6. done.
  - rewrite G2. done.
  - done.
Qed.

End HashProofs.
