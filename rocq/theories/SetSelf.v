(** set_add and set_del with the same set twice (C12). *)
From Verif Require Import Base PrimeModel PrimeProofs HashModel HashSpec ListLemmas HashProofs HashOps HashOps2 HashIter SetModel SetSpec SetAlg SetProofs SetWorld SetHist.
Local Open Scope nat_scope.

Section SetSelf.
Context {K : Type}.
Notation hst := (hst K unit).
Notation halloc := (halloc K unit).
Notation world := (world K).
Implicit Types (s : hst) (al : halloc) (w : world) (F : fns K).

(** after growing, no old node is left *)
Lemma grow_fresh hf al (H : bheap K unit) t L : tinv hf H t L -> owns H L -> halloc_ok al ->
  ok (fun '(H', t') => forall a, is_Some (H !! a) -> H' !! a = None) (can_fail al) (hsh_grow al H t).
Proof.
  intros HT Hown Hal. unfold hsh_grow.
  eapply ok_bind; [apply (hsh_create__spec hf al H)|].
  intros new (HTn & Hprime & Hnew).
  eapply ok_bind.
  { eapply (copy_rows_spec hf al (buckets t) L Hal); [apply HT|apply HT|exact HTn| |].
    - intros x Hx. apply concat_elem in Hx as (i & l & Hi & Hx).
      eapply (ti_placed _ _ _ _ HT); eauto.
    - rewrite (ti_lenL _ _ _ _ HT). done. }
  intros [H1 new1] (L1 & added & HG & Hperm). destruct HG as (G1 & G2 & G3 & G4 & G5 & G6).
  assert (HT1 : tinv hf H1 t L).
  { constructor; try apply HT. eapply rows_frame; [apply HT|].
    intros a Ha. apply Hown in Ha as [v Hv]. rewrite Hv. by eapply lookup_weaken. }
  destruct (destroy_buckets_spec hf H1 t L HT1) as (H2 & -> & D1 & D2). rb. cbn [ok].
  intros a Ha. apply D1. by apply Hown.
Qed.

(** the first element of its chain is found at once *)
Lemma first_found env (H : bheap K unit) n prev a e l p : good env -> row H p ((a, e) :: l) -> find_loop env (S n) H prev p (ekey e) = Ret (Some (prev, a)).
Proof.
  intros G (-> & nx & Ha & _). cbn [find_loop]. rewrite (hget_Some _ _ _ Ha). rb. cbn [bkey mkB]. by rewrite (gc_refl _ _ G).
Qed.
(** deleting it frees exactly its node *)
Lemma delete_first env s L i a e l : hinv env s L -> good env -> readonly (tab s) = 0%Z -> L !! i = Some ((a, e) :: l) ->
  exists s', set_delete env s (ekey e) = Ret (s', 0%Z) /\ heap s' !! a = None.
Proof.
  intros HI G Hro Hl. pose proof (hi_t _ _ _ HI) as HT. destruct (ti_placed _ _ _ _ HT i _ (a, e) Hl ltac:(left)) as [Eh Ei]. cbn [snd] in Eh, Ei.
  assert (Hlt : (ehash e mod prime (tab s) < prime (tab s))%N) by (apply N.mod_lt; pose proof (ti_prime _ _ _ _ HT); lia).
  destruct (row_of _ _ _ _ _ HT Hlt) as (p & l0 & Hp & Hl0 & Hrow & _). rewrite Ei in Hp, Hl0. rewrite Hl in Hl0. injection Hl0 as <-.
  unfold set_delete. unfold umod. destruct (N.eqb_spec (prime (tab s)) 0) as [Hz|_]; [pose proof (ti_prime _ _ _ _ HT); lia|]. rb.
  rewrite Hro. cbn [Z.eqb negb]. rewrite <- Eh, Ei. rewrite (aget_Some _ _ _ Hp). rb.
  rewrite (first_found env _ _ _ _ _ _ _ G Hrow). rb. destruct Hrow as (-> & nx & Ha & _). rewrite (hget_Some _ _ _ Ha). rb.
  cbn [bnext mkB set_entries buckets]. rewrite (aset_Some _ _ _ _ Hp). rb. unfold hfree. rewrite Ha. rb.
  eexists. split; [reflexivity|]. cbn [heap]. apply lookup_delete.
Qed.

(** the walk stops being defined at the first element whose body frees its node *)
Definition kills (h : positive) (w : world) (body : K -> world -> res (world * bool)) (failed : Prop) (L : list (list (positive * @ent K unit))) : Prop :=
  forall i a e l, L !! i = Some ((a, e) :: l) ->
    (exists w' s', body (ekey e) w = Ret (w', false) /\ getset h w' = Ret s' /\ heap s' !! a = None) \/ (body (ekey e) w = Fatal /\ failed).
Lemma walk_killed env h w s L body failed : hinv env s L -> getset h w = Ret s -> kills h w body failed L -> forall n fuel i,
  N.to_nat i <= length L -> length L < n + N.to_nat i -> 0 < fuel -> elems (drop (N.to_nat i) L) <> [] ->
  walk_rows (getset h) body n fuel i w = UB \/ (walk_rows (getset h) body n fuel i w = Fatal /\ failed).
Proof.
  intros HI Hg Hk. pose proof (hi_t _ _ _ HI) as HT. pose proof (ti_lenL _ _ _ _ HT) as Hlen.
  induction n as [|n IH]; intros fuel i Hi Hn Hf Hne; [lia|]. cbn [walk_rows]. rewrite Hg. rb.
  destruct (N.ltb_spec i (prime (tab s))) as [Hlt|Hge]; [|by rewrite drop_ge in Hne by lia].
  destruct (row_of _ _ _ _ i HT Hlt) as (p & l & Hpi & Hl & Hrow & _). rewrite (aget_Some _ _ _ Hpi). rb.
  rewrite (drop_S _ _ _ Hl) in Hne. destruct l as [|[a e] l].
  - cbn in Hrow. rewrite Hrow. destruct fuel as [|fuel]; [lia|]. cbn [walk_chain]. rb. apply IH; try lia.
    replace (N.to_nat (i + 1)) with (S (N.to_nat i)) by lia. exact Hne.
  - pose proof Hrow as (-> & nx & Ha & _). destruct fuel as [|fuel]; [lia|]. cbn [walk_chain]. rewrite Hg. rb. rewrite (hget_Some _ _ _ Ha). rb.
    cbn [bkey mkB]. destruct (Hk _ _ _ _ Hl) as [(w' & s' & -> & Hg' & Hn')|[-> ?]]; [|by right]. rb. rewrite Hg'. rb. unfold hget. rewrite Hn'. by left.
Qed.
Lemma getset_upd h w x s : w !! h = Some x -> getset h (<[h := WS s (whid x) (wcid x)]> w) = Ret s.
Proof. intros Hx. unfold getset, hget. by rewrite lookup_insert. Qed.
Lemma S_del_self F fuel w g h y : whist F w g -> g !! h = Some y -> gro y = 0%Z -> gel y <> [] ->
  (forall x, w !! h = Some x -> N.to_nat (prime (tab (ws x))) < fuel) -> set_del F fuel w h h = UB.
Proof.
  intros Hw Hy Hro Hne Hf. pose proof (whist_rep _ _ _ Hw) as Hr. unfold set_del. rewrite (proj1 (same_fns_spec F w g h h y y Hr Hy Hy)) by done. rb.
  destruct (wrep_lookup _ _ _ _ _ Hr Hy) as (x & Hx & L & HI & G & Hp & Hro' & _). rewrite Hro in Hro'.
  assert (Hg : getset h w = Ret (ws x)) by (unfold getset, hget; by rewrite Hx).
  destruct (walk_killed (wenv F x) h w (ws x) L (fun k w => '(w', _) ← w_delete F w h k; Ret (w', false)) False HI Hg) with (n := fuel) (fuel := fuel) (i := 0%N)
    as [E|[_ []]]; cbn [N.to_nat]; try lia.
  - intros i a e l Hl. left. destruct (delete_first _ _ _ _ _ _ _ HI G Hro' Hl) as (s' & E & Hn). unfold w_delete, hget. rewrite Hx. rb. rewrite E. rb.
    unfold upd, hget. rewrite Hx. rb. eexists _, s'. split; [reflexivity|]. split; [by apply getset_upd|done].
  - pose proof (ti_lenL _ _ _ _ (hi_t _ _ _ HI)). specialize (Hf x Hx). lia.
  - pose proof (Hf x Hx). lia.
  - rewrite drop_0. intros Hn. rewrite Hn in Hp. apply Permutation_nil_l in Hp. done.
  - unfold walk. by rewrite E.
Qed.

(** inserting an element that is there: nothing changes unless the set is due to grow *)
Definition due s : Prop := (prime (tab s) < u64 (entries (tab s) * 2))%N.
Lemma insert_present env al s L k : hinv env s L -> good env -> readonly (tab s) = 0%Z -> ~ due s -> k ∈ elems L -> set_insert env al s k = Ret (s, 1%Z).
Proof.
  intros HI G Hro Hd Hk. unfold set_insert. rewrite Hro. cbn [Z.eqb negb]. unfold due in Hd. destruct (N.ltb_spec (prime (tab s)) (u64 (entries (tab s) * 2))) as [?|_]; [done|]. rb.
  pose proof (hi_t _ _ _ HI) as HT. pose proof (ti_prime _ _ _ _ HT) as Hz. unfold umod. destruct (N.eqb_spec (prime (tab s)) 0) as [?|_]; [lia|]. rb.
  assert (Hlt : (hashf env k mod prime (tab s) < prime (tab s))%N) by (apply N.mod_lt; lia).
  destruct (row_of _ _ _ _ _ HT Hlt) as (p & l & Hp & Hl & Hrow & _ & Hlen). rewrite (aget_Some _ _ _ Hp). rb.
  destruct (find_loop_spec env (heap s) l (S (size (heap s))) None p k Hrow Hlen) as [[_ Hno]|(l1 & a & e & l2 & -> & Hno & Hc & ->)].
  - exfalso. unfold elems, pairs, ents in Hk. rewrite <- !list_fmap_compose in Hk. apply elem_of_list_fmap in Hk as ([b f] & -> & Hin). cbn in Hno.
    apply concat_elem in Hin as (i & l' & Hl' & Hin). destruct (ti_placed _ _ _ _ HT i l' _ Hl' Hin) as [Ef Ei]. cbn [snd] in Ef, Ei.
    cbn in Hl. rewrite <- Ef, Ei in Hl. rewrite Hl' in Hl. injection Hl as ->. apply (Hno _ Hin). cbn. apply (gc_refl _ _ G).
  - rb. by destruct s.
Qed.
(** a walk in which the body changes nothing *)
Lemma walk_same env h w s L body : hinv env s L -> getset h w = Ret s -> (forall k, k ∈ elems L -> body k w = Ret (w, false)) -> forall n fuel i,
  length (pairs L) < fuel -> N.to_nat i <= length L -> length L < n + N.to_nat i -> walk_rows (getset h) body n fuel i w = Ret (w, false).
Proof.
  intros HI Hg Hb. pose proof (hi_t _ _ _ HI) as HT. pose proof (ti_lenL _ _ _ _ HT) as Hlen.
  assert (Hc : forall l n p, row (heap s) p l -> length l < n -> (forall x, x ∈ l -> ekey x.2 ∈ elems L) -> walk_chain (getset h) body n p w = Ret (w, false)).
  { induction l as [|[a e] l IH]; intros n p Hr Hn Hin.
    - cbn in Hr. rewrite Hr. by destruct n.
    - destruct n as [|n]; [cbn in Hn; lia|]. destruct Hr as (-> & nx & Ha & Hs). cbn [walk_chain]. rewrite Hg. rb. rewrite (hget_Some _ _ _ Ha). rb.
      cbn [bkey mkB]. rewrite (Hb (ekey e)) by (apply (Hin (a, e)); left). rb. rewrite Hg. rb. rewrite (hget_Some _ _ _ Ha). rb. cbn [bnext mkB].
      apply IH; [done|cbn in Hn; lia|]. intros x Hx. apply Hin. by right. }
  induction n as [|n IH]; intros fuel i Hf Hi Hn; [lia|]. cbn [walk_rows]. rewrite Hg. rb.
  destruct (N.ltb_spec i (prime (tab s))) as [Hlt|Hge]; [|done].
  destruct (row_of _ _ _ _ i HT Hlt) as (p & l & Hpi & Hl & Hrow & _). rewrite (aget_Some _ _ _ Hpi). rb.
  assert (Hrl : length l <= length (pairs L)).
  { unfold pairs, ents. rewrite !fmap_length. rewrite (concat_delete L _ l Hl), app_length. lia. }
  assert (Hel : forall x, x ∈ l -> ekey x.2 ∈ elems L).
  { intros x Hx. assert (Hxc : x ∈ concat L) by (rewrite (concat_delete L _ l Hl); apply elem_of_app; by left).
    unfold elems, pairs, ents. rewrite <- !list_fmap_compose. apply elem_of_list_fmap. by exists x. }
  rewrite (Hc l fuel p Hrow ltac:(lia) Hel). rb. apply IH; lia.
Qed.
Lemma S_del_self_empty F w g h y : whist F w g -> g !! h = Some y -> gel y = [] -> exists n, forall fuel, n <= fuel -> set_del F fuel w h h = Ret w.
Proof.
  intros Hw Hy Hne. pose proof (whist_rep _ _ _ Hw) as Hr.
  destruct (wrep_lookup _ _ _ _ _ Hr Hy) as (x & Hx & L & HI & G & Hp & _).
  exists (S (N.to_nat (prime (tab (ws x))))). intros fuel Hf. unfold set_del. rewrite (proj1 (same_fns_spec F w g h h y y Hr Hy Hy)) by done. rb.
  assert (Hg : getset h w = Ret (ws x)) by (unfold getset, hget; by rewrite Hx). pose proof (ti_lenL _ _ _ _ (hi_t _ _ _ HI)) as Hlen.
  rewrite Hne in Hp. apply Permutation_nil_l in Hp || (symmetry in Hp; apply Permutation_nil_l in Hp). unfold walk. rewrite (walk_same (wenv F x) h w (ws x) L _ HI Hg); [done| | |cbn; lia|cbn; lia].
  - intros k Hk. rewrite ?Hp in Hk. first [by apply elem_of_nil in Hk|rewrite <- Hp in Hk; by apply elem_of_nil in Hk].
  - assert (Hz : length (elems L) = 0) by (rewrite ?Hp; try rewrite <- Hp; done). unfold elems in Hz. rewrite fmap_length in Hz. lia.
Qed.
Lemma S_add_self F al fuel w g h y x : whist F w g -> g !! h = Some y -> w !! h = Some x -> gro y = 0%Z -> ~ due (ws x) ->
  N.to_nat (prime (tab (ws x))) + length (gel y) < fuel -> set_add F al fuel w h h = Ret w.
Proof.
  intros Hw Hy Hx Hro Hd Hf. pose proof (whist_rep _ _ _ Hw) as Hr. unfold set_add. rewrite (proj1 (same_fns_spec F w g h h y y Hr Hy Hy)) by done. rb.
  destruct (wrep_lookup _ _ _ _ _ Hr Hy) as (x' & Hx' & L & HI & G & Hp & Hro' & _). rewrite Hx in Hx'. injection Hx' as <-. rewrite Hro in Hro'.
  assert (Hins : forall k, k ∈ elems L -> w_insert F al w h k = Ret (w, 1%Z)).
  { intros k Hk. unfold w_insert, hget. rewrite Hx. rb. rewrite (insert_present _ _ _ _ _ HI G Hro' Hd Hk). rb. unfold upd, hget. rewrite Hx. rb.
    rewrite ws_eta, insert_id by done. done. }
  pose proof (ti_lenL _ _ _ _ (hi_t _ _ _ HI)) as Hlen. assert (Hg : getset h w = Ret (ws x)) by (unfold getset, hget; by rewrite Hx).
  unfold walk. rewrite (walk_same (wenv F x) h w (ws x) L _ HI Hg); [done| | |cbn; lia|cbn; lia].
  - intros k Hk. by rewrite Hins.
  - apply Permutation_length in Hp. unfold elems in Hp. rewrite fmap_length in Hp. lia.
Qed.
Lemma insert_due env al s L k : hinv env s L -> good env -> halloc_ok al -> readonly (tab s) = 0%Z -> due s -> smem (cmpf env) k (elems L) = true ->
  ok (fun '(s', r) => r = 1%Z /\ forall a, is_Some (heap s !! a) -> heap s' !! a = None) (can_fail al) (set_insert env al s k).
Proof.
  intros HI G Hal Hro Hd Hk. pose proof (set_insert_spec env al s L k) as Hsp. specialize (Hsp HI G Hal Hro).
  unfold set_insert in *. rewrite Hro in *. cbn [Z.eqb negb] in *. unfold due in Hd. destruct (N.ltb_spec (prime (tab s)) (u64 (entries (tab s) * 2))) as [_|?]; [|lia].
  assert (Hgr : ok (fun '(H', t') => forall a, is_Some (heap s !! a) -> H' !! a = None) (can_fail al) (set_grow al (heap s) (tab s))).
  { eapply fits_ok; [apply set_grow_fits|]. eapply ok_mono; [apply (grow_fresh _ _ _ _ _ (hi_t _ _ _ HI) (hi_own _ _ _ HI) (hal_ok _ Hal))|done|apply hal_fail]. }
  destruct (set_grow al (heap s) (tab s)) as [[H1 t1]| | | |]; try done. cbn [mbind res_bind ok] in *.
  destruct (umod _ _) as [hh| | | |]; try done. cbn [mbind res_bind ok] in *. destruct (aget _ _) as [p| | | |]; try done. cbn [mbind res_bind ok] in *.
  destruct (find_loop _ _ _ _ _ _) as [[r|]| | | |]; try done. cbn [mbind res_bind ok] in *.
  destruct (set_insert_ _ _ _ _ _) as [[H2 t2]| | | |]; try done. cbn [mbind res_bind ok] in *. rewrite Hk in Hsp. destruct Hsp as (? & ? & ?). naive_solver.
Qed.
Lemma S_add_self_due F al fuel w g h y x : whist F w g -> g !! h = Some y -> w !! h = Some x -> halloc_ok al -> gro y = 0%Z -> gel y <> [] -> due (ws x) ->
  N.to_nat (prime (tab (ws x))) < fuel -> set_add F al fuel w h h = UB \/ (set_add F al fuel w h h = Fatal /\ can_fail al).
Proof.
  intros Hw Hy Hx Hal Hro Hne Hd Hf. pose proof (whist_rep _ _ _ Hw) as Hr. unfold set_add. rewrite (proj1 (same_fns_spec F w g h h y y Hr Hy Hy)) by done. rb.
  destruct (wrep_lookup _ _ _ _ _ Hr Hy) as (x' & Hx' & L & HI & G & Hp & Hro' & _). rewrite Hx in Hx'. injection Hx' as <-. rewrite Hro in Hro'.
  assert (Hg : getset h w = Ret (ws x)) by (unfold getset, hget; by rewrite Hx). pose proof (ti_lenL _ _ _ _ (hi_t _ _ _ HI)) as Hlen.
  destruct (walk_killed (wenv F x) h w (ws x) L (fun k w => '(w', _) ← w_insert F al w h k; Ret (w', false)) (can_fail al) HI Hg) with (n := fuel) (fuel := fuel) (i := 0%N)
    as [E|[E ?]]; cbn [N.to_nat]; try lia.
  - intros i a e l Hl.
    assert (Hin : (a, e) ∈ concat L) by (rewrite (concat_delete L _ _ Hl); apply elem_of_app; left; left).
    assert (Hm : smem (cmpf (wenv F x)) (ekey e) (elems L) = true).
    { apply smem_true. exists (ekey e). split; [|apply (gc_refl _ _ G)]. unfold elems, pairs, ents. rewrite <- !list_fmap_compose. apply elem_of_list_fmap. by exists (a, e). }
    pose proof (insert_due _ al _ _ (ekey e) HI G Hal Hro' Hd Hm) as Hi. unfold w_insert, hget. rewrite Hx. rb.
    destruct (set_insert (wenv F x) al (ws x) (ekey e)) as [[s' r]| | | |]; cbn [ok] in Hi; try done; [|right; done]. rb. destruct Hi as [-> Hfr].
    unfold upd, hget. rewrite Hx. rb. left. eexists _, s'. split; [reflexivity|]. split; [by apply getset_upd|]. apply Hfr, (hi_own _ _ _ HI).
    unfold addrs. apply elem_of_list_fmap. by exists (a, e).
  - rewrite drop_0. intros Hn. rewrite Hn in Hp. apply Permutation_nil_l in Hp. done.
  - left. unfold walk. by rewrite E.
  - right. unfold walk. by rewrite E.
Qed.
End SetSelf.
