(** Proofs about argument vectors: invariant and every call. *)
From Verif Require Import Base CStr StackModel StackProofs ObjModel ObjProofs MemModel MemProofs MemHist ArgModel.
Local Open Scope Z_scope.

(** An argument list as its user sees it is the [sgh] of its strings: the items in
    order (address, bytes) and the item being grown. *)
Record aalloc_ok (al : aalloc) : Prop := {
  aal_arg : malloc_ok (aa_arg al);
  aal_mem : malloc_good (aa_mem al);
  aal_node : nodes_ok (aa_mem al) }.
(** malloc may fail *)
Definition afail (al : aalloc) : Prop :=
  (exists h, aa_arg al h = None) \/ (exists n, aa_vec al n = false) \/ may_fail (aa_mem al) \/
  (exists h, m_info (aa_mem al) h = None) \/ (exists h, m_stk (aa_mem al) h = None).
(** room for one more item: the int [argm] still doubles *)
Definition slot (g : sgh) : Prop := Z.of_nat (length (s_done g)) + 2 < 2 ^ 30.

Definition items (g : sgh) : list positive := (s_done g).*1.
Record arg_ok (x : arg) (g : sgh) : Prop := {
  ao_argc : argc x = Z.of_nat (length (s_done g));
  ao_argm : argm x = Z.of_nat (length (argv x));
  ao_pow : exists k, 1 <= k <= 30 /\ argm x = 2 ^ k;
  ao_vec : exists rest, argv x = ((fun a => Some (Some a)) <$> items g) ++ Some None :: rest }.

Record ainv (w : aworld) (G GM : gmap positive sgh) : Prop := {
  ai_mem : str_history (amem w) GM;
  ai_dom : forall p, is_Some (args w !! p) <-> is_Some (G !! p);
  ai_arg : forall p x g, args w !! p = Some x -> G !! p = Some g -> arg_ok x g /\ GM !! aobj x = Some g;
  ai_inj : forall p q x y, args w !! p = Some x -> args w !! q = Some y -> aobj x = aobj y -> p = q;
  ai_all : forall i, is_Some (GM !! i) -> exists p x, args w !! p = Some x /\ aobj x = i }.

Lemma items_length g : length (items g) = length (s_done g).
Proof. unfold items. by rewrite fmap_length. Qed.

Lemma get_arg w G GM p g : ainv w G GM -> G !! p = Some g ->
  exists x, args w !! p = Some x /\ arg_ok x g /\ GM !! aobj x = Some g /\ arg_check w (Some p) = Ret (p, x).
Proof.
  intros I Hg. destruct (proj2 (ai_dom _ _ _ I p) (mk_is_Some _ _ Hg)) as [x Hx].
  destruct (ai_arg _ _ _ I p x g Hx Hg) as [Ho Hm]. exists x. repeat split; try done; try apply Ho.
  unfold arg_check. rewrite (hget_Some _ _ _ Hx). done.
Qed.

Lemma append_ok al x g a b n : arg_ok x g -> slot g ->
  ok (fun x' => arg_ok x' (stored g a b n) /\ aobj x' = aobj x) (exists n, aa_vec al n = false) (arg_append al x (Some a)).
Proof.
  intros [Hc Hm (k & Hk & Hp) (rest & Hv)] Hs. unfold slot in Hs. unfold arg_append.
  pose proof (Z.pow_le_mono_r 2 k 30 ltac:(lia) ltac:(lia)) as Hk2.
  rewrite (sint_ok (argc x + 2)) by lia. rb.
  pose proof (Z.pow_le_mono_r 2 1 k ltac:(lia) ltac:(lia)) as Hk1.
  set (n0 := length (s_done g)) in *.
  assert (Hl : length (argv x) = (n0 + S (length rest))%nat).
  { rewrite Hv, app_length, fmap_length, items_length. simpl. lia. }
  assert (Hgrow : ok (fun '(m, v) => m = Z.of_nat (length v) /\ argc x + 2 < m /\ (exists k, 1 <= k <= 30 /\ m = 2 ^ k) /\
             exists r, v = argv x ++ r) (exists n, aa_vec al n = false)
    (if argm x <=? argc x + 2
     then m2 ← sint (argm x * 2);
          if aa_vec al (Z.to_N (8 * m2))
          then Ret (m2, take (Z.to_nat m2) (argv x) ++ replicate (Z.to_nat m2 - length (argv x)) None)
          else Fatal
     else Ret (argm x, argv x))).
  { destruct (Z.leb_spec (argm x) (argc x + 2)) as [Hle|Hgt].
    - assert (k < 30) by (destruct (decide (k = 30)) as [->|]; lia).
      assert (E2 : argm x * 2 = 2 ^ (k + 1)) by (rewrite Hp, Z.pow_add_r by lia; lia).
      pose proof (Z.pow_le_mono_r 2 (k+1) 30 ltac:(lia) ltac:(lia)).
      rewrite (sint_ok (argm x * 2)) by lia. rb.
      destruct (aa_vec al _) eqn:Ev; cbn [ok]; [|eauto].
      split; [|split; [|split]].
      + rewrite app_length, replicate_length, take_length. lia.
      + lia.
      + exists (k+1). lia.
      + rewrite take_ge by lia. eauto.
    - cbn [ok]. repeat split; try lia; eauto. exists []. by rewrite app_nil_r. }
  eapply ok_bind; [exact Hgrow|]. intros [m v] (Em & Hlt & Hpow & r & ->). cbv beta iota.
  rewrite Hc, Nat2Z.id.
  assert (Hlen : (n0 + 2 < length (argv x ++ r))%nat) by lia.
  destruct (lookup_lt_is_Some_2 (argv x ++ r) n0 ltac:(lia)) as [e0 He0]. rewrite (aset_Some _ _ _ _ He0). rb.
  rewrite (sint_ok (Z.of_nat n0 + 1)) by lia. rb.
  destruct (lookup_lt_is_Some_2 (<[n0:=Some (Some a)]> (argv x ++ r)) (Z.to_nat (Z.of_nat n0 + 1))) as [e1 He1].
  { rewrite insert_length. lia. }
  rewrite (aset_Some _ _ _ _ He1). rb. cbn [ok]. split; [|done]. split; cbn [argc argm argv].
  - unfold stored. cbn [s_done]. rewrite app_length. simpl. lia.
  - rewrite !insert_length. done.
  - done.
  - unfold stored, items. cbn [s_done]. rewrite fmap_app, fmap_app. cbn.
    replace (Z.to_nat (Z.of_nat n0 + 1)) with (S n0) by lia.
    rewrite Hv. rewrite <- !app_assoc. cbn [app].
    assert (Hr : exists e2 r2, rest ++ r = e2 :: r2).
    { destruct (rest ++ r) as [|e2 r2] eqn:Er; [|eauto]. exfalso. rewrite Hv, <- app_assoc in Hlen. cbn [app] in Hlen.
      rewrite Er, app_length, fmap_length, items_length in Hlen. simpl in Hlen. lia. }
    destruct Hr as (e2 & r2 & ->). exists r2.
    rewrite (insert_app_r_alt _ _ n0) by (rewrite fmap_length, items_length; lia).
    rewrite (insert_app_r_alt _ _ (S n0)) by (rewrite fmap_length, items_length; lia).
    rewrite fmap_length, items_length. fold n0. replace (n0 - n0)%nat with 0%nat by lia.
    replace (S n0 - n0)%nat with 1%nat by lia. unfold items. by rewrite <- app_assoc.
Qed.

(** changing the strings of one list *)
Lemma ainv_upd w G GM p x x' g g' m : ainv w G GM -> args w !! p = Some x -> G !! p = Some g ->
  arg_ok x' g' -> aobj x' = aobj x -> str_history m (<[aobj x := g']> GM) ->
  ainv (AW m (<[p := x']> (args w))) (<[p := g']> G) (<[aobj x := g']> GM).
Proof.
  intros I Hx Hg Ho Hobj Hm. split; cbn [amem args].
  - done.
  - intros q. rewrite !lookup_insert_is_Some. rewrite (ai_dom _ _ _ I q). done.
  - intros q y h. destruct (decide (q = p)) as [->|Hne].
    + rewrite !lookup_insert. intros [= <-] [= <-]. rewrite Hobj, lookup_insert. done.
    + rewrite !lookup_insert_ne by done. intros Hy Hh. destruct (ai_arg _ _ _ I q y h Hy Hh) as [H1 H2].
      split; [done|]. rewrite lookup_insert_ne; [done|]. intros E. by apply Hne, eq_sym, (ai_inj _ _ _ I p q x y).
  - intros q r y z Hy Hz E.
    assert (forall q y, <[p:=x']> (args w) !! q = Some y -> exists y0, args w !! q = Some y0 /\ aobj y0 = aobj y) as Hq.
    { intros q0 y0. destruct (decide (q0 = p)) as [->|Hne].
      - rewrite lookup_insert. intros [= <-]. eauto.
      - rewrite lookup_insert_ne by done. eauto. }
    destruct (Hq _ _ Hy) as (y0 & Hy0 & E1). destruct (Hq _ _ Hz) as (z0 & Hz0 & E2).
    apply (ai_inj _ _ _ I q r y0 z0); congruence.
  - intros i Hi. destruct (decide (i = aobj x)) as [->|Hne].
    + exists p, x'. by rewrite lookup_insert.
    + rewrite lookup_insert_ne in Hi by done. destruct (ai_all _ _ _ I i Hi) as (q & y & Hy & Hi2).
      exists q, y. split; [|done]. rewrite lookup_insert_ne; [done|]. intros ->. congruence.
Qed.

Section calls.
Context (w : aworld) (G GM : gmap positive sgh) (I : ainv w G GM) (al : aalloc) (Hal : aalloc_ok al).

Lemma create_ok :
  ok (fun '(w', p) => G !! p = None /\ exists GM', ainv w' (<[p := SG [] [] 0]> G) GM') (afail al) (arg_create al w).
Proof.
  unfold arg_create. destruct (aa_arg al (args w)) as [p|] eqn:Ep; [|left; eauto].
  destruct (aa_vec al 16) eqn:Ev; [|right; left; eauto]. cbn [replicate]. unfold aset. cbn. rb.
  pose proof (aal_arg _ Hal _ _ Ep) as Hfresh.
  eapply ok_bind.
  - eapply ok_mono; [apply (sh_create_ok _ _ (ai_mem _ _ _ I) (aa_mem al) (aal_mem _ Hal))| |].
    + intros r Hr. exact Hr.
    + unfold afail. intros [H|H]; eauto 7.
  - intros [m i] [Hi Hm]. cbv beta iota. cbn [ok].
    assert (HGp : G !! p = None).
    { apply eq_None_not_Some. rewrite <- (ai_dom _ _ _ I). rewrite Hfresh. by intros [? ?]. }
    split; [done|]. exists (<[i := SG [] [] 0]> GM).
    assert (Hne : forall q y, args w !! q = Some y -> q <> p /\ aobj y <> i).
    { intros q y Hy. split; [congruence|]. intros E.
      destruct (proj1 (ai_dom _ _ _ I q) (mk_is_Some _ _ Hy)) as [h Hh].
      destruct (ai_arg _ _ _ I q y h Hy Hh) as [_ H2]. congruence. }
    split; cbn [amem args].
    + done.
    + intros q. rewrite !lookup_insert_is_Some. by rewrite (ai_dom _ _ _ I q).
    + intros q y h. destruct (decide (q = p)) as [->|Hq].
      * rewrite !lookup_insert. intros [= <-] [= <-]. cbn [aobj]. rewrite lookup_insert. split; [|done].
        split; cbn [argc argm argv s_done length]; try done.
        -- exists 1. done.
        -- by exists [None].
      * rewrite !lookup_insert_ne by done. intros Hy Hh. destruct (ai_arg _ _ _ I q y h Hy Hh) as [H1 H2].
        split; [done|]. rewrite lookup_insert_ne; [done|]. intros E. by destruct (Hne q y Hy).
    + intros q r y z. destruct (decide (q = p)) as [->|Hq], (decide (r = p)) as [->|Hr];
        rewrite ?lookup_insert, ?lookup_insert_ne by done; try done.
      * intros [= <-] Hz E. destruct (Hne r z Hz) as [_ H]. by rewrite <- E in H.
      * intros Hy [= <-] E. destruct (Hne q y Hy) as [_ H]. by rewrite E in H.
      * apply (ai_inj _ _ _ I).
    + intros j. rewrite lookup_insert_is_Some. intros [<-|[Hj Hs]].
      * eexists p, _. by rewrite lookup_insert.
      * destruct (ai_all _ _ _ I j Hs) as (q & y & Hy & E). exists q, y. split; [|done].
        rewrite lookup_insert_ne; [done|]. intros ->. congruence.
Qed.

Context (p : positive) (g : sgh) (Hg : G !! p = Some g).

Lemma destroy_ok : exists w', arg_destroy w (Some p) = Ret w' /\
  (forall a b, (a, b) ∈ s_done g -> mblk (amem w') !! a = None) /\
  exists GM', ainv w' (delete p G) GM'.
Proof.
  destruct (get_arg _ _ _ _ _ I Hg) as (x & Hx & Ho & Hm & Ec). unfold arg_destroy. rewrite Ec. rb.
  destruct (sh_destroy_ok _ _ (ai_mem _ _ _ I) _ _ Hm) as (m & Em & Hh & _ & Hfreed & _). rewrite Em. rb.
  rewrite (hfree_Some _ _ _ Hx). rb. eexists. split; [reflexivity|]. split; [done|].
  exists (delete (aobj x) GM). split; cbn [amem args].
  - done.
  - intros q. rewrite !lookup_delete_is_Some. by rewrite (ai_dom _ _ _ I q).
  - intros q y h [Hq Hy]%lookup_delete_Some [_ Hh2]%lookup_delete_Some.
    destruct (ai_arg _ _ _ I q y h Hy Hh2) as [H1 H2]. split; [done|]. rewrite lookup_delete_ne; [done|].
    intros E. by apply Hq, (ai_inj _ _ _ I p q x y).
  - intros q r y z [_ Hy]%lookup_delete_Some [_ Hz]%lookup_delete_Some. by apply (ai_inj _ _ _ I).
  - intros i [Hi Hs]%lookup_delete_is_Some. destruct (ai_all _ _ _ I i Hs) as (q & y & Hy & E). exists q, y.
    split; [|done]. rewrite lookup_delete_ne; [done|]. intros ->. congruence.
Qed.

Lemma add_ok s rest : str_ok s -> room g (Z.of_nat (length s) + 1) -> slot g ->
  ok (fun w' => exists a, mblk (amem w) !! a = None /\
        exists GM', ainv w' (<[p := stored g a (s ++ [0%N]) (Z.of_nat (length s) + 1)]> G) GM')
     (afail al) (arg_add al w (Some p) (s ++ 0%N :: rest)).
Proof.
  intros Hs Hr Hsl. destruct (get_arg _ _ _ _ _ I Hg) as (x & Hx & Ho & Hm & Ec). unfold arg_add. rewrite Ec. rb.
  eapply ok_bind.
  - eapply ok_mono; [apply (sh_strcpy_ok _ _ (ai_mem _ _ _ I) (aa_mem al) (aobj x) g s rest (aal_mem _ Hal) (aal_node _ Hal) Hm Hs Hr)| |].
    + intros r H. exact H.
    + unfold afail. auto.
  - intros [m a] (Hh & Hfr & _). cbv beta iota. eapply ok_bind.
    + eapply ok_mono; [apply (append_ok al x g a (s ++ [0%N]) (Z.of_nat (length s) + 1) Ho Hsl)| |].
      * intros r H. exact H.
      * unfold afail. auto.
    + intros x' [Ho' Hob]. cbv beta iota. cbn [ok]. exists a. split; [done|]. eexists. by eapply ainv_upd.
Qed.
Lemma addn_ok src len : 0 <= len < Z.of_nat (length src) -> room g (len + 1) -> slot g ->
  ok (fun w' => exists a, mblk (amem w) !! a = None /\
        exists GM', ainv w' (<[p := stored g a (take (Z.to_nat len + 1) src) (len + 1)]> G) GM')
     (afail al) (arg_addn al w (Some p) src len).
Proof.
  intros Hs Hr Hsl. destruct (get_arg _ _ _ _ _ I Hg) as (x & Hx & Ho & Hm & Ec). unfold arg_addn. rewrite Ec. rb.
  eapply ok_bind.
  - eapply ok_mono; [apply (sh_strncpy_ok _ _ (ai_mem _ _ _ I) (aa_mem al) (aobj x) g src len (aal_mem _ Hal) (aal_node _ Hal) Hm Hs Hr)| |].
    + intros r H. exact H.
    + unfold afail. auto.
  - intros [m a] (Hh & Hfr & _). cbv beta iota. eapply ok_bind.
    + eapply ok_mono; [apply (append_ok al x g a (take (Z.to_nat len + 1) src) (len + 1) Ho Hsl)| |].
      * intros r H. exact H.
      * unfold afail. auto.
    + intros x' [Ho' Hob]. cbv beta iota. cbn [ok]. exists a. split; [done|]. eexists. by eapply ainv_upd.
Qed.
Lemma grow_ok src len : 0 <= len <= Z.of_nat (length src) -> room g len ->
  ok (fun w' => exists GM', ainv w' (<[p := grown g (take (Z.to_nat len) src) len]> G) GM')
     (afail al) (arg_grow al w (Some p) src len).
Proof.
  intros Hs Hr. destruct (get_arg _ _ _ _ _ I Hg) as (x & Hx & Ho & Hm & Ec). unfold arg_grow. rewrite Ec. rb.
  eapply ok_bind.
  - eapply ok_mono; [apply (sh_grow_ok _ _ (ai_mem _ _ _ I) (aa_mem al) (aobj x) g src len (aal_mem _ Hal) (aal_node _ Hal) Hm Hs Hr)| |].
    + intros r H. exact H.
    + unfold afail. auto.
  - intros m Hh. cbv beta iota. cbn [ok]. eexists.
    rewrite <- (insert_id (args w) p x Hx). eapply ainv_upd; try done.
    destruct Ho as [H1 H2 H3 H4]. split; done.
Qed.
Lemma finish_ok : room g 1 -> slot g ->
  ok (fun w' => exists a GM', ainv w' (<[p := stored g a (s_cur g ++ [0%N]) 1]> G) GM')
     (afail al) (arg_finish al w (Some p)).
Proof.
  intros Hr Hsl. destruct (get_arg _ _ _ _ _ I Hg) as (x & Hx & Ho & Hm & Ec). unfold arg_finish. rewrite Ec. rb.
  eapply ok_bind.
  - eapply ok_mono; [apply (sh_finish_ok _ _ (ai_mem _ _ _ I) (aa_mem al) (aobj x) g (aal_mem _ Hal) (aal_node _ Hal) Hm Hr)| |].
    + intros r H. exact H.
    + unfold afail. auto.
  - intros [m q] (a & -> & Hh). cbv beta iota. eapply ok_bind.
    + eapply ok_mono; [apply (append_ok al x g a (s_cur g ++ [0%N]) 1 Ho Hsl)| |].
      * intros r H. exact H.
      * unfold afail. auto.
    + intros x' [Ho' Hob]. cbv beta iota. cbn [ok]. exists a. eexists. by eapply ainv_upd.
Qed.

Lemma vector_ok : exists v rest, arg_get_vector w (Some p) = Ret (Z.of_nat (length (s_done g)), v) /\
  arg_count w (Some p) = Ret (Z.of_nat (length (s_done g))) /\
  v = ((fun a => Some (Some a)) <$> items g) ++ Some None :: rest.
Proof.
  destruct (get_arg _ _ _ _ _ I Hg) as (x & Hx & Ho & Hm & Ec). unfold arg_get_vector, arg_count. rewrite Ec. rb.
  destruct (ao_vec _ _ Ho) as [rest Hv]. rewrite (ao_argc _ _ Ho). exists (argv x), rest. done.
Qed.
Lemma get_ok i : arg_get w (Some p) i =
  (if decide (0 <= i < Z.of_nat (length (s_done g)))
   then match s_done g !! Z.to_nat i with Some (a, _) => Ret (Some a) | None => UB end
   else Abort).
Proof.
  destruct (get_arg _ _ _ _ _ I Hg) as (x & Hx & Ho & Hm & Ec). unfold arg_get. rewrite Ec. rb.
  rewrite (ao_argc _ _ Ho). destruct (decide _) as [Hi|Hi].
  - assert ((i <? 0) || (i >=? Z.of_nat (length (s_done g))) = false) as -> by lia.
    destruct (ao_vec _ _ Ho) as [rest Hv].
    destruct (lookup_lt_is_Some_2 (s_done g) (Z.to_nat i) ltac:(lia)) as [[a b] Hab]. rewrite Hab.
    rewrite (aget_Some _ _ (Some (Some a))). { done. }
    rewrite Hv. rewrite lookup_app_l by (rewrite fmap_length, items_length; lia).
    unfold items. by rewrite !list_lookup_fmap, Hab.
  - assert ((i <? 0) || (i >=? Z.of_nat (length (s_done g))) = true) as -> by lia. done.
Qed.
Lemma text_ok a b : (a, b) ∈ s_done g -> mblk (amem w) !! a = Some b.
Proof.
  destruct (get_arg _ _ _ _ _ I Hg) as (x & Hx & Ho & Hm & Ec). intros H.
  by eapply (sh_done _ _ (ai_mem _ _ _ I)).
Qed.
End calls.

Lemma ainv_start : ainv aempty ∅ ∅.
Proof.
  split; cbn [aempty amem args].
  - apply sh_init.
  - intros p. split; intros [? H]; by rewrite lookup_empty in H.
  - intros p x g H. by rewrite lookup_empty in H.
  - intros p q x y H. by rewrite lookup_empty in H.
  - intros i [g H]. by rewrite lookup_empty in H.
Qed.
Lemma ainv_no_leak w GM : ainv w ∅ GM -> mblk (amem w) = ∅ /\ minf (amem w) = ∅ /\
  stks (msh (amem w)) = ∅ /\ nodes (msh (amem w)) = ∅ /\ args w = ∅.
Proof.
  intros I. assert (Ha : args w = ∅).
  { apply map_empty. intros p. apply eq_None_not_Some. rewrite (ai_dom _ _ _ I), lookup_empty. by intros [? ?]. }
  assert (HM : GM = ∅).
  { apply map_empty. intros i. apply eq_None_not_Some. intros Hi. destruct (ai_all _ _ _ I i Hi) as (p & x & Hx & _).
    by rewrite Ha, lookup_empty in Hx. }
  destruct (sh_no_leak _ _ (ai_mem _ _ _ I) HM) as (H1 & H2 & H3 & H4). done.
Qed.
