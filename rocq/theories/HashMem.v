(** C90: any number of hash tables in one memory. *)
From Verif Require Import Base Trace PrimeModel ListLemmas HashModel HashSpec HashProofs HashOps HashOps2 HashIter HashHist HashTrace HashFrame.
Local Open Scope nat_scope.

(** ** A memory in pieces *)
Section Pieces.
Context {B : Type}.
Implicit Types (H F M : gmap positive B).
(** [M] consists of the disjoint pieces [Hs] *)
Fixpoint pieces (Hs : list (gmap positive B)) (M : gmap positive B) : Prop :=
  match Hs with
  | [] => M = ∅
  | H :: Hs' => exists M', H ##ₘ M' /\ M = H ∪ M' /\ pieces Hs' M'
  end.
Lemma pieces_get Hs : forall M i H, pieces Hs M -> Hs !! i = Some H ->
  exists F, H ##ₘ F /\ M = H ∪ F /\ forall H', H' ##ₘ F -> pieces (<[i := H']> Hs) (H' ∪ F).
Proof.
  induction Hs as [|H0 Hs IH]; intros M i H Hp Hi; [by rewrite lookup_nil in Hi|].
  destruct Hp as (M' & Hd & -> & Hp). destruct i as [|i]; cbn in Hi.
  - injection Hi as ->. exists M'. split; [done|]. split; [done|]. intros H' Hd'. cbn. exists M'. done.
  - destruct (IH M' i H Hp Hi) as (F & Hd1 & -> & Hu). apply map_disjoint_union_r in Hd as [Hd2 Hd3]. exists (H0 ∪ F).
    split; [apply map_disjoint_union_r_2; done|]. split.
    { rewrite !(assoc_L (∪)). f_equal. by apply map_union_comm. }
    intros H' Hd'. apply map_disjoint_union_r in Hd' as [Hd4 Hd5]. cbn. exists (H' ∪ F).
    split; [apply map_disjoint_union_r_2; done|]. split; [|by apply Hu].
    rewrite !(assoc_L (∪)). f_equal. by apply map_union_comm.
Qed.
Lemma pieces_get2 Hs M i j H Hj : pieces Hs M -> i <> j -> Hs !! i = Some H -> Hs !! j = Some Hj ->
  exists F, Hj ##ₘ F /\ H ##ₘ Hj ∪ F /\ M = H ∪ (Hj ∪ F) /\ forall Hj', Hj' ##ₘ F -> H ##ₘ Hj' ∪ F -> pieces (<[j := Hj']> Hs) (H ∪ (Hj' ∪ F)).
Proof.
  intros Hp Hne HH HHj. destruct (pieces_get Hs M i H Hp HH) as (F1 & D1 & E1 & U1).
  assert (Hi : i < length Hs) by (by eapply lookup_lt_Some).
  specialize (U1 ∅ (map_disjoint_empty_l _)) as U2. rewrite (left_id_L ∅ (∪)) in U2.
  destruct (pieces_get _ _ j Hj U2 ltac:(by rewrite list_lookup_insert_ne)) as (F & D2 & E2 & U3). exists F. subst F1 M.
  split; [done|]. split; [done|]. split; [done|]. intros Hj' D3 D4. specialize (U3 Hj' D3).
  destruct (pieces_get _ _ i ∅ U3) as (F2 & D5 & E5 & U5); [by rewrite list_lookup_insert_ne, list_lookup_insert by done|].
  rewrite (left_id_L ∅ (∪)) in E5. subst F2. specialize (U5 H D4).
  rewrite list_insert_commute, list_insert_insert in U5 by done. by rewrite (list_insert_id _ _ _ HH) in U5.
Qed.
Lemma pieces_add Hs : forall M, pieces Hs M -> pieces (Hs ++ [∅]) M.
Proof.
  induction Hs as [|H0 Hs IH]; intros M Hp; cbn in *.
  - subst M. exists ∅. split; [apply map_disjoint_empty_r|]. split; [by rewrite (left_id_L ∅ (∪))|done].
  - destruct Hp as (M' & Hd & -> & Hp). exists M'. split; [done|]. split; [done|]. by apply IH.
Qed.
Lemma pieces_size Hs : forall M, pieces Hs M -> size M = sum_list (size <$> Hs).
Proof.
  induction Hs as [|H0 Hs IH]; intros M Hp; cbn in *; [subst M; apply map_size_empty|].
  destruct Hp as (M' & Hd & -> & Hp). rewrite map_size_disj_union by done. by rewrite (IH M' Hp).
Qed.
End Pieces.

Section HashMem.
Context {K D : Type}.
Notation bheap := (gmap positive (bucket K D)).
Implicit Types (env : henv K D) (s : hst K D) (H F M : bheap).

(** The calls; a table is named by its number in the order of creation. *)
Inductive tcall :=
| TCreate (al : halloc K D) (env : henv K D)
| TCall (i : nat) (c : hcall K D)
| TCopy (al : halloc K D) (i j : nat)      (* hsh_iterate over table i, inserting every pair into table j *)
| TDestroy (i : nat).
Inductive tres := TDone | TRes (r : hres K D).

(** ** the model: one memory of nodes, and the table structures *)
Record hworld := HW { mem : bheap; tabs : list (option (table * henv K D)) }.
(** the iterator of TCopy *)
Definition copy_cb (env : henv K D) (al : halloc K D) : iterator K D table := fun k d '(s, tj) =>
  '(s', _) ← hsh_insert env al (MkH (heap s) tj) k d; Ret (MkH (heap s') (tab s), tab s', 0%Z).
Definition tstep (w : hworld) (c : tcall) : res (hworld * tres) :=
  match c with
  | TCreate al env => s ← hsh_create al; Ret (HW (mem w) (tabs w ++ [Some (tab s, env)]), TDone)
  | TCall i c => live (tabs w) i (fun '(t, env) =>
      '(s', r) ← hstep env (MkH (mem w) t) c; Ret (HW (heap s') (<[i := Some (tab s', env)]> (tabs w)), TRes r))
  | TCopy al i j => live (tabs w) i (fun '(t, env) => live (tabs w) j (fun '(tj, envj) =>
      '(s', tj', _) ← hsh_iterate (S (N.to_nat (prime t) + size (mem w))) (copy_cb envj al) (MkH (mem w) t) tj;
      Ret (HW (heap s') (<[j := Some (tj', envj)]> (<[i := Some (tab s', env)]> (tabs w))), TDone)))
  | TDestroy i => live (tabs w) i (fun '(t, env) =>
      H ← hsh_destroy (MkH (mem w) t); Ret (HW H (<[i := None]> (tabs w)), TDone))
  end.

(** ** the specification: a finite map, with its readonly flag, per table *)
Notation tspst := (list (option (henv K D * (list (K * D) * Z)))).
Definition tspec (g : tspst) (c : tcall) : res (tspst * tres) :=
  match c with
  | TCreate _ env => Ret (g ++ [Some (env, ([], 0%Z))], TDone)
  | TCall i c => live g i (fun '(env, m) =>
      '(m', r) ← hspec (cmpf env) (dnull env) m c; Ret (<[i := Some (env, m')]> g, TRes r))
  | TCopy _ i j => live g i (fun '(env, (m, _)) => live g j (fun '(envj, (mj, ro)) =>
      Ret (<[j := Some (envj, (filter (fun kd => afind (cmpf envj) kd.1 mj = None) m ++ mj, ro))]> g, TDone)))
  | TDestroy i => live g i (fun '(env, (m, ro)) => if (ro =? 0)%Z then Ret (<[i := None]> g, TDone) else Abort)
  end.
(** hash and compare of a table agree; the tables of TCopy have the same functions, and the second is not readonly; no table is used after it was destroyed; malloc returns fresh addresses *)
Definition tlegal (g : tspst) (c : tcall) : Prop :=
  match c with
  | TCreate al env => halloc_ok al /\ good env
  | TCall i c => alive g i /\ hlegal c
  | TCopy al i j => halloc_ok al /\ i <> j /\ exists env m r mj, g !! i = Some (Some (env, (m, r))) /\ g !! j = Some (Some (env, (mj, 0%Z)))
  | TDestroy i => alive g i
  end.
Definition tcan (c : tcall) : Prop := match c with TCreate al _ => can_fail al | TCall _ c => hcan c | TCopy al _ _ => can_fail al | TDestroy _ => False end.
Definition teq (r r' : tres) : Prop := match r, r' with TDone, TDone => True | TRes r, TRes r' => hres_eq r r' | _, _ => False end.

(** ** the relation *)
Definition one (H : bheap) (x : option (table * henv K D)) (y : option (henv K D * (list (K * D) * Z))) : Prop :=
  match x, y with
  | Some (t, env), Some (env', m) => env = env' /\ good env /\ hrel env (MkH H t) m
  | None, None => H = ∅
  | _, _ => False
  end.
Definition trel (w : hworld) (g : tspst) : Prop := exists Hs, pieces Hs (mem w) /\ length Hs = length g /\ length (tabs w) = length g /\
  forall i H x y, Hs !! i = Some H -> tabs w !! i = Some x -> g !! i = Some y -> one H x y.

(** ** one call on a table among others *)
Definition c_part F (c : hcall K D) : hcall K D := match c with HInsert al k d => HInsert (al_part F al) k d | _ => c end.
Lemma can_part F al : can_fail (al_part F al) -> can_fail al.
Proof. intros [(H & E)|(n & E)]; [left; by exists (H ∪ F)|right; by exists n]. Qed.
Lemma sim_acts env F acts : forall s s', parts F s s' -> sim (parts F) (run_acts env s (ARet <$> acts)) (run_acts env s' (ARet <$> acts)).
Proof.
  induction acts as [|k acts IH]; intros s s' Hp; [by apply sim_ret|]. cbn.
  eapply (sim_bind (parts F)); [|intros s1 s1' Hp1; by apply IH].
  eapply sim_bind; [by apply (sim_retrieve env F)|]. intros [s1 d] [s1' d'] [Hp1 _]. by apply sim_ret.
Qed.
Lemma sim_hstep env F s s' c : parts F s s' -> hlegal c -> sim (parts2 F) (hstep env s (c_part F c)) (hstep env s' c).
Proof.
  intros Hp Hl. assert (Hf : S (N.to_nat (prime (tab s)) + size (heap s)) <= S (N.to_nat (prime (tab s')) + size (heap s'))).
  { destruct Hp as [Hp ->]. apply part_size in Hp. lia. }
  destruct c as [al k d|k|k|f| |ks]; cbn [hstep c_part hlegal] in *.
  - eapply sim_bind; [by apply sim_insert|]. intros [s1 r] [s1' r'] [Hp1 E]. cbn in Hp1, E. subst r'. by apply sim_ret.
  - eapply sim_bind; [by apply (sim_delete env F)|]. intros [s1 r] [s1' r'] [Hp1 E]. cbn in Hp1, E. subst r'. by apply sim_ret.
  - eapply sim_bind; [by apply (sim_retrieve env F)|]. intros [s1 r] [s1' r'] [Hp1 E]. cbn in Hp1, E. subst r'. by apply sim_ret.
  - eapply sim_bind; [by apply (sim_readonly F)|]. intros [s1 r] [s1' r'] [Hp1 E]. cbn in Hp1, E. subst r'. by apply sim_ret.
  - eapply sim_bind; [apply (sim_iterate F)|].
    + intros k d s1 s1' u H1. unfold pure_cb, collect. by apply sim_ret.
    + exact Hp.
    + exact Hf.
    + intros [[s1 m] r] [[s1' m'] r'] (Hp1 & E & _). cbn in Hp1, E. subst m'. by apply sim_ret.
  - eapply sim_bind; [apply (sim_ITERATE env F)|].
    + intros k d s1 s1' u H1. unfold lookup_body, collect. eapply sim_bind; [by apply sim_acts|]. intros s2 s2' H2. by apply sim_ret.
    + exact Hp.
    + exact Hf.
    + intros [[s1 m] r] [[s1' m'] r'] (Hp1 & E & _). cbn in Hp1, E. subst m'. unfold HSH_ITERATE_END.
      eapply sim_bind; [by apply (sim_readonly F)|]. intros [s2 r2] [s2' r2'] [Hp2 _]. by apply sim_ret.
Qed.
(** ** iterating over a table while other parts of the memory change *)
Section Iter.
Context {U : Type} (cb : iterator K D U) (Inv : list (K * D) -> bheap -> U -> Prop) (fl : Prop) (H : bheap) (t : table).
Context (Hcb : forall k d seen M u, H ⊆ M -> Inv seen M u ->
  ok (fun '(s', u', r) => tab s' = t /\ H ⊆ heap s' /\ r = 0%Z /\ Inv (seen ++ [(k, d)]) (heap s') u') fl (cb k d (MkH M t, u))).
Lemma iter_chain_inv l : forall n p seen M u, row H p l -> length l < n -> H ⊆ M -> Inv seen M u ->
  ok (fun '(s', u', b) => tab s' = t /\ H ⊆ heap s' /\ b = false /\ Inv (seen ++ rpairs l) (heap s') u') fl (iter_chain n cb p (MkH M t, u)).
Proof using Hcb.
  induction l as [|[a e] l IH]; intros n p seen M u Hr Hn Hs Hi.
  - simpl in Hr. rewrite Hr. destruct n; cbn; by rewrite app_nil_r.
  - destruct n as [|n]; [simpl in Hn; lia|]. destruct Hr as (-> & nx & Ha & Hr). simpl in Hn.
    cbn [iter_chain]. cbn [fst heap]. rewrite (hget_Some _ _ _ (lookup_weaken _ _ _ _ Ha Hs)). rb. cbn [bkey bdatum bnext mkB].
    eapply ok_bind; [by apply Hcb|]. intros [[s1 u1] r] (E1 & E2 & -> & E3). cbn. destruct s1 as [M1 t1]. cbn in E1, E2, E3. subst t1.
    eapply ok_mono; [apply (IH n nx _ M1 u1 Hr ltac:(lia) E2 E3)| |done].
    intros [[s2 u2] b] (J1 & J2 & J3 & J4). split; [done|]. split; [done|]. split; [done|]. by rewrite <- app_assoc in J4.
Qed.
Lemma iter_rows_inv env L fuel : hinv env (MkH H t) L -> length (pairs L) < fuel -> forall n i seen M u,
  (i <= prime t)%N -> N.to_nat (prime t) - N.to_nat i < n -> H ⊆ M -> Inv seen M u ->
  ok (fun '(s', u', r) => tab s' = t /\ H ⊆ heap s' /\ r = 0%Z /\ Inv (seen ++ pairs (drop (N.to_nat i) L)) (heap s') u') fl (iter_rows n fuel cb i (MkH M t, u)).
Proof using Hcb.
  intros HI Hfuel. pose proof (hi_t _ _ _ HI) as HT. pose proof (ti_lenL _ _ _ _ HT) as HlenL. cbn [tab] in HlenL.
  induction n as [|n IH]; intros i seen M u Hi Hn Hs Hv; [lia|]. cbn [iter_rows fst tab].
  destruct (N.ltb_spec i (prime t)) as [Hlt|Hge].
  - destruct (row_of _ _ _ _ i HT Hlt) as (p & l & Hbp & HLl & Hrow & Hnd & _).
    cbn [tab heap] in Hbp, Hrow. rewrite (aget_Some _ _ _ Hbp). rb. rewrite (drop_S _ _ _ HLl), pairs_cons. eapply ok_bind.
    { apply (iter_chain_inv l fuel p seen M u Hrow); [|done|done].
      assert (length l <= length (pairs L)); [|lia].
      unfold pairs, ents. rewrite !fmap_length, (concat_delete L _ l HLl), app_length. lia. }
    intros [[s1 u1] b] (E1 & E2 & -> & E3). destruct s1 as [M1 t1]. cbn in E1, E2, E3. subst t1.
    eapply ok_mono; [apply (IH (i + 1)%N _ M1 u1 ltac:(lia) ltac:(lia) E2 E3)| |done].
    replace (N.to_nat (i + 1)) with (S (N.to_nat i)) by lia. intros [[s2 u2] r] (J1 & J2 & J3 & J4). by rewrite <- app_assoc in J4.
  - rewrite drop_ge by lia. cbn. by rewrite app_nil_r.
Qed.
Lemma iterate_inv env L fuel M u : hinv env (MkH H t) L -> N.to_nat (prime t) + length (pairs L) < fuel -> H ⊆ M -> Inv [] M u ->
  ok (fun '(s', u', r) => tab s' = t /\ H ⊆ heap s' /\ r = 0%Z /\ Inv (pairs L) (heap s') u') fl (hsh_iterate fuel cb (MkH M t) u).
Proof using Hcb.
  intros HI Hf Hs Hv. unfold hsh_iterate. cbn [tab]. rewrite (hsh_check_ok _ _ _ _ (hi_t _ _ _ HI) : hsh_check t = _). rb.
  eapply ok_mono; [apply (iter_rows_inv env L fuel HI ltac:(lia) fuel 0%N [] M u); [lia|lia|done|done]| |done].
  by intros [[s' u'] r].
Qed.
End Iter.
(** inserting pairs one after the other *)
Definition put (cmp : K -> K -> Z) (m : list (K * D)) (kd : K * D) : list (K * D) := match afind cmp kd.1 m with Some _ => m | None => kd :: m end.
Lemma put_perm env m m' kd : good env -> adistinct (cmpf env) m -> m ≡ₚ m' -> put (cmpf env) m kd ≡ₚ put (cmpf env) m' kd.
Proof. intros G Hd Hp. unfold put. assert (E : afind (cmpf env) kd.1 m = afind (cmpf env) kd.1 m') by (eapply afind_perm; [apply G|done|done]). rewrite E. destruct (afind _ _ m'); [done|by rewrite Hp]. Qed.
Lemma puts env l : good env -> adistinct (cmpf env) l -> forall m,
  fold_left (put (cmpf env)) l m ≡ₚ filter (fun kd => afind (cmpf env) kd.1 m = None) l ++ m.
Proof.
  intros G. induction l as [|[k d] l IH]; intros Hd m; [done|]. apply adistinct_cons in Hd as [Hd1 Hd2]. cbn [fold_left].
  destruct (afind (cmpf env) k m) eqn:E.
  - assert (Ep : put (cmpf env) m (k, d) = m) by (unfold put; cbn [fst]; by rewrite E). rewrite Ep, (IH Hd2).
    rewrite filter_cons_False by (cbn; congruence). done.
  - assert (Ep : put (cmpf env) m (k, d) = (k, d) :: m) by (unfold put; cbn [fst]; by rewrite E). rewrite Ep, (IH Hd2).
    rewrite filter_cons_True by done. rewrite <- Permutation_middle. cbn [app]. f_equiv. f_equiv.
    assert (Ef : forall kd, kd ∈ l -> afind (cmpf env) kd.1 ((k, d) :: m) = None <-> afind (cmpf env) kd.1 m = None).
    { intros kd Hin. cbn [afind]. specialize (Hd1 kd Hin). destruct (Z.eqb_spec (cmpf env k kd.1) 0); [|done]. exfalso. tauto. }
    clear -Ef. induction l as [|x l IH]; [done|]. specialize (IH (fun kd Hk => Ef kd (elem_of_list_further _ _ _ Hk))).
    specialize (Ef x (elem_of_list_here _ _)). destruct (decide (afind (cmpf env) x.1 m = None)) as [Hx|Hx].
    + rewrite filter_cons_True by tauto. rewrite filter_cons_True by done. by rewrite IH.
    + rewrite filter_cons_False by tauto. rewrite filter_cons_False by done. by rewrite IH.
Qed.
Lemma copy_step env al H F Hj t u k d seen mj : good env -> halloc_ok al -> Hj ##ₘ F -> H ##ₘ (Hj ∪ F) ->
  hrel env (MkH Hj u) (fold_left (put (cmpf env)) seen mj, 0%Z) ->
  ok (fun '(s', u', r) => tab s' = t /\ H ⊆ heap s' /\ r = 0%Z /\
        exists Hj', Hj' ##ₘ F /\ H ##ₘ (Hj' ∪ F) /\ heap s' = H ∪ (Hj' ∪ F) /\ hrel env (MkH Hj' u') (fold_left (put (cmpf env)) (seen ++ [(k, d)]) mj, 0%Z))
     (can_fail al) (copy_cb env al k d (MkH (H ∪ (Hj ∪ F)) t, u)).
Proof.
  intros G Hal D1 D2 R. pose proof (proj1 (map_disjoint_union_r _ _ _) D2) as [D3 D4].
  assert (EM : H ∪ (Hj ∪ F) = Hj ∪ (H ∪ F)) by (rewrite !(assoc_L (∪)); f_equal; by apply map_union_comm).
  assert (D5 : Hj ##ₘ H ∪ F) by (apply map_disjoint_union_r_2; done).
  pose proof (hstep_ok env (MkH Hj u) _ (HInsert (al_part (H ∪ F) al) k d) G R (al_part_ok _ _ Hal)) as E1.
  pose proof (sim_insert env (H ∪ F) al (MkH Hj u) (MkH (H ∪ (Hj ∪ F)) u) k d Hal ltac:(by split)) as E2.
  cbn [hstep hspec] in E1. rewrite Z.eqb_refl in E1. cbn [copy_cb heap tab].
  destruct (hsh_insert env (al_part (H ∪ F) al) (MkH Hj u) k d) as [[s1 r1]| | | |]; cbn in E1, E2.
  - destruct E2 as ([s1' r1'] & -> & [[Hd1 EM1] Et] & E). cbn in Hd1, EM1, Et, E. cbn. split; [done|].
    apply map_disjoint_union_r in Hd1 as [Hd2 Hd3].
    assert (EM2 : heap s1' = H ∪ (heap s1 ∪ F)) by (rewrite EM1, !(assoc_L (∪)); f_equal; by apply map_union_comm).
    split; [rewrite EM2; apply map_union_subseteq_l|]. split; [done|]. exists (heap s1). split; [done|]. split; [by apply map_disjoint_union_r_2|].
    split; [done|]. rewrite Et, fold_left_app. cbn [fold_left]. unfold put at 1. cbn [fst].
    destruct (afind (cmpf env) k (fold_left (put (cmpf env)) seen mj)) as [d0|]; destruct E1 as [R1 _], s1; exact R1.
  - rewrite E2. cbn. destruct (afind (cmpf env) k _); by apply (can_part (H ∪ F)).
  - by destruct (afind (cmpf env) k (fold_left (put (cmpf env)) seen mj)).
  - by destruct (afind (cmpf env) k (fold_left (put (cmpf env)) seen mj)).
  - by destruct (afind (cmpf env) k (fold_left (put (cmpf env)) seen mj)).
Qed.
Lemma rel_insert w g Hs i H' x' y' M : length Hs = length g -> length (tabs w) = length g -> i < length g ->
  (forall i H x y, Hs !! i = Some H -> tabs w !! i = Some x -> g !! i = Some y -> one H x y) ->
  pieces (<[i := H']> Hs) M -> one H' x' y' -> trel (HW M (<[i := x']> (tabs w))) (<[i := y']> g).
Proof.
  intros L1 L2 Hi Ho Hp H1. exists (<[i := H']> Hs). split; [done|]. cbn [tabs]. rewrite !insert_length. split; [done|]. split; [done|].
  intros j H x y Hj Hx Hy. destruct (decide (j = i)) as [->|Hne].
  - rewrite list_lookup_insert in Hj by lia. rewrite list_lookup_insert in Hx by lia. rewrite list_lookup_insert in Hy by lia. congruence.
  - rewrite list_lookup_insert_ne in Hj by congruence. rewrite list_lookup_insert_ne in Hx by congruence. rewrite list_lookup_insert_ne in Hy by congruence. by eapply Ho.
Qed.
Lemma tstep_ok w g c : trel w g -> tlegal g c -> call_ok teq tcan trel c (tstep w c) (tspec g c).
Proof.
  intros (Hs & Hp & L1 & L2 & Ho) Hl.
  assert (Hget : forall i, alive g i -> exists H t env m, Hs !! i = Some H /\ tabs w !! i = Some (Some (t, env)) /\ g !! i = Some (Some (env, m)) /\
    good env /\ hrel env (MkH H t) m /\ i < length g).
  { intros i [[env m] Hi]. assert (Hlt : i < length g) by (by eapply lookup_lt_Some).
    destruct (lookup_lt_is_Some_2 Hs i ltac:(lia)) as [H HH]. destruct (lookup_lt_is_Some_2 (tabs w) i ltac:(lia)) as [x Hx].
    specialize (Ho i H x _ HH Hx Hi). destruct x as [[t env']|]; [|done]. destruct Ho as (-> & G & R). by exists H, t, env, m. }
  destruct c as [al env|i c|al i j|i]; cbn [tlegal tstep tspec] in *.
  - destruct Hl as [Hal G]. pose proof (hsh_create_spec env al) as E. destruct (hsh_create al) as [s| | | |]; cbn [ok] in E; try done. cbn.
    split; [|done]. exists (Hs ++ [∅]). cbn [mem tabs]. split; [by apply pieces_add|]. rewrite !app_length, L1, L2. split; [done|]. split; [done|].
    intros j H x y Hj Hx Hy. apply snoc_lookup in Hj as [[Hj1 Hj]|[Hj1 <-]], Hx as [[Hx1 Hx]|[Hx1 <-]], Hy as [[Hy1 Hy]|[Hy1 <-]]; try lia; [by eapply Ho|].
    cbn. split; [done|]. split; [done|]. destruct E as [HI Ht]. exists [[]].
    assert (Eh : heap s = ∅).
    { apply map_eq. intros a. rewrite lookup_empty. destruct (heap s !! a) eqn:Ea; [|done]. exfalso.
      assert (Hin : a ∈ addrs (K := K) (D := D) [[]]) by (apply (hi_own _ _ _ HI); eauto). by apply elem_of_nil in Hin. }
    destruct s as [h t]. cbn in Eh, Ht |- *. subst h. split; [done|]. split; [done|]. by rewrite Ht.
  - destruct Hl as [Ha Hl]. destruct (Hget i Ha) as (H & t & env & m & HH & Ht & Hg & G & R & Hi).
    unfold live. rewrite Ht, Hg. destruct (pieces_get Hs _ i H Hp HH) as (F & Hd & EM & Hu).
    assert (Hl' : hlegal (c_part F c)) by (destruct c; cbn in *; [by apply al_part_ok|done..]).
    pose proof (hstep_ok env (MkH H t) m (c_part F c) G R Hl') as E1.
    pose proof (sim_hstep env F (MkH H t) (MkH (mem w) t) c ltac:(by split) Hl) as E2.
    assert (Es : hspec (cmpf env) (dnull env) m (c_part F c) = hspec (cmpf env) (dnull env) m c) by (destruct c; reflexivity). rewrite Es in E1.
    assert (Ec : hcan (c_part F c) -> hcan c) by (destruct c; cbn; [apply can_part|done..]).
    assert (Hn : hspec (cmpf env) (dnull env) m c <> UB).
    { destruct m as [m ro], c; cbn; try (destruct (ro =? 0)%Z); try done; by destruct (afind (cmpf env) k m). }
    destruct (hstep env (MkH H t) (c_part F c)) as [[s1 r1]| | | |], (hspec (cmpf env) (dnull env) m c) as [[m2 r2]| | | |]; cbn in E1; try done;
      cbn in E2; try (rewrite E2; cbn; try done; by apply Ec).
    destruct E2 as ([s1' r1'] & -> & [Hp1 Et] & E). cbn in Hp1, Et, E. subst r1'. destruct E1 as [R1 Er]. cbn. split; [|done].
    destruct Hp1 as [Hd1 EM1]. rewrite EM1, Et. eapply rel_insert; try done; [by apply Hu|]. cbn. split; [done|]. split; [done|]. destruct s1; done.
  - destruct Hl as (Hal & Hne & env0 & m0 & r0 & mj0 & Gi & Gj).
    destruct (Hget i ltac:(by eexists)) as (H & t & env & mi & HH & Ht & Hg & G & R & Hi). assert (Hg' := Hg). rewrite Gi in Hg'. injection Hg' as <- <-.
    destruct (Hget j ltac:(by eexists)) as (Hj & tj & envj & mj & HHj & Htj & Hgj & _ & Rj & Hlj). assert (Hg' := Hgj). rewrite Gj in Hg'. injection Hg' as <- <-.
    unfold live. rewrite Ht, Htj, Hg, Hgj. clear Hget.
    destruct (pieces_get Hs _ i H Hp HH) as (F1 & Hd1 & EM & Hu1).
    destruct (pieces_get2 Hs _ i j H Hj Hp Hne HH HHj) as (F & Hd2 & Hd3 & EM2 & Hu). clear F1 Hd1 EM Hu1.
    destruct R as (L & HI & Hm & Hro). cbn [fst snd tab] in Hm, Hro.
    set (Inv := fun (seen : list (K * D)) (M : bheap) (u : table) =>
      exists Hj', Hj' ##ₘ F /\ H ##ₘ (Hj' ∪ F) /\ M = H ∪ (Hj' ∪ F) /\ hrel env0 (MkH Hj' u) (fold_left (put (cmpf env0)) seen mj0, 0%Z)).
    pose proof (iterate_inv (copy_cb env0 al) Inv (can_fail al) H t) as E.
    specialize (E ltac:(
      intros k d seen M u _ (Hj' & D1 & D2 & -> & Rj');
      apply (copy_step env0 al H F Hj' t u k d seen mj0 G Hal D1 D2 Rj')) env0 L (S (N.to_nat (prime t) + size (mem w))) (mem w) tj HI).
    assert (Hsz : size H <= size (mem w)) by (rewrite EM2, map_size_disj_union by done; lia).
    rewrite (pairs_heap _ _ _ HI : size H = _) in Hsz. specialize (E ltac:(lia) ltac:(rewrite EM2; apply map_union_subseteq_l)).
    specialize (E ltac:(by exists Hj)).
    destruct (hsh_iterate _ _ _ _) as [[[s' u'] r]| | | |]; cbn [ok] in E; try done. destruct E as (E1 & E2 & -> & Hj' & D1 & D2 & E3 & Rj').
    cbn. split; [|done]. rewrite E1, E3, (list_insert_id _ _ _ Ht). eapply rel_insert; [exact L1|exact L2|exact Hlj|exact Ho|by apply Hu|].
    cbn. split; [done|]. split; [done|]. destruct Rj' as (L' & HI' & Hm' & Hro'). exists L'. split; [done|]. split; [|done]. cbn [fst] in *.
    rewrite Hm', puts by (done || apply HI). f_equiv. by rewrite Hm.
  - destruct (Hget i Hl) as (H & t & env & [m ro] & HH & Ht & Hg & G & R & Hi).
    unfold live. rewrite Ht, Hg. destruct (pieces_get Hs _ i H Hp HH) as (F & Hd & EM & Hu).
    pose proof (sim_hsh_destroy F (MkH H t) (MkH (mem w) t) ltac:(by split)) as E2.
    destruct R as (L & HI & _ & Hro). rewrite (hsh_destroy_spec env _ L HI) in E2. cbn [tab snd] in Hro, E2. rewrite Hro in E2.
    destruct (ro =? 0)%Z; cbn in E2; [|rewrite E2; done]. destruct E2 as (M' & -> & Hd' & ->). cbn. split; [|done].
    eapply rel_insert; try done. by apply Hu.
Qed.

(** the number of nodes in memory *)
Definition nodes (g : tspst) : nat := sum_list ((fun y => match y with Some (_, (m, _)) => length m | None => 0 end) <$> g).
Lemma tables_ok cs : lawful tspec tlegal [] cs ->
  refines teq tcan (fun w g => size (mem w) = nodes g) cs (run tstep (HW ∅ []) cs) (run tspec [] cs).
Proof.
  intros Hl. eapply refines_Q; [|apply (run_refines _ _ _ _ tlegal trel); [intros; by apply tstep_ok| |exact Hl]].
  - intros w g (Hs & Hp & L1 & L2 & Ho). rewrite (pieces_size _ _ Hp). unfold nodes. f_equal.
    apply list_eq. intros i. rewrite !list_lookup_fmap. destruct (Hs !! i) as [H|] eqn:HH.
    + assert (Hlt : i < length Hs) by (by eapply lookup_lt_Some).
      destruct (lookup_lt_is_Some_2 g i ltac:(lia)) as [y Hy]. destruct (lookup_lt_is_Some_2 (tabs w) i ltac:(lia)) as [x Hx]. rewrite Hy. cbn. f_equal.
      specialize (Ho i H x y HH Hx Hy). destruct x as [[t env]|], y as [[env' [m ro]]|]; try done.
      * destruct Ho as (-> & _ & L & HI & Hm & _). rewrite (pairs_heap _ _ _ HI : size H = _). by rewrite Hm.
      * cbn in Ho. rewrite Ho. apply map_size_empty.
    + apply lookup_ge_None in HH. rewrite (lookup_ge_None_2 g); [done|lia].
  - exists []. done.
Qed.
End HashMem.
Arguments tcall : clear implicits.
Arguments tres : clear implicits.
