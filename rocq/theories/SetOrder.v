(** C95 for sets: an ordered specification of sets that knows nothing of memory,
    and its refinement by the model, over whole programs. *)
From Verif Require Import Base Trace PrimeModel HashModel HashSpec HashProofs HashOps HashOps2 HashIter HashHist HashTop HashGrow HashTrace HashOrder HashStat SetModel SetSpec SetAlg SetProofs SetWorld SetHist SetTrace.
Local Open Scope nat_scope.

Notation keyed xs := ((fun k => (k, tt)) <$> xs).
Lemma keyed_elems {K} (L : list (list (positive * @ent K unit))) : keyed (elems L) = pairs L.
Proof. unfold elems. rewrite <- list_fmap_compose. rewrite <- (list_fmap_id (pairs L)) at 2. apply list_fmap_ext. intros i [k []] _. done. Qed.

Section SetOrder.
Context {K : Type}.
Notation halloc := (halloc K unit).
Notation world := (world K).
Notation gst := (@gst K).
Implicit Types (al : halloc) (w : world) (F : fns K).

(** ** The specification: of a live set its number of buckets, its elements in
    the order of iteration, its readonly flag, its functions and how often it
    grew and was asked ([counts], HashStat.v) *)
Record oset := OS { osize : N; oel : list K; oro : Z; ohid : positive; ocid : positive; ocn : counts }.
Notation oworld := (gmap positive oset).
Implicit Types (o : oset) (O : oworld).
Definition owith o p xs n : oset := OS p xs (oro o) (ohid o) (ocid o) n.
Definition oflag o f : oset := OS (osize o) (oel o) f (ohid o) (ocid o) (ocn o).
Definition ocmp F o : K -> K -> Z := fcmp F (ocid o).
(** the order after set_insert and set_member is that of a hash table with these
    keys and no data ([after_insert] in HashOrder.v, [after_lookup] in HashTop.v) *)
Definition oinsert F o k : res oset :=
  '(p, m) ← after_insert (fhash F (ohid o)) (ocmp F o) k tt (osize o) (keyed (oel o));
  Ret (owith o p m.*1 (if crowded (osize o) (keyed (oel o)) then grown (ocn o) else ocn o)).
Definition oinserts F (ks : list K) o : res oset := fold_left (fun r k => o ← r; oinsert F o k) ks (Ret o).
Definition odelete F o k : oset := owith o (osize o) (sremove (ocmp F o) k (oel o)) (ocn o).
Definition odeletes F (ks : list K) o : oset := fold_left (odelete F) ks o.
(** counting that [o] was asked for [k], and for all of [ks] *)
Definition oask F o (n : counts) (k : K) : counts := asked (fhash F (ohid o)) (ocmp F o) (osize o) (keyed (oel o)) n k.
Definition oasks F (ks : list K) o : oset := owith o (osize o) (oel o) (fold_left (oask F o) ks (ocn o)).
Definition omember F o k : oset :=
  owith o (osize o) (if decide (oro o = 0%Z) then (after_lookup (fhash F (ohid o)) (ocmp F o) (osize o) k (keyed (oel o))).*1 else oel o)
    (oask F o (ocn o) k).
Definition onew hid cid : oset := OS 1 [] 0 hid cid no_counts.
(** the elements of [xs] up to the first that is not in [ys] *)
Fixpoint until_missing (cmp : K -> K -> Z) (xs ys : list K) : list K :=
  match xs with [] => [] | k :: xs' => k :: (if smem cmp k ys then until_missing cmp xs' ys else []) end.

Definition oone O h (f : oset -> res (oworld * sres K)) : res (oworld * sres K) :=
  match O !! h with Some o => f o | None => UB end.
Definition osame o1 o2 : bool := bool_decide (ohid o1 = ohid o2) && bool_decide (ocid o1 = ocid o2).
Definition otwo O h1 h2 (f : oset -> oset -> res (oworld * sres K)) : res (oworld * sres K) :=
  oone O h1 (fun o1 => oone O h2 (fun o2 => if osame o1 o2 then f o1 o2 else Fatal)).
Definition owritable o (r : res (oworld * sres K)) : res (oworld * sres K) := if (oro o =? 0)%Z then r else Abort.
Definition soset O h (r : res oset) : res (oworld * sres K) := o ← r; Ret (<[h := o]> O, SDone).
Definition sospec F O (c : scall K) : res (oworld * sres K) :=
  match c with
  | SCreate _ h hid cid => Ret (<[h := onew hid cid]> O, SDone)
  | SInsert _ h k => oone O h (fun o => owritable o
      (o' ← oinsert F o k; Ret (<[h := o']> O, SInt (if smem (ocmp F o) k (oel o) then 1 else 0))))
  | SDelete h k => oone O h (fun o => owritable o
      (Ret (<[h := odelete F o k]> O, SInt (if smem (ocmp F o) k (oel o) then 0 else 1))))
  | SMember h k => oone O h (fun o => Ret (<[h := omember F o k]> O, SInt (if smem (ocmp F o) k (oel o) then 1 else 0)))
  | SReadonly h f => oone O h (fun o => Ret (<[h := oflag o f]> O, SInt (oro o)))
  | SCount h => oone O h (fun o => Ret (O, SInt (Z.of_nat (length (oel o)))))
  | SIterate h => oone O h (fun o => Ret (O, SElems (oel o)))
  | SAdd _ h1 h2 => otwo O h1 h2 (fun o1 o2 => if decide (oel o2 = []) then Ret (O, SDone) else
      owritable o1 (soset O h1 (oinserts F (oel o2) o1)))
  | SDel h1 h2 => otwo O h1 h2 (fun o1 o2 => if decide (oel o2 = []) then Ret (O, SDone) else
      owritable o1 (soset O h1 (Ret (odeletes F (oel o2) o1))))
  | SUnion _ h h1 h2 => otwo O h1 h2 (fun o1 o2 =>
      soset O h (o ← oinserts F (oel o1) (onew (ohid o1) (ocid o1)); oinserts F (oel o2) o))
  | SInter _ h h1 h2 => otwo O h1 h2 (fun o1 o2 =>
      soset (<[h2 := oasks F (oel o1) o2]> O) h (oinserts F (filter (fun k => smem (ocmp F o1) k (oel o2) = true) (oel o1)) (onew (ohid o1) (ocid o1))))
  | SDiff _ h h1 h2 => otwo O h1 h2 (fun o1 o2 =>
      soset (<[h2 := oasks F (oel o1) o2]> O) h (oinserts F (filter (fun k => smem (ocmp F o1) k (oel o2) = false) (oel o1)) (onew (ohid o1) (ocid o1))))
  | SEqual h1 h2 => otwo O h1 h2 (fun o1 o2 =>
      Ret (if decide (length (oel o1) = length (oel o2)) then <[h2 := oasks F (until_missing (ocmp F o1) (oel o1) (oel o2)) o2]> O else O,
           SInt (if included (ocmp F o1) (oel o1) (oel o2) && included (ocmp F o1) (oel o2) (oel o1) then 1 else 0)))
  | SDestroy h => oone O h (fun o => owritable o (Ret (delete h O, SDone)))
  end.

(** ** The representation *)
Definition gof o : gst := GS (oel o) (oro o) (ohid o) (ocid o).
Definition orep1 F x o : Prop := exists L,
  hinv (wenv F x) (ws x) L /\ good (wenv F x) /\ elems L = oel o /\ prime (tab (ws x)) = osize o /\
  readonly (tab (ws x)) = oro o /\ whid x = ohid o /\ wcid x = ocid o /\ counted (tab (ws x)) (ocn o).
Definition orep F w O : Prop := forall h, option_Forall2 (orep1 F) (w !! h) (O !! h).
(** the calls a program may make, as in SetTrace.v *)
Definition solegal F O (c : scall K) : Prop := slegal F (gof <$> O) c.

Lemma orep_wrep F w O : orep F w O -> wrep F w (gof <$> O).
Proof.
  intros HO h. rewrite lookup_fmap. destruct (HO h) as [x o (L & J1 & J2 & J3 & _ & J4 & J5 & J6 & _)|]; constructor.
  exists L. cbn [gof gel gro ghid gcid]. rewrite J3. done.
Qed.
Lemma orep_lookup F w O h o : orep F w O -> O !! h = Some o -> exists x, w !! h = Some x /\ orep1 F x o.
Proof. intros Hw Hy. specialize (Hw h). rewrite Hy in Hw. inversion Hw. eauto. Qed.
Lemma orep_insert F w O h x o : orep F w O -> orep1 F x o -> orep F (<[h := x]> w) (<[h := o]> O).
Proof.
  intros Hw Hr i. destruct (decide (i = h)) as [->|Hne].
  - rewrite !lookup_insert. by constructor.
  - rewrite !lookup_insert_ne by done. apply Hw.
Qed.
Lemma orep1_cmp F x o : orep1 F x o -> cmpf (wenv F x) = ocmp F o.
Proof. intros (L & _ & _ & _ & _ & _ & _ & H & _). unfold ocmp. simpl. by rewrite H. Qed.
Lemma orep1_hash F x o : orep1 F x o -> hashf (wenv F x) = fhash F (ohid o).
Proof. intros (L & _ & _ & _ & _ & _ & H & _). simpl. by rewrite H. Qed.
Lemma keyed_fst (m : list (K * unit)) : keyed m.*1 = m.
Proof. rewrite <- list_fmap_compose. rewrite <- (list_fmap_id m) at 2. apply list_fmap_ext. intros i [k []] _. done. Qed.

(** ** Calls on one set *)
Lemma ow_insert F al w O h o k :
  orep F w O -> O !! h = Some o -> halloc_ok al -> oro o = 0%Z ->
  ok (fun '(w', r) => exists o', oinsert F o k = Ret o' /\ r = (if smem (ocmp F o) k (oel o) then 1%Z else 0%Z) /\
        orep F w' (<[h := o']> O) /\ (forall h', h' <> h -> w' !! h' = w !! h'))
     (can_fail al) (w_insert F al w h k).
Proof.
  intros Hw Hy Hal Hro. destruct (orep_lookup _ _ _ _ _ Hw Hy) as (x & Hx & Hr).
  pose proof (orep1_cmp _ _ _ Hr) as Hc. pose proof (orep1_hash _ _ _ Hr) as Hh. destruct Hr as (L & HI & G & Hp & Hs & Hf & H1 & H2 & Hn).
  unfold w_insert. rewrite (hget_Some _ _ _ Hx). rb.
  eapply (ok_bind (fun '(s', r) => exists L', hinv (wenv F x) s' L' /\ readonly (tab s') = 0%Z /\
     r = (match afind (cmpf (wenv F x)) k (pairs L) with Some _ => 1 | None => 0 end)%Z /\
     after_insert (hashf (wenv F x)) (cmpf (wenv F x)) k tt (prime (tab (ws x))) (pairs L) = Ret (prime (tab s'), pairs L') /\
     counted (tab s') (if crowded (prime (tab (ws x))) (pairs L) then grown (ocn o) else ocn o))).
  - eapply fits_ok; [apply set_insert_fits|].
    eapply ok_mono; [apply ok_both; [apply (insert_order (wenv F x) (hal al) (ws x) L k tt HI G (hal_ok _ Hal)); congruence|
       apply (insert_counted (wenv F x) (hal al) (ws x) L k tt (ocn o) HI G (hal_ok _ Hal)); [congruence|exact Hn]]| |apply hal_fail].
    intros [s' r] [(L' & J1 & J2 & J3 & J4) J5]. exists L'. done.
  - intros [s' r] (L' & J1 & J2 & -> & J4 & J5). unfold upd. rewrite (hget_Some _ _ _ Hx). rb. cbn [ok].
    exists (owith o (prime (tab s')) (elems L') (if crowded (osize o) (keyed (oel o)) then grown (ocn o) else ocn o)). split; [|split; [|split]].
    + unfold oinsert. rewrite <- Hc, <- Hh, <- Hp, keyed_elems, <- Hs, J4. done.
    + rewrite <- Hc, <- Hp. unfold elems. rewrite smem_afind. destruct (afind _ _ _); done.
    + apply orep_insert; [done|]. exists L'. cbn [ws whid wcid owith oel osize oro ohid ocid ocn].
      split; [exact J1|]. split; [exact G|]. split; [done|]. split; [done|]. split; [congruence|]. rewrite <- Hp, keyed_elems, <- Hs. done.
    + intros h' Hne. by rewrite lookup_insert_ne.
Qed.

Lemma ow_delete F w O h o k :
  orep F w O -> O !! h = Some o -> oro o = 0%Z ->
  exists w', w_delete F w h k = Ret (w', if smem (ocmp F o) k (oel o) then 0%Z else 1%Z) /\
    orep F w' (<[h := odelete F o k]> O) /\ (forall h', h' <> h -> w' !! h' = w !! h').
Proof.
  intros Hw Hy Hro. destruct (orep_lookup _ _ _ _ _ Hw Hy) as (x & Hx & Hr).
  pose proof (orep1_cmp _ _ _ Hr) as Hc. destruct Hr as (L & HI & G & Hp & Hs & Hf & H1 & H2 & Hn).
  unfold w_delete. rewrite (hget_Some _ _ _ Hx). rb.
  destruct (hsh_delete_spec (wenv F x) (ws x) L k HI G ltac:(congruence)) as (s' & r & L' & E & J1 & J2 & J3 & N1 & N2 & N3 & J4 & N4).
  rewrite (fits_Ret _ _ _ (set_delete_fits _ _ k) E). rb. unfold upd. rewrite (hget_Some _ _ _ Hx). rb.
  assert (Hel : elems L' = sremove (ocmp F o) k (oel o) /\ r = (if smem (ocmp F o) k (oel o) then 0%Z else 1%Z)).
  { rewrite <- Hc, <- Hp. unfold elems. rewrite sremove_aremove, smem_afind. destruct (afind (cmpf (wenv F x)) k (pairs L)) eqn:Ef.
    - destruct J2 as (-> & -> & _). done.
    - destruct J2 as (-> & _ & ->). split; [|done]. f_equal. symmetry. apply aremove_None. by apply afind_None. }
  destruct Hel as [Hel ->]. eexists. split; [done|]. split.
  - apply orep_insert; [done|]. exists L'. cbn [ws whid wcid odelete owith oel osize oro ohid ocid ocn].
    split; [exact J1|]. split; [exact G|]. split; [done|]. split; [congruence|]. split; [congruence|]. split; [done|]. split; [done|].
    unfold counted. rewrite N1, N2, N3, N4. exact Hn.
  - intros h' Hne. by rewrite lookup_insert_ne.
Qed.

Lemma ow_member F w O h o k :
  orep F w O -> O !! h = Some o ->
  exists w', w_member F w h k = Ret (w', if smem (ocmp F o) k (oel o) then 1%Z else 0%Z) /\
    orep F w' (<[h := omember F o k]> O) /\ (forall h', h' <> h -> w' !! h' = w !! h') /\
    (oro o <> 0%Z -> forall x, w !! h = Some x -> exists x', w' !! h = Some x' /\ undisturbed x x').
Proof.
  intros Hw Hy. assert (Hg : (gof <$> O) !! h = Some (gof o)) by (by rewrite lookup_fmap, Hy).
  destruct (w_member_spec F w _ h _ k (orep_wrep _ _ _ Hw) Hg) as (w' & E & _ & H1 & H2). exists w'.
  split; [exact E|]. split; [|done].
  destruct (orep_lookup _ _ _ _ _ Hw Hy) as (x & Hx & Hr).
  pose proof (orep1_cmp _ _ _ Hr) as Hc. pose proof (orep1_hash _ _ _ Hr) as Hh. destruct Hr as (L & HI & G & Hp & Hs & Hf & A1 & A2 & Hn).
  unfold w_member in E. rewrite (hget_Some _ _ _ Hx) in E. cbn [mbind res_bind] in E.
  destruct (retrieve_order (wenv F x) (ws x) L k HI G) as (s1 & L' & E1 & J1 & J2 & J3 & _).
  destruct (hsh_retrieve_spec (wenv F x) (ws x) L k HI G) as (s2 & L2 & E2 & _ & _ & _ & _ & J4 & _).
  rewrite E1 in E2. injection E2 as <-.
  destruct (set_member_as_retrieve _ _ _ _ _ E1) as (r & E3 & _). rewrite E3 in E. cbn [mbind res_bind] in E.
  unfold upd in E. rewrite (hget_Some _ _ _ Hx) in E. cbn [mbind res_bind] in E. injection E as <- _.
  apply orep_insert; [done|]. exists L'. cbn [ws whid wcid]. split; [exact J1|]. split; [exact G|]. unfold omember.
  pose proof (retrieve_counted _ _ L k _ _ _ HI G Hn E1) as Hn'. rewrite Hh, Hc, Hs, <- keyed_elems, Hp in Hn'.
  rewrite Hf in J3. destruct (decide (oro o = 0%Z)); cbn [owith oel osize oro ohid ocid ocn].
  - split; [|split; [congruence|split; [congruence|done]]]. unfold elems. by rewrite J3, Hh, Hc, Hs, <- Hp, keyed_elems.
  - split; [|split; [congruence|split; [congruence|done]]]. unfold elems. rewrite J3. exact Hp.
Qed.

Lemma ow_set_ro F w O h o f :
  orep F w O -> O !! h = Some o ->
  exists x, w !! h = Some x /\ w_set_ro w h f = Ret (<[h := WS (with_ro (ws x) f) (whid x) (wcid x)]> w) /\
    orep F (<[h := WS (with_ro (ws x) f) (whid x) (wcid x)]> w) (<[h := oflag o f]> O) /\
    readonly (tab (ws x)) = oro o.
Proof.
  intros Hw Hy. destruct (orep_lookup _ _ _ _ _ Hw Hy) as (x & Hx & L & HI & G & Hp & Hs & Hf & H1 & H2 & Hn).
  exists x. split; [done|]. unfold w_set_ro, upd. rewrite (hget_Some _ _ _ Hx). rb. split; [done|]. split; [|done].
  apply orep_insert; [done|]. exists L. cbn [ws whid wcid oflag oel osize oro ohid ocid ocn].
  split; [by apply (hinv_flag _ (ws x))|]. done.
Qed.

Lemma ow_create F al w O h hid cid :
  orep F w O -> O !! h = None -> good (HE (fhash F hid) (fcmp F cid) tt) ->
  ok (fun w' => orep F w' (<[h := onew hid cid]> O) /\ (forall h', h' <> h -> w' !! h' = w !! h'))
     (can_fail al) (w_create al w h hid cid).
Proof.
  intros Hw Hy G. unfold w_create.
  eapply ok_bind; [apply (set_create_spec (HE (fhash F hid) (fcmp F cid) tt))|].
  intros s [HI Ht]. assert (Hn : w !! h = None) by (specialize (Hw h); rewrite Hy in Hw; by inversion Hw). rewrite Hn. cbn [ok]. split.
  - apply orep_insert; [done|]. exists [[]]. cbn [ws whid wcid onew oel osize oro ohid ocid ocn].
    split; [exact HI|]. split; [exact G|]. rewrite Ht. done.
  - intros h' Hne. by rewrite lookup_insert_ne.
Qed.

(** ** Loops *)
Lemma oasks_app F ks k o : omember F (oflag (oasks F ks o) 1) k = oflag (oasks F (ks ++ [k]) o) 1.
Proof. unfold oasks, omember, oflag, owith. cbn. unfold oask at 1. cbn. by rewrite fold_left_app. Qed.

Lemma oinsert_ids F o k o' : oinsert F o k = Ret o' -> oro o' = oro o /\ ohid o' = ohid o /\ ocid o' = ocid o.
Proof. unfold oinsert. destruct (after_insert _ _ _ _ _ _) as [[p m]| | | |]; cbn [mbind res_bind]; try discriminate. intros [= <-]. done. Qed.

(** inserting into [hd] while walking another set *)
Lemma owalk_insert F al fuel w O hs os hd od :
  orep F w O -> O !! hs = Some os -> O !! hd = Some od -> hs <> hd -> halloc_ok al -> oro od = 0%Z ->
  enough w hs (gof os) fuel ->
  ok (fun '(w', _) => exists od', oinserts F (oel os) od = Ret od' /\ oro od' = 0%Z /\ ohid od' = ohid od /\ ocid od' = ocid od /\
        orep F w' (<[hd := od']> O) /\ (forall h', h' <> hd -> w' !! h' = w !! h'))
     (can_fail al) (walk (getset hs) (ins_body F al hd) fuel w).
Proof.
  intros Hw Hs Hd Hne Hal Hro Hf. destruct (orep_lookup _ _ _ _ _ Hw Hs) as (xs & Hxs & L & HI & G & Hp & _).
  set (Inv := fun (w' : world) (r : res oset) => exists od', r = Ret od' /\ oro od' = 0%Z /\ ohid od' = ohid od /\ ocid od' = ocid od /\
     orep F w' (<[hd := od']> O) /\ (forall h', h' <> hd -> w' !! h' = w !! h')).
  assert (Hb : forall k w' r, Inv w' r -> ok (fun '(w'', b) => b = false /\ Inv w'' (o ← r; oinsert F o k)) (can_fail al) (ins_body F al hd k w')).
  { intros k w' r (o1 & -> & Q1 & Q2 & Q3 & Q4 & Q5). unfold ins_body.
    eapply ok_bind; [apply (ow_insert F al w' _ hd o1 k Q4); [by rewrite lookup_insert|done|done]|].
    intros [w'' z] (o2 & E & _ & R1 & R2). cbn [ok]. split; [done|]. cbn [mbind res_bind]. exists o2. split; [exact E|].
    apply oinsert_ids in E as (-> & -> & ->). split; [done|]. split; [done|]. split; [done|]. rewrite insert_insert in R1. split; [done|].
    intros h' Hh'. rewrite R2 by done. auto. }
  assert (H0 : Inv w (Ret od)).
  { exists od. repeat (split; [done|]). rewrite insert_id by done. done. }
  rewrite (walk_vfold (getset hs) (ins_body F al hd) (fun w' => exists r, Inv w' r) (ws xs)) with (env := wenv F xs) (L := L).
  - rewrite Hp. eapply ok_mono; [apply (vfold_inv (ins_body F al hd) _ Inv (fun r k => o ← r; oinsert F o k) Hb (oel os) w (Ret od) H0)| |done].
    intros [w' b] (_ & Hi). exact Hi.
  - intros w' (r & o1 & _ & _ & _ & _ & _ & Q). apply walked_frozen. exists xs. rewrite Q by done. split; [done|apply undisturbed_refl].
  - intros k w' [w'' b] (r & Q) Er. pose proof (Hb k w' r Q) as Hb'. rewrite Er in Hb'. destruct Hb' as [_ Q']. simpl. eauto.
  - done.
  - rewrite Hp. by apply (Hf xs).
  - eauto.
Qed.
Lemma odelete_ids F o k : oro (odelete F o k) = oro o /\ ohid (odelete F o k) = ohid o /\ ocid (odelete F o k) = ocid o.
Proof. done. Qed.
Lemma owalk_delete F fuel w O hs os hd od :
  orep F w O -> O !! hs = Some os -> O !! hd = Some od -> hs <> hd -> oro od = 0%Z ->
  enough w hs (gof os) fuel ->
  ok (fun '(w', _) => orep F w' (<[hd := odeletes F (oel os) od]> O)) False (walk (getset hs) (del_body F hd) fuel w).
Proof.
  intros Hw Hs Hd Hne Hro Hf. destruct (orep_lookup _ _ _ _ _ Hw Hs) as (xs & Hxs & L & HI & G & Hp & _).
  set (Inv := fun (w' : world) (o : oset) => oro o = 0%Z /\
     orep F w' (<[hd := o]> O) /\ (forall h', h' <> hd -> w' !! h' = w !! h')).
  assert (Hb : forall k w' o, Inv w' o -> ok (fun '(w'', b) => b = false /\ Inv w'' (odelete F o k)) False (del_body F hd k w')).
  { intros k w' o1 (Q1 & Q4 & Q5). unfold del_body.
    destruct (ow_delete F w' _ hd o1 k Q4 ltac:(by rewrite lookup_insert) Q1) as (w'' & -> & R1 & R2). rb. cbn [ok]. split; [done|].
    split; [done|]. rewrite insert_insert in R1. split; [done|]. intros h' Hh'. rewrite R2 by done. auto. }
  assert (H0 : Inv w od).
  { split; [done|]. rewrite insert_id by done. done. }
  rewrite (walk_vfold (getset hs) (del_body F hd) (fun w' => exists r, Inv w' r) (ws xs)) with (env := wenv F xs) (L := L).
  - rewrite Hp. eapply ok_mono; [apply (vfold_inv (del_body F hd) _ Inv (odelete F) Hb (oel os) w od H0)| |done].
    intros [w' b] (_ & _ & Hi & _). exact Hi.
  - intros w' (o1 & _ & _ & Q). apply walked_frozen. exists xs. rewrite Q by done. split; [done|apply undisturbed_refl].
  - intros k w' [w'' b] (r & Q) Er. pose proof (Hb k w' r Q) as Hb'. rewrite Er in Hb'. destruct Hb' as [_ Q']. simpl. eauto.
  - done.
  - rewrite Hp. by apply (Hf xs).
  - eauto.
Qed.

(** ** set_inter and set_diff *)
Definition osel F (keep : bool) (o2 : oset) (r : res oset) (k : K) : res oset :=
  if Bool.eqb (smem (ocmp F o2) k (oel o2)) keep then o ← r; oinsert F o k else r.
Lemma osel_fold F keep o2 ks : forall r,
  fold_left (osel F keep o2) ks r = fold_left (fun r k => o ← r; oinsert F o k) (filter (fun k => smem (ocmp F o2) k (oel o2) = keep) ks) r.
Proof.
  induction ks as [|k ks IH]; intros r; [done|]. cbn [fold_left]. rewrite IH. unfold osel.
  destruct (smem (ocmp F o2) k (oel o2)) eqn:E, keep; cbn [Bool.eqb].
  - by rewrite filter_cons_True.
  - rewrite filter_cons_False by congruence. done.
  - rewrite filter_cons_False by congruence. done.
  - by rewrite filter_cons_True.
Qed.

Lemma oset_inter_diff keep F al fuel w O h h1 h2 o1 o2 :
  orep F w O -> O !! h1 = Some o1 -> O !! h2 = Some o2 -> O !! h = None -> same_ids (gof o1) (gof o2) ->
  halloc_ok al -> enough w h1 (gof o1) fuel ->
  ok (fun w' => exists o', oinserts F (filter (fun k => smem (ocmp F o1) k (oel o2) = keep) (oel o1)) (onew (ohid o1) (ocid o1)) = Ret o' /\
        orep F w' (<[h := o']> (<[h2 := oasks F (oel o1) o2]> O)))
     (can_fail al) (set_inter_diff keep F al fuel w h h1 h2).
Proof.
  intros Hw E1 E2 E Hid Hal Hf1. unfold set_inter_diff. pose proof (orep_wrep _ _ _ Hw) as Hwr.
  assert (G1 : (gof <$> O) !! h1 = Some (gof o1)) by (by rewrite lookup_fmap, E1).
  assert (G2 : (gof <$> O) !! h2 = Some (gof o2)) by (by rewrite lookup_fmap, E2).
  rewrite (proj1 (same_fns_spec F w _ h1 h2 _ _ Hwr G1 G2) Hid). rb.
  destruct (orep_lookup _ _ _ _ _ Hw E1) as (x1 & Hx1 & L1 & HI1 & Gd1 & Hp1 & Hs1 & Hr1 & I1 & I2 & Cn1).
  destruct (orep_lookup _ _ _ _ _ Hw E2) as (x2 & Hx2 & L2 & HI2 & Gd2 & Hp2 & Hs2 & Hr2 & I3 & I4 & Cn2).
  rewrite (hget_Some _ _ _ Hx1). rb. rewrite (hget_Some _ _ _ Hx2). rb. rewrite I1, I2.
  assert (Gn : good (HE (fhash F (ohid o1)) (fcmp F (ocid o1)) tt)) by (unfold wenv in Gd1; by rewrite I1, I2 in Gd1).
  eapply ok_bind; [by apply (ow_create F al w O)|]. intros w0 [Hw0 Hsame0].
  assert (Hn1 : h1 <> h) by congruence. assert (Hn2 : h2 <> h) by congruence.
  set (y0 := onew (ohid o1) (ocid o1)) in *.
  assert (E2' : <[h := y0]> O !! h2 = Some o2) by (by rewrite lookup_insert_ne).
  destruct (ow_set_ro F w0 _ h2 o2 1 Hw0 E2') as (x2' & Hx2' & -> & Hw1 & _). rb.
  rewrite Hsame0 in Hx2' by done. rewrite Hx2 in Hx2'. injection Hx2' as <-.
  set (xr := WS (with_ro (ws x2) 1) (whid x2) (wcid x2)) in *.
  set (w1 := <[h2 := xr]> w0) in *.
  set (O1 := fun ks => <[h2 := oflag (oasks F ks o2) 1]> O).
  rewrite insert_commute in Hw1 by done.
  assert (Hw1' : orep F w1 (<[h := y0]> (O1 []))) by (unfold O1; replace (oasks F [] o2) with o2 by (by destruct o2); exact Hw1). clear Hw1. rename Hw1' into Hw1.
  assert (exists x1', w1 !! h1 = Some x1' /\ hinv (wenv F x1') (ws x1') L1 /\
                      prime (tab (ws x1')) = prime (tab (ws x1))) as (x1' & Hx1' & HI1' & Hpr).
  { unfold w1. destruct (decide (h1 = h2)) as [->|Hne].
    - rewrite lookup_insert. exists xr. split; [done|]. rewrite Hx1 in Hx2. injection Hx2 as <-.
      split; [|done]. by apply (hinv_flag _ (ws x1)).
    - rewrite lookup_insert_ne by done. rewrite Hsame0 by done. eauto. }
  set (Inv := fun (w' : world) (rk : res oset * list K) => exists o', rk.1 = Ret o' /\ oro o' = 0%Z /\
     orep F w' (<[h := o']> (O1 rk.2)) /\ walked h1 x1' w' /\ walked h2 xr w').
  set (body := fun k w => _).
  assert (Hc : ocmp F o2 = ocmp F o1) by (unfold ocmp; destruct Hid as [_ Hid]; cbn in Hid; by rewrite Hid).
  set (op := fun (rk : res oset * list K) k => (osel F keep o2 rk.1 k, rk.2 ++ [k])).
  assert (Hbody : forall k w' r, Inv w' r ->
     ok (fun '(w'', b) => b = false /\ Inv w'' (op r k)) (can_fail al) (body k w')).
  { intros k w' [r ks] (o' & Er' & Q0 & Q1 & (xa & Qa & Ua) & (xb & Qb & Ub)). unfold body.
    cbn [fst snd] in Er', Q1. subst r.
    assert (Eg : <[h := o']> (O1 ks) !! h2 = Some (oflag (oasks F ks o2) 1)).
    { rewrite lookup_insert_ne by done. unfold O1. by rewrite lookup_insert. }
    destruct (ow_member F w' _ h2 _ k Q1 Eg) as (w2 & -> & R1 & R2 & R3). rb.
    rewrite oasks_app, insert_commute in R1 by done. unfold O1 in R1. rewrite insert_insert in R1. fold (O1 (ks ++ [k])) in R1.
    change (ocmp F (oflag (oasks F ks o2) 1)) with (ocmp F o2). change (oel (oflag (oasks F ks o2) 1)) with (oel o2).
    destruct (R3 ltac:(done) xb Qb) as (xb' & Qb' & Ub'). clear R3.
    assert (W2 : walked h2 xr w2) by (exists xb'; split; [done|]; by eapply undisturbed_trans).
    assert (W1 : walked h1 x1' w2).
    { destruct (decide (h1 = h2)) as [->|Hne].
      - exists xb'. split; [done|]. rewrite Qa in Qb. injection Qb as ->. by eapply undisturbed_trans.
      - exists xa. rewrite R2 by done. done. }
    unfold op, osel. cbn [fst snd]. replace (negb ((if smem (ocmp F o2) k (oel o2) then 1%Z else 0%Z) =? 0)%Z)
      with (smem (ocmp F o2) k (oel o2)) by (by destruct (smem _ _ _)).
    destruct (Bool.eqb (smem (ocmp F o2) k (oel o2)) keep).
    2:{ cbn [ok]. split; [done|]. exists o'. done. }
    eapply ok_bind; [apply (ow_insert F al w2 _ h o' k R1); [by rewrite lookup_insert|done|done]|].
    intros [w3 z] (o'' & Eo & _ & T1 & T2). cbn [ok]. split; [done|].
    rewrite insert_insert in T1. exists o''. cbn [fst snd]. split; [exact Eo|]. apply oinsert_ids in Eo as (-> & _). split; [done|]. split; [exact T1|]. split.
    - destruct W1 as (x & ? & ?). exists x. rewrite T2 by done. done.
    - destruct W2 as (x & ? & ?). exists x. rewrite T2 by done. done. }
  assert (Hinv1 : Inv w1 (Ret y0, [])).
  { exists y0. split; [done|]. split; [done|]. split; [exact Hw1|]. split; [exists x1'; split; [done|apply undisturbed_refl]|].
    exists xr. unfold w1. rewrite lookup_insert. split; [done|apply undisturbed_refl]. }
  rewrite (walk_vfold (getset h1) body (fun w' => exists r, Inv w' r) (ws x1'))
    with (env := wenv F x1') (L := L1).
  - rewrite Hp1. eapply ok_bind; [apply (vfold_inv body _ Inv op Hbody (oel o1) w1 (Ret y0, []) Hinv1)|].
    assert (Hop : forall l r ks, fold_left op l (r, ks) = (fold_left (osel F keep o2) l r, ks ++ l)).
    { induction l as [|k l IH]; intros r ks; [by rewrite app_nil_r|]. cbn [fold_left]. unfold op at 2. cbn [fst snd]. rewrite IH, <- app_assoc. done. }
    rewrite Hop. cbn [app].
    intros [w2 b] (_ & o' & Ef & _ & Q1 & _ & _). cbn [fst snd] in Ef, Q1.
    assert (Eg : <[h := o']> (O1 (oel o1)) !! h2 = Some (oflag (oasks F (oel o1) o2) 1)).
    { rewrite lookup_insert_ne by done. unfold O1. by rewrite lookup_insert. }
    destruct (ow_set_ro F w2 _ h2 _ (readonly (tab (ws x2))) Q1 Eg) as (xc & Hxc & -> & Hw3 & _).
    cbn [ok]. exists o'. split.
    + rewrite osel_fold, Hc in Ef. exact Ef.
    + revert Hw3. unfold O1. rewrite (insert_commute _ h h2) by done. rewrite insert_insert.
      unfold oflag. cbn [oasks owith oel osize oro ohid ocid ocn]. rewrite Hr2.
      rewrite (insert_commute _ h2 h) by done. done.
  - intros w' (r & o' & _ & _ & _ & Q & _). by apply walked_frozen.
  - intros k w' [w'' b] (r & Q) Er. pose proof (Hbody k w' r Q) as Hb. rewrite Er in Hb. destruct Hb as [_ Q']. simpl. eauto.
  - done.
  - rewrite Hpr, Hp1. by apply Hf1.
  - eauto.
Qed.

Lemma oset_union F al fuel w O h h1 h2 o1 o2 :
  orep F w O -> O !! h1 = Some o1 -> O !! h2 = Some o2 -> O !! h = None -> same_ids (gof o1) (gof o2) ->
  halloc_ok al -> enough w h1 (gof o1) fuel -> enough w h2 (gof o2) fuel ->
  ok (fun w' => exists o', (o ← oinserts F (oel o1) (onew (ohid o1) (ocid o1)); oinserts F (oel o2) o) = Ret o' /\ orep F w' (<[h := o']> O))
     (can_fail al) (set_union F al fuel w h h1 h2).
Proof.
  intros Hw E1 E2 E Hid Hal Hf1 Hf2. unfold set_union. pose proof (orep_wrep _ _ _ Hw) as Hwr.
  assert (G1 : (gof <$> O) !! h1 = Some (gof o1)) by (by rewrite lookup_fmap, E1).
  assert (G2 : (gof <$> O) !! h2 = Some (gof o2)) by (by rewrite lookup_fmap, E2).
  rewrite (proj1 (same_fns_spec F w _ h1 h2 _ _ Hwr G1 G2) Hid). rb.
  destruct (orep_lookup _ _ _ _ _ Hw E1) as (x1 & Hx1 & L1 & HI1 & Gd1 & Hp1 & Hs1 & Hr1 & I1 & I2 & Cn1).
  rewrite (hget_Some _ _ _ Hx1). rb. rewrite I1, I2.
  assert (Gn : good (HE (fhash F (ohid o1)) (fcmp F (ocid o1)) tt)) by (unfold wenv in Gd1; by rewrite I1, I2 in Gd1).
  eapply ok_bind; [by apply (ow_create F al w O)|]. intros w0 [Hw0 Hsame0].
  assert (Hn1 : h1 <> h) by congruence. assert (Hn2 : h2 <> h) by congruence.
  set (y0 := onew (ohid o1) (ocid o1)) in *.
  change (fun (k : K) (w : world) => '(w', _) ← w_insert F al w h k; Ret (w', false)) with (ins_body F al h).
  eapply ok_bind.
  { apply (owalk_insert F al fuel w0 (<[h := y0]> O) h1 o1 h y0 Hw0); try done.
    - by rewrite lookup_insert_ne.
    - by rewrite lookup_insert.
    - eapply enough_frame; [|exact Hf1]. auto. }
  intros [w1 b1] (oa & Ea & A1 & A2 & A3 & Hw1 & Hsame1). rewrite insert_insert in Hw1.
  eapply ok_bind.
  { apply (owalk_insert F al fuel w1 (<[h := oa]> O) h2 o2 h oa Hw1); try done.
    - by rewrite lookup_insert_ne.
    - by rewrite lookup_insert.
    - eapply enough_frame; [|exact Hf2]. rewrite Hsame1 by done. auto. }
  intros [w2 b2] (ob & Eb & B1 & B2 & B3 & Hw2 & Hsame2). rewrite insert_insert in Hw2. cbn [ok].
  exists ob. rewrite Ea. cbn [mbind res_bind]. done.
Qed.

(** ** set_equal: the second set is asked until an element is missing *)
Lemma oset_equal F fuel w O h1 h2 o1 o2 :
  orep F w O -> O !! h1 = Some o1 -> O !! h2 = Some o2 -> same_ids (gof o1) (gof o2) -> enough w h1 (gof o1) fuel ->
  (N.of_nat (length (oel o1)) < 2 ^ 64)%N -> (N.of_nat (length (oel o2)) < 2 ^ 64)%N ->
  exists w' r, set_equal F fuel w h1 h2 = Ret (w', r) /\
    orep F w' (if decide (length (oel o1) = length (oel o2)) then <[h2 := oasks F (until_missing (ocmp F o1) (oel o1) (oel o2)) o2]> O else O).
Proof.
  intros Hw E1 E2 Hid Hf1 Hlen1 Hlen2. unfold set_equal. pose proof (orep_wrep _ _ _ Hw) as Hwr.
  assert (G1 : (gof <$> O) !! h1 = Some (gof o1)) by (by rewrite lookup_fmap, E1).
  assert (G2 : (gof <$> O) !! h2 = Some (gof o2)) by (by rewrite lookup_fmap, E2).
  rewrite (proj1 (same_fns_spec F w _ h1 h2 _ _ Hwr G1 G2) Hid). rb.
  destruct (orep_lookup _ _ _ _ _ Hw E1) as (x1 & Hx1 & L1 & HI1 & Gd1 & Hp1 & Hs1 & Hr1 & I1 & I2 & Cn1).
  destruct (orep_lookup _ _ _ _ _ Hw E2) as (x2 & Hx2 & L2 & HI2 & Gd2 & Hp2 & Hs2 & Hr2 & I3 & I4 & Cn2).
  rewrite (hget_Some _ _ _ Hx1). rb. rewrite (hget_Some _ _ _ Hx2). rb.
  assert (Hc : ocmp F o2 = ocmp F o1) by (unfold ocmp; destruct Hid as [_ Hid]; cbn in Hid; by rewrite Hid).
  rewrite (hi_entries _ _ _ HI1), (hi_entries _ _ _ HI2).
  replace (length (pairs L1)) with (length (oel o1)) by (rewrite <- Hp1; apply fmap_length).
  replace (length (pairs L2)) with (length (oel o2)) by (rewrite <- Hp2; apply fmap_length).
  unfold u64. rewrite !(N.mod_small _ (2 ^ 64)) by done.
  destruct (N.eqb_spec (N.of_nat (length (oel o1))) (N.of_nat (length (oel o2)))) as [Hle|Hle]; cbn [negb].
  2:{ rewrite decide_False by lia. eauto. }
  rewrite decide_True by lia.
  destruct (ow_set_ro F w O h2 o2 1 Hw E2) as (x2' & Hx2' & -> & Hw1 & _). rb.
  rewrite Hx2 in Hx2'. injection Hx2' as <-.
  set (xr := WS (with_ro (ws x2) 1) (whid x2) (wcid x2)) in *.
  set (w1 := <[h2 := xr]> w) in *. set (O1 := fun ks => <[h2 := oflag (oasks F ks o2) 1]> O).
  assert (Hw1' : orep F w1 (O1 [])) by (unfold O1; replace (oasks F [] o2) with o2 by (by destruct o2); exact Hw1). clear Hw1. rename Hw1' into Hw1.
  assert (exists x1', w1 !! h1 = Some x1' /\ hinv (wenv F x1') (ws x1') L1 /\
                      prime (tab (ws x1')) = prime (tab (ws x1))) as (x1' & Hx1' & HI1' & Hpr).
  { unfold w1. destruct (decide (h1 = h2)) as [->|Hne].
    - rewrite lookup_insert. exists xr. split; [done|]. rewrite Hx1 in Hx2. injection Hx2 as <-.
      split; [|done]. by apply (hinv_flag _ (ws x1)).
    - rewrite lookup_insert_ne by done. eauto. }
  set (Inv := fun (w' : world) (ks : list K) => orep F w' (O1 ks) /\ walked h1 x1' w' /\ walked h2 xr w').
  set (body := fun k w => _).
  assert (Hbody : forall k w' ks, Inv w' ks ->
     ok (fun '(w'', b) => b = negb (smem (ocmp F o1) k (oel o2)) /\ Inv w'' (ks ++ [k])) False (body k w')).
  { intros k w' ks (Q1 & (xa & Qa & Ua) & (xb & Qb & Ub)). unfold body.
    assert (Eg : O1 ks !! h2 = Some (oflag (oasks F ks o2) 1)) by (unfold O1; by rewrite lookup_insert).
    destruct (ow_member F w' _ h2 _ k Q1 Eg) as (w2 & -> & R1 & R2 & R3). rb.
    rewrite oasks_app in R1. unfold O1 in R1. rewrite insert_insert in R1. fold (O1 (ks ++ [k])) in R1.
    change (ocmp F (oflag (oasks F ks o2) 1)) with (ocmp F o2). change (oel (oflag (oasks F ks o2) 1)) with (oel o2). rewrite Hc.
    destruct (R3 ltac:(done) xb Qb) as (xb' & Qb' & Ub'). clear R3. cbn [ok].
    split; [by destruct (smem _ _ _)|]. split; [done|]. split.
    - destruct (decide (h1 = h2)) as [->|Hne].
      + exists xb'. split; [done|]. rewrite Qa in Qb. injection Qb as ->. by eapply undisturbed_trans.
      + exists xa. rewrite R2 by done. done.
    - exists xb'. split; [done|]. by eapply undisturbed_trans. }
  assert (Hinv1 : Inv w1 []).
  { split; [exact Hw1|]. split; [exists x1'; split; [done|apply undisturbed_refl]|].
    exists xr. unfold w1. rewrite lookup_insert. split; [done|apply undisturbed_refl]. }
  rewrite (walk_vfold (getset h1) body (fun w' => exists ks, Inv w' ks) (ws x1')) with (env := wenv F x1') (L := L1).
  - assert (Hv : forall l w' ks, Inv w' ks -> exists w'' b,
       vfold body l w' = Ret (w'', b) /\ Inv w'' (ks ++ until_missing (ocmp F o1) l (oel o2))).
    { induction l as [|k l IH]; intros w' ks Hw'; [exists w', false; cbn; by rewrite app_nil_r|]. cbn [vfold until_missing].
      pose proof (Hbody k w' ks Hw') as Hb. destruct (body k w') as [[w'' b]| | | |]; simpl in Hb; try done.
      destruct Hb as [-> Hb]. rb. destruct (smem (ocmp F o1) k (oel o2)); cbn [negb].
      - destruct (IH _ _ Hb) as (w3 & b & E & H). exists w3, b. rewrite <- app_assoc in H. done.
      - exists w'', true. done. }
    rewrite Hp1. destruct (Hv (oel o1) w1 [] Hinv1) as (w2 & b & -> & Q1 & _ & _). rb. cbn [app] in Q1.
    set (ks := until_missing (ocmp F o1) (oel o1) (oel o2)) in *.
    assert (Eg : O1 ks !! h2 = Some (oflag (oasks F ks o2) 1)) by (unfold O1; by rewrite lookup_insert).
    destruct (ow_set_ro F w2 _ h2 _ (readonly (tab (ws x2))) Q1 Eg) as (xc & Hxc & -> & Hw3 & _). rb. eexists _, _. split; [done|].
    revert Hw3. unfold O1. rewrite insert_insert. unfold oflag. cbn [oasks owith oel osize oro ohid ocid ocn]. rewrite Hr2. done.
  - intros w' (ks & _ & Q & _). by apply walked_frozen.
  - intros k w' [w'' b] (r & Q) Er. pose proof (Hbody k w' r Q) as Hb. rewrite Er in Hb. destruct Hb as [_ Q']. simpl. eauto.
  - done.
  - rewrite Hpr, Hp1. by apply Hf1.
  - eauto.
Qed.

(** ** Whole programs *)
Lemma otwo_call F O h1 h2 (m : res world) f (c : scall K) :
  (O !! h1 = None \/ O !! h2 = None -> m = UB) ->
  (forall o1 o2, O !! h1 = Some o1 -> O !! h2 = Some o2 -> ~ same_ids (gof o1) (gof o2) -> m = Fatal) ->
  (forall o1 o2, O !! h1 = Some o1 -> O !! h2 = Some o2 -> same_ids (gof o1) (gof o2) ->
    call_ok eq scan (orep F) c (w' ← m; Ret (w', SDone)) (f o1 o2)) ->
  call_ok eq scan (orep F) c (w' ← m; Ret (w', SDone)) (otwo O h1 h2 f).
Proof.
  intros Hu Hm Hf. unfold otwo, oone. destruct (O !! h1) as [o1|] eqn:E1; [|rewrite Hu by tauto; done].
  destruct (O !! h2) as [o2|] eqn:E2; [|rewrite Hu by tauto; done].
  destruct (osame o1 o2) eqn:Es; [apply Hf; try done; by apply (same_spec (gof o1) (gof o2))|].
  rewrite (Hm o1 o2) by (try done; intros Hs; apply (same_spec (gof o1) (gof o2)) in Hs; unfold osame in Es; unfold same in Hs; cbn in Hs; congruence). done.
Qed.
Lemma ososet F O h (r : res oset) (c : scall K) al : scan c = can_fail al -> forall m : res world,
  ok (fun w' => exists o', r = Ret o' /\ orep F w' (<[h := o']> O)) (can_fail al) m ->
  call_ok eq scan (orep F) c (w' ← m; Ret (w', SDone)) (soset O h r).
Proof.
  intros Hc m Hm. destruct m as [w'| | | |]; cbn [ok] in Hm; try done.
  - destruct Hm as (o' & -> & H). cbn. done.
  - cbn [mbind res_bind call_ok]. rewrite Hc. unfold soset. destruct r; cbn; done.
Qed.

Lemma sostep_ok F w O c : orep F w O -> solegal F O c ->
  call_ok eq scan (orep F) c (sstep F w c) (sospec F O c).
Proof.
  intros Ho Hl. pose proof (orep_wrep _ _ _ Ho) as Hw. unfold solegal in Hl.
  assert (Hg : forall h o, O !! h = Some o -> (gof <$> O) !! h = Some (gof o)) by (intros h o E; by rewrite lookup_fmap, E).
  assert (Hg0 : forall h, O !! h = None -> (gof <$> O) !! h = None) by (intros h E; by rewrite lookup_fmap, E).
  assert (Hg1 : forall h, (gof <$> O) !! h = None -> O !! h = None) by (intros h E; rewrite lookup_fmap in E; by destruct (O !! h)).
  assert (Hen : forall h o, O !! h = Some o -> enough w h (gof o) (rounds w)) by (intros h o E; by apply (rounds_enough F w (gof <$> O)); auto).
  assert (H2 : forall h1 h2, O !! h1 = None \/ O !! h2 = None -> (gof <$> O) !! h1 = None \/ (gof <$> O) !! h2 = None) by (intros h1 h2 [E|E]; [left|right]; auto).
  destruct c as [al h hid cid|al h k|h k|h k|h f|h|h|al h1 h2|h1 h2|al h h1 h2|al h h1 h2|al h h1 h2|h1 h2|h];
    cbn [slegal] in Hl; unfold sstep, sospec.
  - destruct Hl as (Hal & Hn & G). pose proof (ow_create F al w O h hid cid Ho (Hg1 _ Hn) G) as Hs.
    destruct (w_create al w h hid cid); try done. cbn in *. split; [apply Hs|done].
  - unfold oone. destruct (O !! h) as [o|] eqn:E; [|unfold w_insert; by rewrite (hget_UB F w _ h Hw (Hg0 _ E))]. unfold owritable.
    destruct (Z.eqb_spec (oro o) 0) as [Hz|Hz]; [|by rewrite (w_insert_ro F al w _ h (gof o) k Hw (Hg _ _ E) Hz)].
    pose proof (ow_insert F al w O h o k Ho E Hl Hz) as Hs. destruct (w_insert F al w h k) as [[w' r]| | | |]; try done; cbn [ok mbind res_bind] in *.
    + destruct Hs as (o' & -> & -> & Hr & _). cbn. split; [done|]. by destruct (smem _ _ _).
    + destruct (oinsert F o k); cbn; done.
  - unfold oone. destruct (O !! h) as [o|] eqn:E; [|unfold w_delete; by rewrite (hget_UB F w _ h Hw (Hg0 _ E))]. unfold owritable.
    destruct (Z.eqb_spec (oro o) 0) as [Hz|Hz]; [|by rewrite (w_delete_ro F w _ h (gof o) k Hw (Hg _ _ E) Hz)].
    destruct (ow_delete F w O h o k Ho E Hz) as (w' & -> & Hr & _). cbn. split; [done|]. by destruct (smem _ _ _).
  - unfold oone. destruct (O !! h) as [o|] eqn:E; [|unfold w_member; by rewrite (hget_UB F w _ h Hw (Hg0 _ E))].
    destruct (ow_member F w O h o k Ho E) as (w' & -> & Hr & _). cbn. split; [done|]. by destruct (smem _ _ _).
  - unfold oone. destruct (O !! h) as [o|] eqn:E; [|unfold w_readonly; by rewrite (hget_UB F w _ h Hw (Hg0 _ E))].
    destruct (ow_set_ro F w O h o f Ho E) as (x & Hx & _ & Hr & Hro). unfold w_readonly, set_readonly_, upd.
    rewrite !(hget_Some _ _ _ Hx). rb. rewrite Hro. cbn. split; [exact Hr|done].
  - pose proof (sstep_ok F w _ (SCount h) Hw Hl) as Hs. unfold sstep, sspec, one in Hs. unfold oone. rewrite lookup_fmap in Hs.
    destruct (O !! h) as [o|]; cbn [fmap option_fmap option_map] in Hs.
    + destruct (hget w h) as [x| | | |]; try done. cbn in Hs |- *. destruct Hs as [_ Hs]. done.
    + exact Hs.
  - unfold oone. destruct (O !! h) as [o|] eqn:E; [|by rewrite (hget_UB F w _ h Hw (Hg0 _ E))].
    specialize (Hen h o E). destruct (orep_lookup _ _ _ _ _ Ho E) as (x & Hx & L & HI & _ & Hp & _). rewrite (hget_Some _ _ _ Hx). rb.
    specialize (Hen x Hx). cbn [gof gel] in Hen. rewrite <- Hp in *. rewrite (senumerates_elems _ _ _ HI) by exact Hen.
    rewrite svisit_collect. rb. unfold upd. rewrite (hget_Some _ _ _ Hx). rb. rewrite ws_eta, insert_id by done. cbn. done.
  - destruct Hl as [Hal Hne]. apply otwo_call; [intros Hn; by apply (two_UB F al (rounds w) w _ h1 h1 h2 Hw (H2 _ _ Hn))| |].
    + intros o1 o2 E1 E2 Hn. by apply (mismatch_fatal F al (rounds w) w _ h1 h1 h2 _ _ Hw (Hg _ _ E1) (Hg _ _ E2)).
    + intros o1 o2 E1 E2 Hs. unfold owritable. destruct (Z.eqb_spec (oro o1) 0) as [Hz|Hz].
      * assert (Hm : ok (fun w' => exists o', oinserts F (oel o2) o1 = Ret o' /\ orep F w' (<[h1 := o']> O)) (can_fail al) (set_add F al (rounds w) w h1 h2)).
        { unfold set_add. rewrite (proj1 (same_fns_spec F w _ h1 h2 _ _ Hw (Hg _ _ E1) (Hg _ _ E2)) Hs). rb.
          eapply ok_bind; [apply (owalk_insert F al (rounds w) w O h2 o2 h1 o1 Ho E2 E1 ltac:(done) Hal Hz (Hen _ _ E2))|].
          intros [w' b] (o' & Eo & _ & _ & _ & J & _). cbn [ok]. eauto. }
        destruct (decide (oel o2 = [])) as [Hnil|_]; [|by eapply (ososet F O h1 _ _ al)].
        destruct (set_add F al (rounds w) w h1 h2) as [w'| | | |]; try done. cbn in Hm |- *. rewrite Hnil in Hm. destruct Hm as (o' & [= <-] & Hm).
        rewrite insert_id in Hm by done. done.
      * rewrite (proj1 (add_del_ro F al (rounds w) w _ h1 h2 _ _ Hw (Hg _ _ E1) (Hg _ _ E2) Hs Hz (Hen _ _ E2))). cbn [gof gel].
        destruct (decide (oel o2 = [])); done.
  - apply otwo_call; [intros Hn; by apply (two_UB F (HA (fun _ => None) (fun _ => false)) (rounds w) w _ h1 h1 h2 Hw (H2 _ _ Hn))| |].
    + intros o1 o2 E1 E2 Hn. by apply (mismatch_fatal F (HA (fun _ => None) (fun _ => false)) (rounds w) w _ h1 h1 h2 _ _ Hw (Hg _ _ E1) (Hg _ _ E2)).
    + intros o1 o2 E1 E2 Hs. unfold owritable. destruct (Z.eqb_spec (oro o1) 0) as [Hz|Hz].
      * assert (Hm : ok (fun w' => orep F w' (<[h1 := odeletes F (oel o2) o1]> O)) False (set_del F (rounds w) w h1 h2)).
        { unfold set_del. rewrite (proj1 (same_fns_spec F w _ h1 h2 _ _ Hw (Hg _ _ E1) (Hg _ _ E2)) Hs). rb.
          eapply ok_bind; [apply (owalk_delete F (rounds w) w O h2 o2 h1 o1 Ho E2 E1 ltac:(done) Hz (Hen _ _ E2))|].
          intros [w' b] J. exact J. }
        destruct (set_del F (rounds w) w h1 h2) as [w'| | | |]; try done. cbn in Hm.
        destruct (decide (oel o2 = [])) as [Hnil|_]; [|cbn; done]. rewrite Hnil in Hm. cbn in Hm. rewrite insert_id in Hm by done. cbn. done.
      * rewrite (proj2 (add_del_ro F (HA (fun _ => None) (fun _ => false)) (rounds w) w _ h1 h2 _ _ Hw (Hg _ _ E1) (Hg _ _ E2) Hs Hz (Hen _ _ E2))). cbn [gof gel].
        destruct (decide (oel o2 = [])); done.
  - destruct Hl as [Hal Hn]. apply otwo_call; [intros Hn'; by apply (two_UB F al (rounds w) w _ h h1 h2 Hw (H2 _ _ Hn'))| |].
    + intros o1 o2 E1 E2 Hs. by apply (mismatch_fatal F al (rounds w) w _ h h1 h2 _ _ Hw (Hg _ _ E1) (Hg _ _ E2)).
    + intros o1 o2 E1 E2 Hs. eapply (ososet F O h _ _ al); [done|]. apply oset_union; auto.
  - destruct Hl as [Hal Hn]. apply otwo_call; [intros Hn'; by apply (two_UB F al (rounds w) w _ h h1 h2 Hw (H2 _ _ Hn'))| |].
    + intros o1 o2 E1 E2 Hs. by apply (mismatch_fatal F al (rounds w) w _ h h1 h2 _ _ Hw (Hg _ _ E1) (Hg _ _ E2)).
    + intros o1 o2 E1 E2 Hs. eapply (ososet F (<[h2 := oasks F (oel o1) o2]> O) h _ _ al); [done|]. apply (oset_inter_diff true); auto.
  - destruct Hl as [Hal Hn]. apply otwo_call; [intros Hn'; by apply (two_UB F al (rounds w) w _ h h1 h2 Hw (H2 _ _ Hn'))| |].
    + intros o1 o2 E1 E2 Hs. by apply (mismatch_fatal F al (rounds w) w _ h h1 h2 _ _ Hw (Hg _ _ E1) (Hg _ _ E2)).
    + intros o1 o2 E1 E2 Hs. eapply (ososet F (<[h2 := oasks F (oel o1) o2]> O) h _ _ al); [done|]. apply (oset_inter_diff false); auto.
  - pose proof (sstep_ok F w _ (SEqual h1 h2) Hw Hl) as Hs. unfold sstep, sspec, two, one in Hs. unfold otwo, oone. rewrite !lookup_fmap in Hs.
    destruct (O !! h1) as [o1|] eqn:E1; cbn [fmap option_fmap option_map] in Hs; [|exact Hs].
    destruct (O !! h2) as [o2|] eqn:E2; cbn [fmap option_fmap option_map] in Hs; [|exact Hs].
    change (same (gof o1) (gof o2)) with (osame o1 o2) in Hs. destruct (osame o1 o2) eqn:Es; [|exact Hs].
    apply (same_spec (gof o1) (gof o2)) in Es.
    pose proof (Hl h1 (gof o1) ltac:(tauto) (Hg _ _ E1)) as S1. pose proof (Hl h2 (gof o2) ltac:(tauto) (Hg _ _ E2)) as S2. unfold small in S1, S2.
    destruct (oset_equal F (rounds w) w O h1 h2 o1 o2 Ho E1 E2 Es (Hen _ _ E1) ltac:(cbn in *; lia) ltac:(cbn in *; lia)) as (w' & r & Er & J).
    rewrite Er in Hs |- *. cbn in Hs |- *. destruct Hs as [_ Hs]. split; [exact J|exact Hs].
  - unfold oone. destruct (O !! h) as [o|] eqn:E; [|unfold w_destroy; by rewrite (hget_UB F w _ h Hw (Hg0 _ E))].
    rewrite (w_destroy_spec F w _ h _ Hw (Hg _ _ E)). unfold owritable. cbn [gof gro]. destruct (oro o =? 0)%Z; [|done]. rb. rewrite decide_True by done. cbn. split; [|done].
    intros i. destruct (decide (i = h)) as [->|Hne]; [rewrite !lookup_delete; constructor|]. rewrite !lookup_delete_ne by done. apply Ho.
Qed.

(** what can be seen of a state: which sets there are, the order of their elements, their flags *)
Definition shows w O : Prop :=
  dom w = dom O /\ forall h o, O !! h = Some o -> SetHist.holds w h (oel o) (oro o).
Lemma orep_shows F w O : orep F w O -> shows w O.
Proof.
  intros Hw. split.
  - apply set_eq. intros h. rewrite !elem_of_dom. specialize (Hw h). destruct Hw; split; intros [? ?]; eauto; done.
  - intros h o E. destruct (orep_lookup _ _ _ _ _ Hw E) as (x & Hx & L & HI & _ & Hp & _ & Hr & _). exists x. rewrite <- Hp.
    split; [done|]. split; [by apply (senumerates_elems (wenv F x))|done].
Qed.
Lemma so_ok F cs : lawful (sospec F) (solegal F) ∅ cs ->
  refines eq scan shows cs (run (sstep F) ∅ cs) (run (sospec F) ∅ cs).
Proof.
  intros Hl. eapply refines_Q; [|apply (run_refines _ _ _ _ (solegal F) (orep F)); [intros; by apply sostep_ok| |exact Hl]].
  - intros w O. apply orep_shows.
  - intros h. rewrite !lookup_empty. constructor.
Qed.
(** the same call, perhaps with another allocator *)
Definition ssame_call (c c' : scall K) : Prop :=
  match c, c' with
  | SCreate _ h hid cid, SCreate _ h' hid' cid' => h = h' /\ hid = hid' /\ cid = cid'
  | SInsert _ h k, SInsert _ h' k' => h = h' /\ k = k'
  | SAdd _ h1 h2, SAdd _ h1' h2' => h1 = h1' /\ h2 = h2'
  | SUnion _ h h1 h2, SUnion _ h' h1' h2' => h = h' /\ h1 = h1' /\ h2 = h2'
  | SInter _ h h1 h2, SInter _ h' h1' h2' => h = h' /\ h1 = h1' /\ h2 = h2'
  | SDiff _ h h1 h2, SDiff _ h' h1' h2' => h = h' /\ h1 = h1' /\ h2 = h2'
  | _, _ => c = c'
  end.
Lemma sospec_same F O c c' : ssame_call c c' -> sospec F O c = sospec F O c'.
Proof. destruct c, c'; cbn [ssame_call]; intros H; try discriminate H; repeat match type of H with _ /\ _ => let H' := fresh in destruct H as [H' H]; subst end; try (subst; reflexivity); injection H; intros; subst; reflexivity. Qed.
Lemma sorun_same F cs : forall cs' O, Forall2 ssame_call cs cs' -> run (sospec F) O cs = run (sospec F) O cs'.
Proof.
  induction cs as [|c cs IH]; intros cs' O HF; inversion HF as [|? c' ? cs1 Hc HF']; subst; [done|]. cbn [run].
  rewrite (sospec_same _ _ _ _ Hc). destruct (sospec F O c') as [[g' r]| | | |]; try done. by rewrite (IH cs1 g' HF').
Qed.
End SetOrder.
