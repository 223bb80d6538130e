(** Several sets at once: what each call does to the abstract sets. *)
From Verif Require Import Base PrimeModel PrimeProofs HashModel HashSpec ListLemmas HashProofs HashOps HashOps2 HashIter SetModel SetSpec SetAlg SetProofs.
Local Open Scope nat_scope.

Section SetWorld.
Context {K : Type}.
Notation hst := (hst K unit).
Notation halloc := (halloc K unit).
Notation world := (world K).
Notation wset := (wset K).
Implicit Types (s : hst) (al : halloc) (w : world) (x : wset) (F : fns K).

(** The abstract state of a set: its elements, the readonly flag, and which hash
    and compare functions it was created with. *)
Record gst := GS { gel : list K; gro : Z; ghid : positive; gcid : positive }.
Notation gworld := (gmap positive gst).
Implicit Types (y : gst) (g : gworld).
Definition gcmp F y : K -> K -> Z := fcmp F (gcid y).
Definition gwith y xs : gst := GS xs (gro y) (ghid y) (gcid y).
Definition gflag y f : gst := GS (gel y) f (ghid y) (gcid y).

Definition rep1 F x y : Prop := exists L,
  hinv (wenv F x) (ws x) L /\ good (wenv F x) /\ elems L ≡ₚ gel y /\
  readonly (tab (ws x)) = gro y /\ whid x = ghid y /\ wcid x = gcid y.
Definition wrep F w g : Prop := forall h, option_Forall2 (rep1 F) (w !! h) (g !! h).

Lemma wrep_lookup F w g h y : wrep F w g -> g !! h = Some y -> exists x, w !! h = Some x /\ rep1 F x y.
Proof. intros Hw Hy. specialize (Hw h). rewrite Hy in Hw. inversion Hw. eauto. Qed.
Lemma wrep_None F w g h : wrep F w g -> g !! h = None -> w !! h = None.
Proof. intros Hw Hy. specialize (Hw h). rewrite Hy in Hw. by inversion Hw. Qed.
Lemma wrep_insert F w g h x y : wrep F w g -> rep1 F x y -> wrep F (<[h := x]> w) (<[h := y]> g).
Proof.
  intros Hw Hr i. destruct (decide (i = h)) as [->|Hne].
  - rewrite !lookup_insert. by constructor.
  - rewrite !lookup_insert_ne by done. apply Hw.
Qed.
Lemma wrep_delete F w g h : wrep F w g -> wrep F (delete h w) (delete h g).
Proof.
  intros Hw i. destruct (decide (i = h)) as [->|Hne].
  - rewrite !lookup_delete. constructor.
  - rewrite !lookup_delete_ne by done. apply Hw.
Qed.
Lemma wrep_perm F w g h y xs : wrep F w g -> g !! h = Some y -> gel y ≡ₚ xs -> wrep F w (<[h := gwith y xs]> g).
Proof.
  intros Hw Hy Hp i. destruct (decide (i = h)) as [->|Hne].
  - rewrite lookup_insert. destruct (wrep_lookup _ _ _ _ _ Hw Hy) as (x & -> & L & J1 & J2 & J3 & J4).
    constructor. exists L. split; [done|]. split; [done|]. split; [|done]. simpl. by rewrite J3.
  - rewrite lookup_insert_ne by done. apply Hw.
Qed.

Lemma rep1_cmp F x y : rep1 F x y -> cmpf (wenv F x) = gcmp F y.
Proof. intros (L & _ & _ & _ & _ & _ & H). unfold gcmp. simpl. by rewrite H. Qed.

(** the lookup counters of a set do not matter *)
Definition undisturbed x x' : Prop :=
  exists r h m, x' = WS (MkH (heap (ws x)) (set_counts (tab (ws x)) r h m)) (whid x) (wcid x).
Lemma undisturbed_refl x : undisturbed x x.
Proof. destruct x as [[H t] a b]. exists (retrievals t), (hits t), (misses t). by destruct t. Qed.
Lemma undisturbed_trans x x2 x3 : undisturbed x x2 -> undisturbed x2 x3 -> undisturbed x x3.
Proof. intros (r & h & m & ->) (r' & h' & m' & ->). simpl. by exists r', h', m'. Qed.

(** ** calls on one set *)
Lemma w_insert_spec F al w g h y k :
  wrep F w g -> g !! h = Some y -> halloc_ok al -> gro y = 0%Z ->
  ok (fun '(w', r) => r = (if smem (gcmp F y) k (gel y) then 1%Z else 0%Z) /\
        wrep F w' (<[h := gwith y (sinsert (gcmp F y) k (gel y))]> g) /\
        (forall h', h' <> h -> w' !! h' = w !! h'))
     (can_fail al) (w_insert F al w h k).
Proof.
  intros Hw Hy Hal Hro. destruct (wrep_lookup _ _ _ _ _ Hw Hy) as (x & Hx & Hr).
  pose proof (rep1_cmp _ _ _ Hr) as Hc. destruct Hr as (L & HI & G & Hp & Hf & H1 & H2).
  unfold w_insert. rewrite (hget_Some _ _ _ Hx). rb.
  eapply ok_bind; [apply (set_insert_spec _ al _ L k HI G Hal); congruence|].
  intros [s' r] (L' & J1 & -> & J3 & J4 & _). cbn [ok].
  unfold upd. rewrite (hget_Some _ _ _ Hx). rb. cbn [ok]. rewrite Hc in *.
  rewrite (smem_perm _ k _ _ Hp) in *. split; [done|]. split.
  - apply wrep_insert; [done|]. exists L'. cbn [ws whid wcid gwith gel gro ghid gcid].
    split; [exact J1|]. split; [exact G|]. split; [|split; [congruence|done]].
    rewrite J3. by apply sinsert_perm.
  - intros h' Hne. by rewrite lookup_insert_ne.
Qed.

Lemma w_insert_ro F al w g h y k :
  wrep F w g -> g !! h = Some y -> gro y <> 0%Z -> w_insert F al w h k = Abort.
Proof.
  intros Hw Hy Hro. destruct (wrep_lookup _ _ _ _ _ Hw Hy) as (x & Hx & L & HI & G & Hp & Hf & _).
  unfold w_insert. rewrite (hget_Some _ _ _ Hx). rb. rewrite set_insert_ro by congruence. done.
Qed.

Lemma w_delete_spec F w g h y k :
  wrep F w g -> g !! h = Some y -> gro y = 0%Z ->
  exists w', w_delete F w h k = Ret (w', if smem (gcmp F y) k (gel y) then 0%Z else 1%Z) /\
    wrep F w' (<[h := gwith y (sremove (gcmp F y) k (gel y))]> g) /\
    (forall h', h' <> h -> w' !! h' = w !! h').
Proof.
  intros Hw Hy Hro. destruct (wrep_lookup _ _ _ _ _ Hw Hy) as (x & Hx & Hr).
  pose proof (rep1_cmp _ _ _ Hr) as Hc. destruct Hr as (L & HI & G & Hp & Hf & H1 & H2).
  unfold w_delete. rewrite (hget_Some _ _ _ Hx). rb.
  destruct (set_delete_spec _ _ L k HI G ltac:(congruence)) as (s' & L' & -> & J1 & J3 & J4 & _). rb.
  unfold upd. rewrite (hget_Some _ _ _ Hx). rb. rewrite Hc in *.
  rewrite (smem_perm _ k _ _ Hp). eexists. split; [done|]. split.
  - apply wrep_insert; [done|]. exists L'. cbn [ws whid wcid gwith gel gro ghid gcid].
    split; [exact J1|]. split; [exact G|]. split; [|split; [congruence|done]].
    rewrite J3. by apply sremove_perm.
  - intros h' Hne. by rewrite lookup_insert_ne.
Qed.

Lemma w_delete_ro F w g h y k :
  wrep F w g -> g !! h = Some y -> gro y <> 0%Z -> w_delete F w h k = Abort.
Proof.
  intros Hw Hy Hro. destruct (wrep_lookup _ _ _ _ _ Hw Hy) as (x & Hx & L & HI & G & Hp & Hf & _).
  unfold w_delete. rewrite (hget_Some _ _ _ Hx). rb. rewrite (set_delete_ro _ _ L) by (done || congruence). done.
Qed.

Lemma set_eta s : s = MkH (heap s) (tab s).
Proof. by destruct s. Qed.
Lemma tab_counts_eq (t t' : table) :
  buckets t' = buckets t -> entries t' = entries t -> prime t' = prime t ->
  resizings t' = resizings t -> readonly t' = readonly t ->
  t' = set_counts t (retrievals t') (hits t') (misses t').
Proof. destruct t, t'; simpl; intros; subst; done. Qed.

Lemma w_member_spec F w g h y k :
  wrep F w g -> g !! h = Some y ->
  exists w', w_member F w h k = Ret (w', if smem (gcmp F y) k (gel y) then 1%Z else 0%Z) /\
    wrep F w' g /\ (forall h', h' <> h -> w' !! h' = w !! h') /\
    (gro y <> 0%Z -> forall x, w !! h = Some x -> exists x', w' !! h = Some x' /\ undisturbed x x').
Proof.
  intros Hw Hy. destruct (wrep_lookup _ _ _ _ _ Hw Hy) as (x & Hx & Hr).
  pose proof (rep1_cmp _ _ _ Hr) as Hc. destruct Hr as (L & HI & G & Hp & Hf & H1 & H2).
  unfold w_member. rewrite (hget_Some _ _ _ Hx). rb.
  destruct (set_member_spec _ _ L k HI G) as (s' & L' & -> & J1 & J3 & J4 & J5 & J6 & J7 & J8 & _). rb.
  unfold upd. rewrite (hget_Some _ _ _ Hx). rb. rewrite Hc in *.
  rewrite (smem_perm _ k _ _ Hp). eexists. split; [done|]. split; [|split].
  - intros i. destruct (decide (i = h)) as [->|Hne].
    + rewrite lookup_insert, Hy. constructor. exists L'. cbn [ws whid wcid].
      split; [exact J1|]. split; [exact G|]. split; [by rewrite J3|split; [congruence|done]].
    + rewrite lookup_insert_ne by done. apply Hw.
  - intros h' Hne. by rewrite lookup_insert_ne.
  - intros Hro x0 Hx0. rewrite Hx in Hx0. injection Hx0 as <-. rewrite lookup_insert.
    eexists. split; [done|]. rewrite <- Hf in Hro. destruct (J4 Hro) as (_ & Hh & Hb).
    exists (retrievals (tab s')), (hits (tab s')), (misses (tab s')).
    f_equal. rewrite (set_eta s'), Hh. f_equal. cbn [tab].
    by apply tab_counts_eq.
Qed.

Lemma w_set_ro_spec F w g h y f :
  wrep F w g -> g !! h = Some y ->
  exists x, w !! h = Some x /\ w_set_ro w h f = Ret (<[h := WS (with_ro (ws x) f) (whid x) (wcid x)]> w) /\
    wrep F (<[h := WS (with_ro (ws x) f) (whid x) (wcid x)]> w) (<[h := gflag y f]> g) /\
    readonly (tab (ws x)) = gro y.
Proof.
  intros Hw Hy. destruct (wrep_lookup _ _ _ _ _ Hw Hy) as (x & Hx & L & HI & G & Hp & Hf & H1 & H2).
  exists x. split; [done|]. unfold w_set_ro, upd. rewrite (hget_Some _ _ _ Hx). rb. split; [done|]. split; [|done].
  apply wrep_insert; [done|]. exists L. cbn [ws whid wcid gflag gel gro ghid gcid].
  split; [by apply (hinv_flag _ (ws x))|]. done.
Qed.

Lemma w_readonly_spec F w g h y f :
  wrep F w g -> g !! h = Some y ->
  exists w', w_readonly w h f = Ret (w', gro y) /\ wrep F w' (<[h := gflag y f]> g) /\
    (forall h', h' <> h -> w' !! h' = w !! h') /\
    (forall x, w !! h = Some x -> w' !! h = Some (WS (with_ro (ws x) f) (whid x) (wcid x))).
Proof.
  intros Hw Hy. destruct (w_set_ro_spec F w g h y f Hw Hy) as (x & Hx & _ & Hw' & Hf).
  exists (<[h := WS (with_ro (ws x) f) (whid x) (wcid x)]> w). unfold w_readonly, set_readonly_, upd.
  rewrite !(hget_Some _ _ _ Hx). rb. rewrite Hf.
  split; [done|]. split; [done|]. split.
  - intros h' Hne. by rewrite lookup_insert_ne.
  - intros x0 Hx0. rewrite Hx in Hx0. injection Hx0 as <-. by rewrite lookup_insert.
Qed.

Lemma w_create_spec F al w g h hid cid :
  wrep F w g -> g !! h = None -> good (HE (fhash F hid) (fcmp F cid) tt) ->
  ok (fun w' => wrep F w' (<[h := GS [] 0 hid cid]> g) /\ (forall h', h' <> h -> w' !! h' = w !! h'))
     (can_fail al) (w_create al w h hid cid).
Proof.
  intros Hw Hy G. unfold w_create.
  eapply ok_bind; [apply (set_create_spec (HE (fhash F hid) (fcmp F cid) tt))|].
  intros s [HI Ht]. rewrite (wrep_None _ _ _ _ Hw Hy). cbn [ok]. split.
  - apply wrep_insert; [done|]. exists [[]]. cbn [ws whid wcid gel gro ghid gcid].
    split; [exact HI|]. split; [exact G|]. rewrite Ht. done.
  - intros h' Hne. by rewrite lookup_insert_ne.
Qed.

Lemma w_destroy_spec F w g h y :
  wrep F w g -> g !! h = Some y ->
  w_destroy w h = (if (gro y =? 0)%Z then Ret (delete h w, ∅) else Abort).
Proof.
  intros Hw Hy. destruct (wrep_lookup _ _ _ _ _ Hw Hy) as (x & Hx & L & HI & G & Hp & Hf & _).
  unfold w_destroy. rewrite (hget_Some _ _ _ Hx). rb.
  rewrite (set_destroy_spec _ _ L HI), Hf. destruct (gro y =? 0)%Z; done.
Qed.

(** ** two sets *)
Definition same_ids y1 y2 : Prop := ghid y1 = ghid y2 /\ gcid y1 = gcid y2.

Lemma same_fns_spec F w g h1 h2 y1 y2 :
  wrep F w g -> g !! h1 = Some y1 -> g !! h2 = Some y2 ->
  (same_ids y1 y2 -> same_fns w h1 h2 = Ret tt) /\
  (~ same_ids y1 y2 -> same_fns w h1 h2 = Fatal).
Proof.
  intros Hw E1 E2.
  destruct (wrep_lookup _ _ _ _ _ Hw E1) as (x1 & Hx1 & L1 & _ & _ & _ & _ & A1 & B1).
  destruct (wrep_lookup _ _ _ _ _ Hw E2) as (x2 & Hx2 & L2 & _ & _ & _ & _ & A2 & B2).
  unfold same_fns, same_ids. rewrite (hget_Some _ _ _ Hx1). rb. rewrite (hget_Some _ _ _ Hx2). rb.
  rewrite A1, A2, B1, B2.
  destruct (bool_decide_reflect (ghid y1 = ghid y2)), (bool_decide_reflect (gcid y1 = gcid y2));
    cbn [negb]; (split; [intros [? ?]; done|]); intros Hn; try done. exfalso. auto.
Qed.

(** number of loop rounds that suffices to walk the set *)
Definition enough w h y (fuel : nat) : Prop :=
  forall x, w !! h = Some x -> N.to_nat (prime (tab (ws x))) + length (gel y) < fuel.

(** the set at [h] has the chains of [x0] *)
Definition walked (h : positive) x0 w : Prop :=
  exists x', w !! h = Some x' /\ undisturbed x0 x'.
Lemma walked_frozen h x0 w : walked h x0 w -> frozen (getset h) (ws x0) w.
Proof.
  intros (x' & Hx & r & hh & m & ->). exists (MkH (heap (ws x0)) (set_counts (tab (ws x0)) r hh m)).
  unfold getset. rewrite (hget_Some _ _ _ Hx). rb. done.
Qed.

Definition ins_body F al hd : K -> world -> res (world * bool) :=
  fun k w => '(w', _) ← w_insert F al w hd k; Ret (w', false).
Definition del_body F hd : K -> world -> res (world * bool) :=
  fun k w => '(w', _) ← w_delete F w hd k; Ret (w', false).

Lemma ins_body_spec F al w g hd yd k :
  halloc_ok al -> wrep F w g -> g !! hd = Some yd -> gro yd = 0%Z ->
  ok (fun '(w', b) => b = false /\
        wrep F w' (<[hd := gwith yd (sinsert (gcmp F yd) k (gel yd))]> g) /\
        (forall h', h' <> hd -> w' !! h' = w !! h'))
     (can_fail al) (ins_body F al hd k w).
Proof.
  intros Hal Hw Hd Hro. unfold ins_body. eapply ok_bind; [by apply (w_insert_spec F al w g hd yd k)|].
  intros [w' r] (_ & H1 & H2). done.
Qed.
Lemma del_body_spec F w g hd yd k :
  wrep F w g -> g !! hd = Some yd -> gro yd = 0%Z ->
  ok (fun '(w', b) => b = false /\
        wrep F w' (<[hd := gwith yd (sremove (gcmp F yd) k (gel yd))]> g) /\
        (forall h', h' <> hd -> w' !! h' = w !! h'))
     False (del_body F hd k w).
Proof.
  intros Hw Hd Hro. unfold del_body. destruct (w_delete_spec F w g hd yd k Hw Hd Hro) as (w' & -> & H1 & H2).
  done.
Qed.

Lemma gwith_id y : gwith y (gel y) = y.
Proof. by destruct y. Qed.

(** a loop whose body updates the set at [hd] by [op] for each element *)
Lemma upd_vfold F (body : K -> world -> res (world * bool)) (op : gst -> list K -> K -> list K) fl hd ks :
  (forall y xs, op (gwith y xs) = op y) ->
  (forall w g yd k, wrep F w g -> g !! hd = Some yd -> gro yd = 0%Z ->
     ok (fun '(w', b) => b = false /\ wrep F w' (<[hd := gwith yd (op yd (gel yd) k)]> g) /\
           (forall h', h' <> hd -> w' !! h' = w !! h')) fl (body k w)) ->
  forall w g yd, wrep F w g -> g !! hd = Some yd -> gro yd = 0%Z ->
  ok (fun '(w', b) => b = false /\
        wrep F w' (<[hd := gwith yd (fold_left (op yd) ks (gel yd))]> g) /\
        (forall h', h' <> hd -> w' !! h' = w !! h'))
     fl (vfold body ks w).
Proof.
  intros Hop Hb. induction ks as [|k ks IH]; intros w g yd Hw Hd Hro.
  - simpl. split; [done|]. split; [|done]. rewrite gwith_id, insert_id; done.
  - cbn [vfold fold_left]. eapply ok_bind; [by apply (Hb w g yd k)|].
    intros [w1 b1] (-> & H1 & H2).
    eapply ok_mono; [apply (IH w1 _ (gwith yd (op yd (gel yd) k)) H1)| |done].
    + by rewrite lookup_insert.
    + done.
    + intros [w' b] (-> & H3 & H4). split; [done|]. split.
      * rewrite insert_insert, Hop in H3. exact H3.
      * intros h' Hne. rewrite H4 by done. auto.
Qed.

(** walking the set at [hs] with such a body, [hd] being another set *)
Lemma upd_walk F (body : K -> world -> res (world * bool)) (op : gst -> list K -> K -> list K) fl hs hd fuel :
  (forall y xs, op (gwith y xs) = op y) ->
  (forall w g yd k, wrep F w g -> g !! hd = Some yd -> gro yd = 0%Z ->
     ok (fun '(w', b) => b = false /\ wrep F w' (<[hd := gwith yd (op yd (gel yd) k)]> g) /\
           (forall h', h' <> hd -> w' !! h' = w !! h')) fl (body k w)) ->
  hs <> hd -> forall w g ys yd, wrep F w g -> g !! hs = Some ys -> g !! hd = Some yd -> gro yd = 0%Z ->
  enough w hs ys fuel ->
  ok (fun '(w', b) => exists ks, ks ≡ₚ gel ys /\ sdistinct (gcmp F ys) ks /\
        wrep F w' (<[hd := gwith yd (fold_left (op yd) ks (gel yd))]> g) /\
        (forall h', h' <> hd -> w' !! h' = w !! h'))
     fl (walk (getset hs) body fuel w).
Proof.
  intros Hop Hb Hne w g ys yd Hw Hs Hd Hro Hf.
  destruct (wrep_lookup _ _ _ _ _ Hw Hs) as (xs & Hxs & Hr).
  pose proof (rep1_cmp _ _ _ Hr) as Hc. destruct Hr as (L & HI & G & Hp & _).
  set (P := fun w' : world => (exists g' yd', wrep F w' g' /\ g' !! hd = Some yd' /\ gro yd' = 0%Z) /\
                              w' !! hs = Some xs).
  rewrite (walk_vfold (getset hs) body P (ws xs)) with (env := wenv F xs) (L := L).
  - eapply ok_mono; [by apply (upd_vfold F body op fl hd (elems L) Hop Hb w g yd)| |done].
    intros [w' b] (_ & H1 & H2). exists (elems L). split; [done|]. split; [|done].
    rewrite <- Hc. apply sdistinct_adistinct, HI.
  - intros w' [_ Hw']. apply walked_frozen. exists xs. split; [done|]. apply undisturbed_refl.
  - intros k w' [w'' b] [(g' & yd' & Q1 & Q2 & Q3) Q4] Er.
    pose proof (Hb w' g' yd' k Q1 Q2 Q3) as Hb'. rewrite Er in Hb'. destruct Hb' as (_ & R1 & R2). simpl. split.
    + eexists _, _. split; [exact R1|]. rewrite lookup_insert. split; [done|]. done.
    + rewrite R2; done.
  - done.
  - rewrite Hp. by apply Hf.
  - split; [|done]. eauto 10.
Qed.

Definition good_ids F y : Prop := good (HE (fhash F (ghid y)) (fcmp F (gcid y)) tt).
Lemma rep1_good F x y : rep1 F x y -> good_ids F y.
Proof. intros (L & _ & G & _ & _ & H1 & H2). unfold good_ids. unfold wenv in G. by rewrite H1, H2 in G. Qed.

(** [g'] differs from [g] only in the set at [h], whose elements are now [xs] up
    to order *)
Definition set_to F w (g : gworld) h y xs : Prop := wrep F w (<[h := gwith y xs]> g).

Lemma set_to_perm F w g h y xs ys : xs ≡ₚ ys -> set_to F w g h y xs -> set_to F w g h y ys.
Proof.
  unfold set_to. intros Hp Hw.
  eapply (wrep_perm F w _ h (gwith y xs) ys) in Hw; [|by rewrite lookup_insert|done].
  by rewrite insert_insert in Hw.
Qed.

Lemma set_add_spec F al fuel w g h1 h2 y1 y2 :
  wrep F w g -> g !! h1 = Some y1 -> g !! h2 = Some y2 -> h1 <> h2 -> same_ids y1 y2 ->
  halloc_ok al -> gro y1 = 0%Z -> enough w h2 y2 fuel ->
  ok (fun w' => wrep F w' (<[h1 := gwith y1 (sunion (gcmp F y1) (gel y1) (gel y2))]> g) /\
                (forall h', h' <> h1 -> w' !! h' = w !! h'))
     (can_fail al) (set_add F al fuel w h1 h2).
Proof.
  intros Hw E1 E2 Hne Hid Hal Hro Hf. unfold set_add.
  rewrite (proj1 (same_fns_spec F w g h1 h2 y1 y2 Hw E1 E2) Hid). rb.
  eapply ok_bind.
  { apply (upd_walk F (ins_body F al h1) (fun y xs k => sinsert (gcmp F y) k xs) (can_fail al) h2 h1 fuel)
      with (g := g) (ys := y2) (yd := y1); try done.
    intros w' g' yd k Q1 Q2 Q3. by apply ins_body_spec. }
  intros [w' b] (ks & Hks & Hd & H1 & H2). cbn [ok]. split; [|done].
  destruct (wrep_lookup _ _ _ _ _ Hw E1) as (x1 & _ & Hr). pose proof (rep1_good _ _ _ Hr) as G.
  assert (Hc : gcmp F y2 = gcmp F y1) by (unfold gcmp; destruct Hid as [_ ->]; done).
  rewrite Hc in Hd.
  eapply (set_to_perm F w' g h1 y1); [|exact H1].
  change (insert_all (gcmp F y1) (gel y1) ks ≡ₚ sunion (gcmp F y1) (gel y1) (gel y2)).
  rewrite insert_all_union by (apply G || done). apply sunion_perm; try done; apply G.
Qed.

Lemma set_del_spec F fuel w g h1 h2 y1 y2 :
  wrep F w g -> g !! h1 = Some y1 -> g !! h2 = Some y2 -> h1 <> h2 -> same_ids y1 y2 ->
  gro y1 = 0%Z -> enough w h2 y2 fuel ->
  exists w', set_del F fuel w h1 h2 = Ret w' /\
    wrep F w' (<[h1 := gwith y1 (sdiff (gcmp F y1) (gel y1) (gel y2))]> g) /\
    (forall h', h' <> h1 -> w' !! h' = w !! h').
Proof.
  intros Hw E1 E2 Hne Hid Hro Hf. unfold set_del.
  rewrite (proj1 (same_fns_spec F w g h1 h2 y1 y2 Hw E1 E2) Hid). rb.
  pose proof (upd_walk F (del_body F h1) (fun y xs k => sremove (gcmp F y) k xs) False h2 h1 fuel
     (fun _ _ => eq_refl) ltac:(intros; by apply del_body_spec) ltac:(done) w g y2 y1 Hw E2 E1 Hro Hf) as Hwk.
  change (fun (k : K) (w : world) => '(w', _) ← w_delete F w h1 k; Ret (w', false)) with (del_body F h1).
  destruct (walk (getset h2) (del_body F h1) fuel w) as [[w' b]| | | |]; simpl in Hwk; try done.
  destruct Hwk as (ks & Hks & Hd & H1 & H2). rb. exists w'. split; [done|]. split; [|done].
  destruct (wrep_lookup _ _ _ _ _ Hw E1) as (x1 & _ & Hr). pose proof (rep1_good _ _ _ Hr) as G.
  eapply (set_to_perm F w' g h1 y1); [|exact H1].
  change (remove_all (gcmp F y1) (gel y1) ks ≡ₚ sdiff (gcmp F y1) (gel y1) (gel y2)).
  rewrite remove_all_diff by apply G. apply sdiff_perm; try done; apply G.
Qed.

Lemma enough_frame w w' h y fuel : w' !! h = w !! h -> enough w h y fuel -> enough w' h y fuel.
Proof. unfold enough. by intros ->. Qed.

Lemma set_union_spec F al fuel w g h h1 h2 y1 y2 :
  wrep F w g -> g !! h1 = Some y1 -> g !! h2 = Some y2 -> g !! h = None -> same_ids y1 y2 ->
  halloc_ok al -> enough w h1 y1 fuel -> enough w h2 y2 fuel ->
  ok (fun w' => wrep F w' (<[h := GS (sunion (gcmp F y1) (gel y1) (gel y2)) 0 (ghid y1) (gcid y1)]> g) /\
                (forall h', h' <> h -> w' !! h' = w !! h'))
     (can_fail al) (set_union F al fuel w h h1 h2).
Proof.
  intros Hw E1 E2 E Hid Hal Hf1 Hf2. unfold set_union.
  rewrite (proj1 (same_fns_spec F w g h1 h2 y1 y2 Hw E1 E2) Hid). rb.
  destruct (wrep_lookup _ _ _ _ _ Hw E1) as (x1 & Hx1 & Hr).
  pose proof (rep1_good _ _ _ Hr) as G. destruct Hr as (L1 & _ & _ & _ & _ & I1 & I2).
  rewrite (hget_Some _ _ _ Hx1). rb. rewrite I1, I2.
  eapply ok_bind; [by apply (w_create_spec F al w g)|]. intros w0 [Hw0 Hsame0].
  assert (Hn1 : h1 <> h) by congruence. assert (Hn2 : h2 <> h) by congruence.
  set (y0 := GS [] 0 (ghid y1) (gcid y1)) in *.
  eapply ok_bind.
  { apply (upd_walk F (ins_body F al h) (fun y xs k => sinsert (gcmp F y) k xs) (can_fail al) h1 h fuel)
      with (g := <[h := y0]> g) (ys := y1) (yd := y0); try done.
    - intros; by apply ins_body_spec.
    - by rewrite lookup_insert_ne.
    - by rewrite lookup_insert.
    - eapply enough_frame; [|exact Hf1]. auto. }
  intros [w1 b1] (ks1 & Hks1 & Hd1 & Hw1 & Hsame1). rewrite insert_insert in Hw1.
  set (ya := gwith y0 (fold_left (fun xs k => sinsert (gcmp F y0) k xs) ks1 (gel y0))) in *.
  eapply ok_bind.
  { apply (upd_walk F (ins_body F al h) (fun y xs k => sinsert (gcmp F y) k xs) (can_fail al) h2 h fuel)
      with (g := <[h := ya]> g) (ys := y2) (yd := ya); try done.
    - intros; by apply ins_body_spec.
    - by rewrite lookup_insert_ne.
    - by rewrite lookup_insert.
    - eapply enough_frame; [|exact Hf2]. rewrite Hsame1 by done. auto. }
  intros [w2 b2] (ks2 & Hks2 & Hd2 & Hw2 & Hsame2). rewrite insert_insert in Hw2. cbn [ok].
  split.
  - assert (Hc : gcmp F y2 = gcmp F y1) by (unfold gcmp; destruct Hid as [_ ->]; done).
    rewrite Hc in Hd2.
    eapply (set_to_perm F w2 g h y0 _ (sunion (gcmp F y1) (gel y1) (gel y2))); [|exact Hw2].
    change (insert_all (gcmp F y1) (insert_all (gcmp F y1) [] ks1) ks2 ≡ₚ sunion (gcmp F y1) (gel y1) (gel y2)).
    rewrite insert_all_union by (apply G || done).
    apply sunion_perm; try done; try apply G. rewrite insert_all_union; try done; try apply G. by rewrite sunion_nil.
  - intros h' Hne. rewrite Hsame2, Hsame1 by done. auto.
Qed.


(** ** set_inter and set_diff *)
Lemma vfold_inv {T A} (body : K -> T -> res (T * bool)) fl (Inv : T -> A -> Prop) (op : A -> K -> A) :
  (forall k t a, Inv t a -> ok (fun '(t', b) => b = false /\ Inv t' (op a k)) fl (body k t)) ->
  forall ks t a, Inv t a ->
  ok (fun '(t', b) => b = false /\ Inv t' (fold_left op ks a)) fl (vfold body ks t).
Proof.
  intros Hb. induction ks as [|k ks IH]; intros t a Ht; [done|]. cbn [vfold fold_left].
  eapply ok_bind; [by apply Hb|]. intros [t' b] (-> & H). by apply IH.
Qed.

Definition sel (cmp : K -> K -> Z) (keep : bool) ys (xs : list K) (k : K) : list K :=
  if Bool.eqb (smem cmp k ys) keep then sinsert cmp k xs else xs.
Lemma sel_fold cmp keep ys ks : forall xs,
  fold_left (sel cmp keep ys) ks xs =
  insert_all cmp xs (filter (fun k => smem cmp k ys = keep) ks).
Proof.
  unfold insert_all. induction ks as [|k ks IH]; intros xs; [done|]. cbn [fold_left]. rewrite IH. unfold sel.
  destruct (smem cmp k ys) eqn:E, keep; cbn [Bool.eqb].
  - by rewrite filter_cons_True.
  - rewrite filter_cons_False by congruence. done.
  - rewrite filter_cons_False by congruence. done.
  - by rewrite filter_cons_True.
Qed.
Lemma sdistinct_filter (cmp : K -> K -> Z) (P : K -> Prop) `{forall z : K, Decision (P z)} xs :
  sdistinct cmp xs -> sdistinct cmp (filter P xs).
Proof.
  induction xs as [|x xs IH]; intros Hd; [done|]. apply sdistinct_cons in Hd as [Hx Hd].
  destruct (decide (P x)).
  - rewrite filter_cons_True by done. apply sdistinct_cons. split; [|auto].
    intros y Hy. apply elem_of_list_filter in Hy as [_ Hy]. auto.
  - rewrite filter_cons_False by done. auto.
Qed.

Definition skeep (cmp : K -> K -> Z) (keep : bool) xs ys : list K :=
  filter (fun z => smem cmp z ys = keep) xs.

Lemma hinv_undisturbed F x x' L : undisturbed x x' -> hinv (wenv F x) (ws x) L -> hinv (wenv F x') (ws x') L.
Proof. intros (r & h & m & ->) [[] ?]. constructor; [constructor|..]; done. Qed.

Lemma set_inter_diff_spec keep F al fuel w g h h1 h2 y1 y2 :
  wrep F w g -> g !! h1 = Some y1 -> g !! h2 = Some y2 -> g !! h = None -> same_ids y1 y2 ->
  halloc_ok al -> enough w h1 y1 fuel ->
  ok (fun w' => wrep F w' (<[h := GS (skeep (gcmp F y1) keep (gel y1) (gel y2)) 0 (ghid y1) (gcid y1)]> g) /\
                (forall h', h' <> h -> h' <> h2 -> w' !! h' = w !! h') /\
                (forall x, w !! h2 = Some x -> exists x', w' !! h2 = Some x' /\ undisturbed x x'))
     (can_fail al) (set_inter_diff keep F al fuel w h h1 h2).
Proof.
  intros Hw E1 E2 E Hid Hal Hf1. unfold set_inter_diff.
  rewrite (proj1 (same_fns_spec F w g h1 h2 y1 y2 Hw E1 E2) Hid). rb.
  destruct (wrep_lookup _ _ _ _ _ Hw E1) as (x1 & Hx1 & Hr).
  pose proof (rep1_good _ _ _ Hr) as G. destruct Hr as (L1 & HI1 & G1 & Hp1 & _ & I1 & I2).
  destruct (wrep_lookup _ _ _ _ _ Hw E2) as (x2 & Hx2 & L2 & HI2 & G2 & Hp2 & Hro2 & I3 & I4).
  rewrite (hget_Some _ _ _ Hx1). rb. rewrite (hget_Some _ _ _ Hx2). rb. rewrite I1, I2.
  eapply ok_bind; [by apply (w_create_spec F al w g)|]. intros w0 [Hw0 Hsame0].
  assert (Hn1 : h1 <> h) by congruence. assert (Hn2 : h2 <> h) by congruence.
  set (y0 := GS [] 0 (ghid y1) (gcid y1)) in *.
  assert (E2' : <[h := y0]> g !! h2 = Some y2) by (by rewrite lookup_insert_ne).
  destruct (w_set_ro_spec F w0 _ h2 y2 1 Hw0 E2') as (x2' & Hx2' & -> & Hw1 & _). rb.
  rewrite Hsame0 in Hx2' by done. rewrite Hx2 in Hx2'. injection Hx2' as <-.
  set (xr := WS (with_ro (ws x2) 1) (whid x2) (wcid x2)) in *.
  set (w1 := <[h2 := xr]> w0) in *.
  set (g1 := <[h2 := gflag y2 1]> g).
  assert (Hw1' : wrep F w1 (<[h := y0]> g1)).
  { unfold g1. rewrite insert_commute by done. exact Hw1. }
  clear Hw1. rename Hw1' into Hw1.
  (* the walked set during the loop *)
  assert (exists x1', w1 !! h1 = Some x1' /\ hinv (wenv F x1') (ws x1') L1 /\
                      prime (tab (ws x1')) = prime (tab (ws x1))) as (x1' & Hx1' & HI1' & Hpr).
  { unfold w1. destruct (decide (h1 = h2)) as [->|Hne].
    - rewrite lookup_insert. exists xr. split; [done|]. rewrite Hx1 in Hx2. injection Hx2 as <-.
      split; [|done]. by apply (hinv_flag _ (ws x1)).
    - rewrite lookup_insert_ne by done. rewrite Hsame0 by done. eauto. }
  set (Inv := fun (w' : world) (xs : list K) =>
     wrep F w' (<[h := gwith y0 xs]> g1) /\ walked h1 x1' w' /\ walked h2 xr w' /\
     forall h', h' <> h -> h' <> h2 -> w' !! h' = w !! h').
  set (body := fun k w => _).
  assert (Hc : gcmp F y2 = gcmp F y1) by (unfold gcmp; destruct Hid as [_ ->]; done).
  assert (Hbody : forall k w' xs, Inv w' xs ->
     ok (fun '(w'', b) => b = false /\ Inv w'' (sel (gcmp F y1) keep (gel y2) xs k)) (can_fail al) (body k w')).
  { intros k w' xs (Q1 & (xa & Qa & Ua) & (xb & Qb & Ub) & Q4). unfold body.
    assert (Eg : <[h := gwith y0 xs]> g1 !! h2 = Some (gflag y2 1)).
    { rewrite lookup_insert_ne by done. unfold g1. by rewrite lookup_insert. }
    destruct (w_member_spec F w' _ h2 (gflag y2 1) k Q1 Eg) as (w2 & -> & R1 & R2 & R3). rb.
    replace (gcmp F (gflag y2 1)) with (gcmp F y1) by (rewrite <- Hc; done). cbn [gflag gel].
    destruct (R3 ltac:(done) xb Qb) as (xb' & Qb' & Ub'). clear R3.
    assert (W2 : walked h2 xr w2) by (exists xb'; split; [done|]; by eapply undisturbed_trans).
    assert (W1 : walked h1 x1' w2).
    { destruct (decide (h1 = h2)) as [->|Hne].
      - exists xb'. split; [done|]. rewrite Qa in Qb. injection Qb as ->. by eapply undisturbed_trans.
      - exists xa. rewrite R2 by done. done. }
    assert (W3 : forall h', h' <> h -> h' <> h2 -> w2 !! h' = w !! h').
    { intros h' ? ?. rewrite R2 by done. by apply Q4. }
    unfold sel. replace (negb ((if smem (gcmp F y1) k (gel y2) then 1%Z else 0%Z) =? 0)%Z)
      with (smem (gcmp F y1) k (gel y2)) by (by destruct (smem _ _ _)).
    destruct (Bool.eqb (smem (gcmp F y1) k (gel y2)) keep); [|done].
    eapply ok_bind; [apply (w_insert_spec F al w2 _ h (gwith y0 xs) k R1)|]; try done.
    { by rewrite lookup_insert. }
    intros [w3 r] (_ & T1 & T2). cbn [ok]. split; [done|].
    rewrite insert_insert in T1. split; [exact T1|]. split; [|split].
    - destruct W1 as (x & ? & ?). exists x. rewrite T2 by done. done.
    - destruct W2 as (x & ? & ?). exists x. rewrite T2 by done. done.
    - intros h' ? ?. rewrite T2 by done. by apply W3. }
  assert (Hinv1 : Inv w1 []).
  { split; [exact Hw1|]. split; [exists x1'; split; [done|apply undisturbed_refl]|]. split.
    - exists xr. unfold w1. rewrite lookup_insert. split; [done|apply undisturbed_refl].
    - intros h' ? ?. unfold w1. rewrite lookup_insert_ne by done. by apply Hsame0. }
  rewrite (walk_vfold (getset h1) body (fun w' => exists xs, Inv w' xs) (ws x1'))
    with (env := wenv F x1') (L := L1).
  - eapply ok_bind; [apply (vfold_inv body _ Inv (sel (gcmp F y1) keep (gel y2)) Hbody (elems L1) w1 [] Hinv1)|].
    intros [w2 b] (_ & Q1 & _ & (xb & Qb & Ub) & Q4).
    set (xs := fold_left _ _ _) in *.
    assert (Eg : <[h := gwith y0 xs]> g1 !! h2 = Some (gflag y2 1)).
    { rewrite lookup_insert_ne by done. unfold g1. by rewrite lookup_insert. }
    destruct (w_set_ro_spec F w2 _ h2 (gflag y2 1) (readonly (tab (ws x2))) Q1 Eg) as (xc & Hxc & -> & Hw3 & _).
    rewrite Qb in Hxc. injection Hxc as <-. cbn [ok]. split; [|split].
    + eapply (set_to_perm F _ g h y0 xs).
      * unfold xs. rewrite sel_fold, insert_all_union; try apply G; try (apply sdistinct_filter).
        2:{ replace (gcmp F y1) with (cmpf (wenv F x1)) by (unfold gcmp; rewrite <- I2; done).
            apply sdistinct_adistinct, HI1. }
        rewrite sunion_nil. unfold skeep. by rewrite Hp1.
      * unfold set_to. revert Hw3. unfold g1. rewrite insert_commute by done. rewrite insert_insert.
        unfold gflag. cbn [gel gro ghid gcid]. rewrite Hro2.
        replace (GS (gel y2) (gro y2) (ghid y2) (gcid y2)) with y2 by (by destruct y2).
        rewrite (insert_id g h2 y2) by done. done.
    + intros h' ? ?. rewrite lookup_insert_ne by done. by apply Q4.
    + intros x Hx. rewrite Hx2 in Hx. injection Hx as <-. rewrite lookup_insert. eexists. split; [done|].
      destruct Ub as (r & hh & m & ->). exists r, hh, m. unfold xr. cbn [ws whid wcid with_ro heap tab]. f_equal.
  - intros w' (xs & _ & Q & _). by apply walked_frozen.
  - intros k w' [w'' b] (xs & Q) Er. pose proof (Hbody k w' xs Q) as Hb. rewrite Er in Hb. destruct Hb as [_ Q']. simpl. eauto.
  - done.
  - rewrite Hp1, Hpr. by apply Hf1.
  - eauto.
Qed.

(** ** set_equal *)
Lemma set_equal_spec F fuel w g h1 h2 y1 y2 :
  wrep F w g -> g !! h1 = Some y1 -> g !! h2 = Some y2 -> same_ids y1 y2 -> enough w h1 y1 fuel ->
  (N.of_nat (length (gel y1)) < 2 ^ 64)%N -> (N.of_nat (length (gel y2)) < 2 ^ 64)%N ->
  exists w' r, set_equal F fuel w h1 h2 = Ret (w', r) /\
    (r = 1%Z /\ sequal (gcmp F y1) (gel y1) (gel y2) \/ r = 0%Z /\ ~ sequal (gcmp F y1) (gel y1) (gel y2)) /\
    wrep F w' g /\
    (forall h', h' <> h2 -> w' !! h' = w !! h') /\
    (forall x, w !! h2 = Some x -> exists x', w' !! h2 = Some x' /\ undisturbed x x').
Proof.
  intros Hw E1 E2 Hid Hf1 Hlen1 Hlen2. unfold set_equal.
  rewrite (proj1 (same_fns_spec F w g h1 h2 y1 y2 Hw E1 E2) Hid). rb.
  destruct (wrep_lookup _ _ _ _ _ Hw E1) as (x1 & Hx1 & Hr).
  pose proof (rep1_good _ _ _ Hr) as G. destruct Hr as (L1 & HI1 & G1 & Hp1 & _ & I1 & I2).
  destruct (wrep_lookup _ _ _ _ _ Hw E2) as (x2 & Hx2 & L2 & HI2 & G2 & Hp2 & Hro2 & I3 & I4).
  rewrite (hget_Some _ _ _ Hx1). rb. rewrite (hget_Some _ _ _ Hx2). rb.
  assert (Hc : gcmp F y2 = gcmp F y1) by (unfold gcmp; destruct Hid as [_ ->]; done).
  assert (D1 : sdistinct (gcmp F y1) (elems L1)).
  { replace (gcmp F y1) with (cmpf (wenv F x1)) by (unfold gcmp; rewrite <- I2; done).
    apply sdistinct_adistinct, HI1. }
  assert (D2 : sdistinct (gcmp F y1) (elems L2)).
  { rewrite <- Hc. replace (gcmp F y2) with (cmpf (wenv F x2)) by (unfold gcmp; rewrite <- I4; done).
    apply sdistinct_adistinct, HI2. }
  assert (D1' : sdistinct (gcmp F y1) (gel y1)) by (apply (sdistinct_perm (gcmp F y1)) with (xs := elems L1); done || apply G).
  assert (D2' : sdistinct (gcmp F y1) (gel y2)) by (apply (sdistinct_perm (gcmp F y1)) with (xs := elems L2); done || apply G).
  rewrite (hi_entries _ _ _ HI1), (hi_entries _ _ _ HI2).
  replace (length (pairs L1)) with (length (gel y1)) by (rewrite <- Hp1; apply fmap_length).
  replace (length (pairs L2)) with (length (gel y2)) by (rewrite <- Hp2; apply fmap_length).
  unfold u64. rewrite !(N.mod_small _ (2 ^ 64)) by done.
  destruct (N.eqb_spec (N.of_nat (length (gel y1))) (N.of_nat (length (gel y2)))) as [Hle|Hle]; cbn [negb].
  2:{ exists w, 0%Z. split; [done|]. split.
      - right. split; [done|]. intros Hq. apply Hle. f_equal. apply (sequal_length (gcmp F y1)); try done; apply G.
      - split; [done|]. split; [done|]. intros x Hx. exists x. split; [done|apply undisturbed_refl]. }
  destruct (w_set_ro_spec F w _ h2 y2 1 Hw E2) as (x2' & Hx2' & -> & Hw1 & _). rb.
  rewrite Hx2 in Hx2'. injection Hx2' as <-.
  set (xr := WS (with_ro (ws x2) 1) (whid x2) (wcid x2)) in *.
  set (w1 := <[h2 := xr]> w) in *. set (g1 := <[h2 := gflag y2 1]> g) in *.
  assert (exists x1', w1 !! h1 = Some x1' /\ hinv (wenv F x1') (ws x1') L1 /\
                      prime (tab (ws x1')) = prime (tab (ws x1))) as (x1' & Hx1' & HI1' & Hpr).
  { unfold w1. destruct (decide (h1 = h2)) as [->|Hne].
    - rewrite lookup_insert. exists xr. split; [done|]. rewrite Hx1 in Hx2. injection Hx2 as <-.
      split; [|done]. by apply (hinv_flag _ (ws x1)).
    - rewrite lookup_insert_ne by done. eauto. }
  set (Inv := fun (w' : world) =>
     wrep F w' g1 /\ walked h1 x1' w' /\ walked h2 xr w' /\ forall h', h' <> h2 -> w' !! h' = w !! h').
  set (body := fun k w => _).
  assert (Hbody : forall k w', Inv w' ->
     ok (fun '(w'', b) => b = negb (smem (gcmp F y1) k (gel y2)) /\ Inv w'') False (body k w')).
  { intros k w' (Q1 & (xa & Qa & Ua) & (xb & Qb & Ub) & Q4). unfold body.
    assert (Eg : g1 !! h2 = Some (gflag y2 1)) by (unfold g1; by rewrite lookup_insert).
    destruct (w_member_spec F w' _ h2 (gflag y2 1) k Q1 Eg) as (w2 & -> & R1 & R2 & R3). rb.
    replace (gcmp F (gflag y2 1)) with (gcmp F y1) by (rewrite <- Hc; done). cbn [gflag gel].
    destruct (R3 ltac:(done) xb Qb) as (xb' & Qb' & Ub'). clear R3. cbn [ok].
    split; [by destruct (smem _ _ _)|]. split; [done|]. split; [|split].
    - destruct (decide (h1 = h2)) as [->|Hne].
      + exists xb'. split; [done|]. rewrite Qa in Qb. injection Qb as ->. by eapply undisturbed_trans.
      + exists xa. rewrite R2 by done. done.
    - exists xb'. split; [done|]. by eapply undisturbed_trans.
    - intros h' ?. rewrite R2 by done. by apply Q4. }
  assert (Hinv1 : Inv w1).
  { split; [exact Hw1|]. split; [exists x1'; split; [done|apply undisturbed_refl]|]. split.
    - exists xr. unfold w1. rewrite lookup_insert. split; [done|apply undisturbed_refl].
    - intros h' ?. unfold w1. by rewrite lookup_insert_ne. }
  rewrite (walk_vfold (getset h1) body Inv (ws x1')) with (env := wenv F x1') (L := L1).
  - assert (Hv : forall ks w', Inv w' -> exists w'',
       vfold body ks w' = Ret (w'', negb (forallb (fun k => smem (gcmp F y1) k (gel y2)) ks)) /\ Inv w'').
    { induction ks as [|k ks IH]; intros w' Hw'; [by exists w'|]. cbn [vfold forallb].
      pose proof (Hbody k w' Hw') as Hb. destruct (body k w') as [[w'' b]| | | |]; simpl in Hb; try done.
      destruct Hb as [-> Hb]. rb. destruct (smem (gcmp F y1) k (gel y2)); cbn [negb andb]; [by apply IH|eauto]. }
    destruct (Hv (elems L1) w1 Hinv1) as (w2 & -> & Q1 & _ & (xb & Qb & Ub) & Q4). rb.
    assert (Eg : g1 !! h2 = Some (gflag y2 1)) by (unfold g1; by rewrite lookup_insert).
    destruct (w_set_ro_spec F w2 _ h2 (gflag y2 1) (readonly (tab (ws x2))) Q1 Eg) as (xc & Hxc & -> & Hw3 & _).
    rewrite Qb in Hxc. injection Hxc as <-. rb. eexists _, _. split; [done|]. split; [|split; [|split]].
    + assert (Hs : forallb (fun k => smem (gcmp F y1) k (gel y2)) (elems L1) = true <-> ssub (gcmp F y1) (gel y1) (gel y2)).
      { rewrite forallb_forall. unfold ssub. setoid_rewrite <- elem_of_list_In. setoid_rewrite Hp1. done. }
      destruct (forallb _ _) eqn:Ef; cbn [negb].
      * left. split; [done|]. apply (sequal_sub (gcmp F y1)); try apply G. assert (Hss := proj1 Hs eq_refl). split; [done|].
        apply (ssub_full (gcmp F y1)); try apply G; try done. lia.
      * right. split; [done|]. intros Hq. apply (sequal_sub (gcmp F y1)) in Hq as [Hq _]; try apply G.
        apply Hs in Hq. congruence.
    + revert Hw3. unfold g1. rewrite insert_insert. unfold gflag. cbn [gel gro ghid gcid]. rewrite Hro2.
      replace (GS (gel y2) (gro y2) (ghid y2) (gcid y2)) with y2 by (by destruct y2).
      rewrite (insert_id g h2 y2) by done. done.
    + intros h' ?. rewrite lookup_insert_ne by done. by apply Q4.
    + intros x Hx. rewrite Hx2 in Hx. injection Hx as <-. rewrite lookup_insert. eexists. split; [done|].
      destruct Ub as (r & hh & m & ->). exists r, hh, m. unfold xr. cbn [ws whid wcid with_ro heap tab]. done.
  - intros w' (_ & Q & _). by apply walked_frozen.
  - intros k w' [w'' b] Q Er. pose proof (Hbody k w' Q) as Hb. rewrite Er in Hb. by destruct Hb as [_ Q'].
  - done.
  - rewrite Hp1, Hpr. by apply Hf1.
  - done.
Qed.

(** mismatching functions: fatal error before anything changes *)
Lemma mismatch_fatal F al fuel w g h h1 h2 y1 y2 :
  wrep F w g -> g !! h1 = Some y1 -> g !! h2 = Some y2 -> ~ same_ids y1 y2 ->
  set_add F al fuel w h1 h2 = Fatal /\ set_del F fuel w h1 h2 = Fatal /\
  set_union F al fuel w h h1 h2 = Fatal /\ set_inter F al fuel w h h1 h2 = Fatal /\
  set_diff F al fuel w h h1 h2 = Fatal /\ set_equal F fuel w h1 h2 = Fatal.
Proof.
  intros Hw E1 E2 Hn. pose proof (proj2 (same_fns_spec F w g h1 h2 y1 y2 Hw E1 E2) Hn) as Hs.
  unfold set_add, set_del, set_union, set_inter, set_diff, set_inter_diff, set_equal. by rewrite Hs.
Qed.


(** adding to or deleting from a readonly set: abort, unless there is nothing to do *)
Lemma add_del_ro F al fuel w g h1 h2 y1 y2 :
  wrep F w g -> g !! h1 = Some y1 -> g !! h2 = Some y2 -> same_ids y1 y2 ->
  gro y1 <> 0%Z -> enough w h2 y2 fuel ->
  set_add F al fuel w h1 h2 = (if decide (gel y2 = []) then Ret w else Abort) /\
  set_del F fuel w h1 h2 = (if decide (gel y2 = []) then Ret w else Abort).
Proof.
  intros Hw E1 E2 Hid Hro Hf. unfold set_add, set_del.
  rewrite (proj1 (same_fns_spec F w g h1 h2 y1 y2 Hw E1 E2) Hid). rb.
  destruct (wrep_lookup _ _ _ _ _ Hw E2) as (x2 & Hx2 & L2 & HI2 & G2 & Hp2 & _).
  assert (Hfr : forall w', w' = w -> frozen (getset h2) (ws x2) w').
  { intros w' ->. apply walked_frozen. exists x2. split; [done|apply undisturbed_refl]. }
  assert (Hl : N.to_nat (prime (tab (ws x2))) + length (elems L2) < fuel).
  { rewrite Hp2. by apply Hf. }
  split.
  - rewrite (walk_vfold (getset h2) _ (fun w' => w' = w) (ws x2) Hfr) with (env := wenv F x2) (L := L2); try done.
    2:{ intros k w' r ->. rewrite (w_insert_ro F al w g h1 y1 k Hw E1 Hro). done. }
    destruct (elems L2) as [|k ks] eqn:El.
    + apply Permutation_nil_l in Hp2. rewrite <- Hp2. by rewrite decide_True.
    + rewrite decide_False.
      2:{ intros Hn. rewrite Hn in Hp2. by apply Permutation_nil_r in Hp2. }
      cbn [vfold]. rewrite (w_insert_ro F al w g h1 y1 k Hw E1 Hro). done.
  - rewrite (walk_vfold (getset h2) _ (fun w' => w' = w) (ws x2) Hfr) with (env := wenv F x2) (L := L2); try done.
    2:{ intros k w' r ->. rewrite (w_delete_ro F w g h1 y1 k Hw E1 Hro). done. }
    destruct (elems L2) as [|k ks] eqn:El.
    + apply Permutation_nil_l in Hp2. rewrite <- Hp2. by rewrite decide_True.
    + rewrite decide_False.
      2:{ intros Hn. rewrite Hn in Hp2. by apply Permutation_nil_r in Hp2. }
      cbn [vfold]. rewrite (w_delete_ro F w g h1 y1 k Hw E1 Hro). done.
Qed.

End SetWorld.
