(** C93: any number of sets in one memory. *)
From Verif Require Import Base Trace PrimeModel ListLemmas HashModel HashSpec HashProofs HashOps HashOps2 HashIter HashHist HashTrace HashFrame HashMem SetModel SetSpec SetAlg SetProofs SetWorld SetHist SetTrace SetFrame.
Local Open Scope nat_scope.

Section SetMem.
Context {K : Type}.
Notation hst := (hst K unit).
Notation bheap := (gmap positive (bucket K unit)).
Notation halloc := (halloc K unit).
Notation world := (world K).
Notation gworld := (gmap positive (@gst K)).
Implicit Types (al : halloc) (w : world) (F : fns K) (g : gworld) (H R M : bheap).

(** ** The model: one memory holds the nodes of all sets; a set handle stands for the set's structure
    (set.c:38-56).  The operations are those of SetModel.v, on this memory. *)
Record mset := MS { ms : table; mhid : positive; mcid : positive }.
Record mworld := MW { nodes_of : bheap; sets_of : gmap positive mset }.
Implicit Types m : mworld.
Definition menv F (x : mset) : henv K unit := HE (fhash F (mhid x)) (fcmp F (mcid x)) tt.
Definition m_at m (x : mset) : hst := MkH (nodes_of m) (ms x).
Definition m_upd m h (s : hst) : res mworld := x ← hget (sets_of m) h; Ret (MW (heap s) (<[h := MS (tab s) (mhid x) (mcid x)]> (sets_of m))).
Definition m_get h m : res hst := x ← hget (sets_of m) h; Ret (m_at m x).
Definition m_insert F al m h k : res (mworld * Z) :=
  x ← hget (sets_of m) h; '(s, r) ← set_insert (menv F x) al (m_at m x) k; m' ← m_upd m h s; Ret (m', r).
Definition m_delete F m h k : res (mworld * Z) :=
  x ← hget (sets_of m) h; '(s, r) ← set_delete (menv F x) (m_at m x) k; m' ← m_upd m h s; Ret (m', r).
Definition m_member F m h k : res (mworld * Z) :=
  x ← hget (sets_of m) h; '(s, r) ← set_member (menv F x) (m_at m x) k; m' ← m_upd m h s; Ret (m', r).
Definition m_readonly m h f : res (mworld * Z) :=
  x ← hget (sets_of m) h; '(s, r) ← set_readonly_ (m_at m x) f; m' ← m_upd m h s; Ret (m', r).
Definition m_set_ro m h f : res mworld := x ← hget (sets_of m) h; m_upd m h (with_ro (m_at m x) f).
Definition m_create al m (h hid cid : positive) : res mworld :=
  s ← set_create al; match sets_of m !! h with Some _ => UB | None => Ret (MW (nodes_of m) (<[h := MS (tab s) hid cid]> (sets_of m))) end.
Definition m_destroy m h : res mworld :=
  x ← hget (sets_of m) h; H ← set_destroy (m_at m x); Ret (MW H (delete h (sets_of m))).
Definition m_same m h1 h2 : res unit :=
  x1 ← hget (sets_of m) h1; x2 ← hget (sets_of m) h2;
  if negb (bool_decide (mhid x1 = mhid x2)) then Fatal else if negb (bool_decide (mcid x1 = mcid x2)) then Fatal else Ret tt.
(** set.c:485-512, 520-547, 554-593, 600-679, 685-719 *)
Definition m_add F al (fuel : nat) m h1 h2 : res mworld :=
  _ ← m_same m h1 h2; '(m', _) ← walk (m_get h2) (fun k m => '(m', _) ← m_insert F al m h1 k; Ret (m', false)) fuel m; Ret m'.
Definition m_del F (fuel : nat) m h1 h2 : res mworld :=
  _ ← m_same m h1 h2; '(m', _) ← walk (m_get h2) (fun k m => '(m', _) ← m_delete F m h1 k; Ret (m', false)) fuel m; Ret m'.
Definition m_union F al (fuel : nat) m h h1 h2 : res mworld :=
  _ ← m_same m h1 h2; x1 ← hget (sets_of m) h1; m0 ← m_create al m h (mhid x1) (mcid x1);
  '(m1, _) ← walk (m_get h1) (fun k m => '(m', _) ← m_insert F al m h k; Ret (m', false)) fuel m0;
  '(m2, _) ← walk (m_get h2) (fun k m => '(m', _) ← m_insert F al m h k; Ret (m', false)) fuel m1; Ret m2.
Definition m_inter_diff (keep : bool) F al (fuel : nat) m h h1 h2 : res mworld :=
  _ ← m_same m h1 h2; x1 ← hget (sets_of m) h1; x2 ← hget (sets_of m) h2; m0 ← m_create al m h (mhid x1) (mcid x1);
  let savedReadonly := readonly (ms x2) in
  m1 ← m_set_ro m0 h2 1;
  '(m2, _) ← walk (m_get h1)
     (fun k m => '(m', b) ← m_member F m h2 k;
        if Bool.eqb (negb (b =? 0)%Z) keep then '(m'', _) ← m_insert F al m' h k; Ret (m'', false) else Ret (m', false)) fuel m1;
  m_set_ro m2 h2 savedReadonly.
Definition m_equal F (fuel : nat) m h1 h2 : res (mworld * Z) :=
  _ ← m_same m h1 h2; x1 ← hget (sets_of m) h1; x2 ← hget (sets_of m) h2;
  if negb (entries (ms x1) =? entries (ms x2))%N then Ret (m, 0%Z) else
  let savedReadonly := readonly (ms x2) in
  m1 ← m_set_ro m h2 1;
  '(m2, stopped) ← walk (m_get h1) (fun k m => '(m', b) ← m_member F m h2 k; Ret (m', (b =? 0)%Z)) fuel m1;
  m3 ← m_set_ro m2 h2 savedReadonly; Ret (m3, if (stopped : bool) then 0%Z else 1%Z).
(** no loop of set.c goes round more often than this *)
Definition mrounds m : nat := sum_list_with (fun x => S (N.to_nat (prime (ms x)) + size (nodes_of m))) (map_to_list (sets_of m)).*2.
Definition mstep F m (c : scall K) : res (mworld * sres K) :=
  match c with
  | SCreate al h hid cid => m' ← m_create al m h hid cid; Ret (m', SDone)
  | SInsert al h k => '(m', r) ← m_insert F al m h k; Ret (m', SInt r)
  | SDelete h k => '(m', r) ← m_delete F m h k; Ret (m', SInt r)
  | SMember h k => '(m', r) ← m_member F m h k; Ret (m', SInt r)
  | SReadonly h f => '(m', r) ← m_readonly m h f; Ret (m', SInt r)
  | SCount h => x ← hget (sets_of m) h; Ret (m, SInt (set_count (m_at m x)))
  | SIterate h => x ← hget (sets_of m) h; '(s', xs, _) ← set_iterate (mrounds m) (spure scollect) (m_at m x) [];
                  m' ← m_upd m h s'; Ret (m', SElems xs)
  | SAdd al h1 h2 => m' ← m_add F al (mrounds m) m h1 h2; Ret (m', SDone)
  | SDel h1 h2 => m' ← m_del F (mrounds m) m h1 h2; Ret (m', SDone)
  | SUnion al h h1 h2 => m' ← m_union F al (mrounds m) m h h1 h2; Ret (m', SDone)
  | SInter al h h1 h2 => m' ← m_inter_diff true F al (mrounds m) m h h1 h2; Ret (m', SDone)
  | SDiff al h h1 h2 => m' ← m_inter_diff false F al (mrounds m) m h h1 h2; Ret (m', SDone)
  | SEqual h1 h2 => '(m', r) ← m_equal F (mrounds m) m h1 h2; Ret (m', SInt r)
  | SDestroy h => m' ← m_destroy m h; Ret (m', SDone)
  end.

(** ** The memory is made of the private memories of the sets *)
Definition struct_of (x : wset K) : mset := MS (tab (ws x)) (whid x) (wcid x).
Record mrel w m : Prop := {
  mr_sets : sets_of m = struct_of <$> w;
  mr_sub : forall h x, w !! h = Some x -> heap (ws x) ⊆ nodes_of m;
  mr_disj : forall h1 h2 x1 x2, h1 <> h2 -> w !! h1 = Some x1 -> w !! h2 = Some x2 -> heap (ws x1) ##ₘ heap (ws x2);
  mr_own : forall a b, nodes_of m !! a = Some b -> exists h x, w !! h = Some x /\ heap (ws x) !! a = Some b
}.
(** what is not [x]'s *)
Definition rest m (x : wset K) : bheap := nodes_of m ∖ heap (ws x).
Lemma rest_part w m h x : mrel w m -> w !! h = Some x -> parts (rest m x) (ws x) (m_at m (struct_of x)).
Proof.
  intros Hr Hx. pose proof (mr_sub _ _ Hr _ _ Hx) as Hs. split; [|done]. split; [by apply map_disjoint_difference_r|]. cbn.
  unfold rest. by rewrite map_difference_union.
Qed.
Lemma mrel_get w m h x : mrel w m -> w !! h = Some x -> sets_of m !! h = Some (struct_of x).
Proof. intros Hr Hx. rewrite (mr_sets _ _ Hr), lookup_fmap, Hx. done. Qed.
Lemma mrel_none w m h : mrel w m -> w !! h = None -> sets_of m !! h = None.
Proof. intros Hr Hx. rewrite (mr_sets _ _ Hr), lookup_fmap, Hx. done. Qed.
Lemma mrel_upd w m h x s M : mrel w m -> w !! h = Some x -> part (rest m x) (heap s) M ->
  mrel (<[h := WS s (whid x) (wcid x)]> w) (MW M (<[h := MS (tab s) (whid x) (wcid x)]> (sets_of m))) /\ M ∖ heap s = rest m x.
Proof.
  intros Hr Hx [Hd ->]. pose proof (rest_part _ _ _ _ Hr Hx) as [[Hd0 E0] _]. cbn in E0.
  assert (Hoth : forall h' x', h' <> h -> w !! h' = Some x' -> heap (ws x') ⊆ rest m x).
  { intros h' x' Hne Hx'. apply map_subseteq_spec. intros a b Ha. apply lookup_difference_Some.
    split; [exact (lookup_weaken _ _ _ _ Ha (mr_sub _ _ Hr _ _ Hx'))|]. eapply map_disjoint_Some_l; [|exact Ha]. by eapply mr_disj. }
  split; [split|]; cbn [sets_of nodes_of].
  - rewrite fmap_insert. by rewrite (mr_sets _ _ Hr).
  - intros h' x' Hx'. destruct (decide (h' = h)) as [->|Hne].
    + rewrite lookup_insert in Hx'. injection Hx' as <-. cbn. apply map_union_subseteq_l.
    + rewrite lookup_insert_ne in Hx' by done. etransitivity; [by eapply Hoth|]. by apply map_union_subseteq_r.
  - intros h1 h2 x1 x2 Hne H1 H2. destruct (decide (h1 = h)) as [->|N1], (decide (h2 = h)) as [->|N2]; [done| | |].
    + rewrite lookup_insert in H1. rewrite lookup_insert_ne in H2 by done. injection H1 as <-. cbn. eapply map_disjoint_weaken_r; [exact Hd|]. by eapply Hoth.
    + rewrite lookup_insert in H2. rewrite lookup_insert_ne in H1 by done. injection H2 as <-. cbn. symmetry. eapply map_disjoint_weaken_r; [exact Hd|]. by eapply Hoth.
    + rewrite lookup_insert_ne in H1 by done. rewrite lookup_insert_ne in H2 by done. exact (mr_disj _ _ Hr _ _ _ _ Hne H1 H2).
  - intros a b Hab. apply lookup_union_Some_raw in Hab as [Ha|[Hn Ha]].
    + exists h. eexists. rewrite lookup_insert. split; [reflexivity|done].
    + apply lookup_difference_Some in Ha as [Ha Hna]. destruct (mr_own _ _ Hr a b Ha) as (h' & x' & Hx' & Hb).
      exists h', x'. rewrite lookup_insert_ne; [done|]. intros ->. rewrite Hx in Hx'. injection Hx' as <-. by rewrite Hna in Hb.
  - apply map_eq. intros a. destruct (rest m x !! a) as [b|] eqn:Ea.
    + apply lookup_difference_Some. split; [|by eapply map_disjoint_Some_r]. by apply lookup_union_Some_r.
    + destruct (((heap s ∪ rest m x) ∖ heap s) !! a) as [b|] eqn:Eb; [|done]. apply lookup_difference_Some in Eb as [Eb1 Eb2].
      rewrite lookup_union_r in Eb1 by done. congruence.
Qed.
Lemma sim_get w m h : mrel w m -> sim (fun x y => y = struct_of x /\ w !! h = Some x) (hget w h) (hget (sets_of m) h).
Proof. intros Hr. unfold hget. destruct (w !! h) as [x|] eqn:E; [|done]. rewrite (mrel_get _ _ _ _ Hr E). by apply sim_ret. Qed.
Lemma sim_getset w m h : mrel w m -> sim inside (getset h w) (m_get h m).
Proof.
  intros Hr. unfold getset, m_get. eapply sim_bind; [by apply sim_get|]. intros x y [-> Hx]. apply sim_ret.
  split; [by eapply mr_sub|done].
Qed.
(** an update of set [h]: the memory of the others is what it was *)
Definition mrel_at h R w m : Prop := mrel w m /\ exists x, w !! h = Some x /\ rest m x = R.
Lemma sim_upd w m h x s s' : mrel w m -> w !! h = Some x -> parts (rest m x) s s' ->
  sim (mrel_at h (rest m x)) (upd w h s) (m_upd m h s').
Proof.
  intros Hr Hx [Hp Et]. unfold upd, m_upd. rewrite (hget_Some _ _ _ Hx), (hget_Some _ _ _ (mrel_get _ _ _ _ Hr Hx)). rb. apply sim_ret.
  rewrite Et. destruct (mrel_upd w m h x s (heap s') Hr Hx Hp) as [H1 H2]. split; [exact H1|]. eexists. rewrite lookup_insert. split; [reflexivity|]. exact H2.
Qed.
Notation res_rel S := (fun a b => S a.1 b.1 /\ b.2 = a.2).
Lemma sim_w_insert F al R w m h k : halloc_ok al -> mrel_at h R w m -> sim (res_rel (mrel_at h R)) (w_insert F (al_part R al) w h k) (m_insert F al m h k).
Proof.
  intros Hal [Hr (x & Hx & <-)]. unfold w_insert, m_insert. rewrite (hget_Some _ _ _ Hx), (hget_Some _ _ _ (mrel_get _ _ _ _ Hr Hx)). rb.
  eapply sim_bind; [apply (sim_set_insert (wenv F x)); [done|by eapply rest_part]|]. intros [s r] [s' r'] [Hp E]. cbn [fst snd] in Hp, E. subst r'.
  eapply sim_bind; [by apply (sim_upd w m h x)|]. intros w1 m1 H1. by apply sim_ret.
Qed.
Lemma sim_w_delete F w m h k : mrel w m -> sim (res_rel mrel) (w_delete F w h k) (m_delete F m h k).
Proof.
  intros Hr. unfold w_delete, m_delete. eapply sim_bind; [by apply sim_get|]. intros x y [-> Hx].
  eapply sim_bind; [apply (sim_set_delete (wenv F x)); by eapply rest_part|]. intros [s r] [s' r'] [Hp E]. cbn [fst snd] in Hp, E. subst r'.
  eapply sim_bind; [by apply (sim_upd w m h x)|]. intros w1 m1 [H1 _]. by apply sim_ret.
Qed.
Lemma sim_w_member F w m h k : mrel w m -> sim (res_rel mrel) (w_member F w h k) (m_member F m h k).
Proof.
  intros Hr. unfold w_member, m_member. eapply sim_bind; [by apply sim_get|]. intros x y [-> Hx].
  eapply sim_bind; [apply (sim_set_member (wenv F x)); by eapply rest_part|]. intros [s r] [s' r'] [Hp E]. cbn [fst snd] in Hp, E. subst r'.
  eapply sim_bind; [by apply (sim_upd w m h x)|]. intros w1 m1 [H1 _]. by apply sim_ret.
Qed.
(** a look-up in a readonly set leaves all of the memory as it is *)
Definition ro_at h2 w : Prop := exists x, w !! h2 = Some x /\ readonly (tab (ws x)) <> 0%Z.
Lemma sim_w_member_ro F h R w m h2 k : h <> h2 -> mrel_at h R w m -> ro_at h2 w ->
  sim (res_rel (fun w m => mrel_at h R w m /\ ro_at h2 w)) (w_member F w h2 k) (m_member F m h2 k).
Proof.
  intros Hne [Hr (xh & Hh & <-)] (x & Hx & Hro). unfold w_member, m_member. rewrite (hget_Some _ _ _ Hx), (hget_Some _ _ _ (mrel_get _ _ _ _ Hr Hx)). rb.
  pose proof (sim_set_member (wenv F x) (rest m x) (ws x) (m_at m (struct_of x)) k ltac:(by eapply rest_part)) as Hs.
  change (menv F (struct_of x)) with (wenv F x).
  destruct (set_member (wenv F x) (ws x) k) as [[s r]| | | |] eqn:E; cbn in Hs; [|rewrite Hs; done|rewrite Hs; done|done|done].
  destruct Hs as ([s' r'] & -> & Hp & Er). cbn [fst snd] in Hp, Er. subst r'. cbn [mbind res_bind].
  destruct (member_readonly _ _ _ _ _ E Hro) as [Eh Ero].
  assert (Em : heap s' = nodes_of m).
  { destruct Hp as [[_ E1] _]. rewrite E1, Eh. by destruct (rest_part _ _ _ _ Hr Hx) as [[_ E2] _]. }
  destruct Hp as [Hp Et]. destruct (mrel_upd w m h2 x s (heap s') Hr Hx Hp) as [H1 _].
  unfold upd, m_upd. rewrite (hget_Some _ _ _ Hx), (hget_Some _ _ _ (mrel_get _ _ _ _ Hr Hx)). cbn [mbind res_bind]. rewrite Et, Em.
  rewrite Em in H1. apply sim_ret. split; [|done]. cbn [fst]. split.
  - split; [exact H1|]. exists xh. rewrite lookup_insert_ne by done. done.
  - eexists. rewrite lookup_insert. split; [reflexivity|]. cbn. by rewrite Ero.
Qed.

Lemma sim_m_same w m h1 h2 : mrel w m -> sim eq (same_fns w h1 h2) (m_same m h1 h2).
Proof.
  intros Hr. unfold same_fns, m_same. eapply sim_bind; [by apply sim_get|]. intros x1 y1 [-> _].
  eapply sim_bind; [by apply sim_get|]. intros x2 y2 [-> _]. apply sim_refl.
Qed.
Lemma sim_w_readonly w m h f : mrel w m -> sim (res_rel mrel) (w_readonly w h f) (m_readonly m h f).
Proof.
  intros Hr. unfold w_readonly, m_readonly. eapply sim_bind; [by apply sim_get|]. intros x y [-> Hx].
  eapply sim_bind; [apply sim_set_readonly; by eapply rest_part|]. intros [s r] [s' r'] [Hp E]. cbn [fst snd] in Hp, E. subst r'.
  eapply sim_bind; [by apply (sim_upd w m h x)|]. intros w1 m1 [H1 _]. by apply sim_ret.
Qed.
Lemma with_ro_parts R (s s' : hst) f : parts R s s' -> parts R (with_ro s f) (with_ro s' f).
Proof. intros [Hp Et]. split; [exact Hp|]. cbn. by rewrite Et. Qed.
(** setting the readonly flag of a set changes nothing else *)
Lemma sim_w_set_ro w m h2 f : mrel w m ->
  sim (fun w' m' => mrel w' m' /\ nodes_of m' = nodes_of m /\ (exists x, w !! h2 = Some x /\ w' = <[h2 := WS (with_ro (ws x) f) (whid x) (wcid x)]> w))
    (w_set_ro w h2 f) (m_set_ro m h2 f).
Proof.
  intros Hr. unfold w_set_ro, m_set_ro, upd, m_upd. eapply sim_bind; [by apply sim_get|]. intros x y [-> Hx].
  rewrite (hget_Some _ _ _ Hx), (hget_Some _ _ _ (mrel_get _ _ _ _ Hr Hx)). rb. apply sim_ret.
  pose proof (with_ro_parts _ _ _ f (rest_part _ _ _ _ Hr Hx)) as [Hp _].
  split; [exact (proj1 (mrel_upd w m h2 x (with_ro (ws x) f) _ Hr Hx Hp))|]. split; [done|]. by exists x.
Qed.
Lemma set_create_part2 R al : set_create (al_part R al) = set_create al.
Proof. unfold set_create. by rewrite set_create_part. Qed.
Lemma sim_w_create R al w m h hid cid : mrel w m ->
  sim (fun w' m' => mrel_at h (nodes_of m) w' m' /\ w !! h = None /\ (forall h', h' <> h -> w' !! h' = w !! h'))
    (w_create (al_part R al) w h hid cid) (m_create al m h hid cid).
Proof.
  intros Hr. unfold w_create, m_create. rewrite set_create_part2.
  destruct (set_create al) as [s| | | |] eqn:Es; try done. cbn [mbind res_bind].
  assert (Eh : heap s = ∅).
  { unfold set_create in Es. destruct (set_create_ al 0); try discriminate Es. by injection Es as <-. }
  destruct (w !! h) as [x|] eqn:Ex; [done|]. rewrite (mrel_none _ _ _ Hr Ex). apply sim_ret. split; [split|].
  - split; cbn [sets_of nodes_of].
    + rewrite fmap_insert. by rewrite (mr_sets _ _ Hr).
    + intros h' x' Hx'. destruct (decide (h' = h)) as [->|Hne].
      * rewrite lookup_insert in Hx'. injection Hx' as <-. cbn. rewrite Eh. apply map_empty_subseteq.
      * rewrite lookup_insert_ne in Hx' by done. exact (mr_sub _ _ Hr _ _ Hx').
    + intros h1 h2 x1 x2 Hne H1 H2. destruct (decide (h1 = h)) as [->|N1], (decide (h2 = h)) as [->|N2]; [done| | |].
      * rewrite lookup_insert in H1. injection H1 as <-. cbn. rewrite Eh. apply map_disjoint_empty_l.
      * rewrite lookup_insert in H2. injection H2 as <-. cbn. rewrite Eh. apply map_disjoint_empty_r.
      * rewrite lookup_insert_ne in H1 by done. rewrite lookup_insert_ne in H2 by done. exact (mr_disj _ _ Hr _ _ _ _ Hne H1 H2).
    + intros a b Hab. destruct (mr_own _ _ Hr a b Hab) as (h' & x' & Hx' & Hb). exists h', x'. split; [|done].
      rewrite lookup_insert_ne; [done|]. intros ->. congruence.
  - eexists. rewrite lookup_insert. split; [reflexivity|]. unfold rest. cbn. rewrite Eh. apply map_difference_empty.
  - split; [done|]. intros h' Hne. by rewrite lookup_insert_ne.
Qed.
Lemma sim_insert_walk F al R h h2 n n' w m : halloc_ok al -> mrel_at h R w m -> n <= n' ->
  sim (res_rel (mrel_at h R)) (walk (getset h2) (fun k w => '(w', _) ← w_insert F (al_part R al) w h k; Ret (w', false)) n w)
    (walk (m_get h2) (fun k m => '(m', _) ← m_insert F al m h k; Ret (m', false)) n' m).
Proof.
  intros Hal Hr Hn. apply (sim_walk (mrel_at h R)); [| |done|done].
  - intros w1 m1 [H1 _]. by apply sim_getset.
  - intros k w1 m1 H1. eapply sim_bind; [by apply sim_w_insert|]. intros [w2 r] [m2 r'] [H2 _]. by apply sim_ret.
Qed.
Lemma sim_set_add F al R n n' w m h1 h2 : halloc_ok al -> mrel_at h1 R w m -> n <= n' ->
  sim mrel (set_add F (al_part R al) n w h1 h2) (m_add F al n' m h1 h2).
Proof.
  intros Hal Hr Hn. unfold set_add, m_add. eapply sim_bind; [apply sim_m_same, Hr|]. intros _ _ _.
  eapply sim_bind; [by apply sim_insert_walk|]. intros [w2 r] [m2 r'] [[H2 _] _]. by apply sim_ret.
Qed.
Lemma sim_set_del F n n' w m h1 h2 : mrel w m -> n <= n' -> sim mrel (set_del F n w h1 h2) (m_del F n' m h1 h2).
Proof.
  intros Hr Hn. unfold set_del, m_del. eapply sim_bind; [by apply sim_m_same|]. intros _ _ _.
  eapply (sim_bind (res_rel mrel)).
  - apply (sim_walk mrel); [| |done|done].
    + intros w1 m1 H1. by apply sim_getset.
    + intros k w1 m1 H1. eapply sim_bind; [by apply sim_w_delete|]. intros [w2 r] [m2 r'] [H2 _]. by apply sim_ret.
  - intros [w2 r] [m2 r'] [H2 _]. by apply sim_ret.
Qed.
Lemma sim_set_union F al n n' w m h h1 h2 : halloc_ok al -> mrel w m -> n <= n' ->
  sim mrel (set_union F (al_part (nodes_of m) al) n w h h1 h2) (m_union F al n' m h h1 h2).
Proof.
  intros Hal Hr Hn. unfold set_union, m_union. eapply sim_bind; [by apply sim_m_same|]. intros _ _ _.
  eapply sim_bind; [by apply sim_get|]. intros x y [-> _]. eapply sim_bind; [by apply sim_w_create|]. intros w0 m0 (H0 & _).
  eapply sim_bind; [by apply sim_insert_walk|]. intros [w1 r1] [m1 r1'] [H1 _].
  eapply sim_bind; [by apply sim_insert_walk|]. intros [w2 r2] [m2 r2'] [[H2 _] _]. by apply sim_ret.
Qed.
Lemma sim_set_inter_diff keep F al n n' w m h h1 h2 : halloc_ok al -> mrel w m -> n <= n' ->
  sim mrel (set_inter_diff keep F (al_part (nodes_of m) al) n w h h1 h2) (m_inter_diff keep F al n' m h h1 h2).
Proof.
  intros Hal Hr Hn. unfold set_inter_diff, m_inter_diff. eapply sim_bind; [by apply sim_m_same|]. intros _ _ _.
  eapply sim_bind; [by apply sim_get|]. intros x y [-> _]. eapply sim_bind; [by apply (sim_get w m h2)|]. intros x2 y2 [-> Hx2].
  eapply sim_bind; [by apply sim_w_create|]. intros w0 m0 ([H0 (xh & Hxh & Erest)] & Hnone & Hoth).
  assert (Hne : h <> h2) by (intros ->; congruence). cbv zeta.
  eapply sim_bind; [by apply sim_w_set_ro|]. intros w1 m1 (H1 & En & x2' & Hx2' & ->).
  eapply (sim_bind (res_rel (fun w m => mrel_at h (rest m1 xh) w m /\ ro_at h2 w))).
  - apply (sim_walk (fun w m => mrel_at h (rest m1 xh) w m /\ ro_at h2 w)); [| | |done].
    + intros w2 m2 [[H2 _] _]. by apply sim_getset.
    + intros k w2 m2 [H2 H3]. eapply sim_bind; [by apply (sim_w_member_ro F h (rest m1 xh) w2 m2 h2 k)|]. intros [w3 b] [m3 b'] [[H4 H5] E]. cbn [fst snd] in H4, H5, E. subst b'.
      destruct (Bool.eqb _ _); [|by apply sim_ret].
      assert (Er : rest m1 xh = nodes_of m) by (unfold rest in *; rewrite En; exact Erest). rewrite Er in *.
      pose proof (sim_w_insert F al (nodes_of m) w3 m3 h k Hal H4) as Hi.
      assert (Hkeep : forall w4 r, w_insert F (al_part (nodes_of m) al) w3 h k = Ret (w4, r) -> ro_at h2 w4).
      { intros w4 r. unfold w_insert, upd. destruct H4 as [_ (x4 & Hx4 & _)]. rewrite (hget_Some _ _ _ Hx4). cbn [mbind res_bind].
        destruct (set_insert _ _ _ _) as [[s4 r4]| | | |]; cbn [mbind res_bind]; try discriminate. intros [= <- <-].
        destruct H5 as (x5 & Hx5 & Hro). exists x5. rewrite lookup_insert_ne by done. done. }
      destruct (w_insert F (al_part (nodes_of m) al) w3 h k) as [[w4 r4]| | | |]; cbn in Hi; [|rewrite Hi; done|rewrite Hi; done|done|done].
      destruct Hi as ([m4 r4'] & -> & H6 & E). cbn [mbind res_bind]. apply sim_ret. split; [|done]. split; [exact H6|]. by eapply Hkeep.
    + split; [split; [exact H1|]|].
      * exists xh. rewrite lookup_insert_ne by done. done.
      * eexists. rewrite lookup_insert. split; [reflexivity|]. done.
  - intros [w2 r2] [m2 r2'] [[[H2 _] _] _]. cbn [fst] in H2. pose proof (sim_w_set_ro w2 m2 h2 (readonly (tab (ws x2))) H2) as Hs.
    cbn [struct_of ms]. destruct (w_set_ro w2 h2 _); cbn in Hs; [|rewrite Hs; done|rewrite Hs; done|done|done]. destruct Hs as (m3 & -> & Hs & _). by apply sim_ret.
Qed.
Lemma sim_set_equal F n n' w m h1 h2 : mrel w m -> n <= n' -> sim (res_rel mrel) (set_equal F n w h1 h2) (m_equal F n' m h1 h2).
Proof.
  intros Hr Hn. unfold set_equal, m_equal. eapply sim_bind; [by apply sim_m_same|]. intros _ _ _.
  eapply sim_bind; [by apply sim_get|]. intros x y [-> _]. eapply sim_bind; [by apply (sim_get w m h2)|]. intros x2 y2 [-> Hx2].
  cbn [struct_of ms]. destruct (negb _); [by apply sim_ret|]. cbv zeta.
  eapply sim_bind; [by apply sim_w_set_ro|]. intros w1 m1 (H1 & _).
  eapply (sim_bind (res_rel mrel)).
  - apply (sim_walk mrel); [| |done|done].
    + intros w2 m2 H2. by apply sim_getset.
    + intros k w2 m2 H2. eapply sim_bind; [by apply sim_w_member|]. intros [w3 b] [m3 b'] [H3 E]. cbn [fst snd] in H3, E. subst b'. by apply sim_ret.
  - intros [w2 r2] [m2 r2'] [H2 E]. cbn [fst snd] in H2, E. subst r2'. eapply sim_bind; [by apply sim_w_set_ro|]. intros w3 m3 (H3 & _). by apply sim_ret.
Qed.
Lemma sim_w_destroy w m h : mrel w m -> sim mrel ('(w', H) ← w_destroy w h; if decide (H = ∅) then Ret w' else UB) (m_destroy m h).
Proof.
  intros Hr. unfold w_destroy, m_destroy. pose proof (sim_get w m h Hr) as Hg. destruct (hget w h) as [x| | | |]; cbn in Hg; [|rewrite Hg; done|rewrite Hg; done|done|done].
  destruct Hg as (y & -> & -> & Hx). cbn [mbind res_bind].
  pose proof (sim_set_destroy (rest m x) (ws x) (m_at m (struct_of x)) ltac:(by eapply rest_part)) as Hs.
  destruct (set_destroy (ws x)) as [H| | | |]; cbn in Hs; [|rewrite Hs; done|rewrite Hs; done|done|done].
  destruct Hs as (M & -> & Hp). cbn [mbind res_bind]. destruct (decide (H = ∅)) as [->|]; [|done]. apply sim_ret.
  assert (EM : M = rest m x) by (destruct Hp as [_ ->]; by rewrite (left_id_L ∅ (∪))). subst M. clear Hp.
  split; cbn [sets_of nodes_of].
  - rewrite (mr_sets _ _ Hr). by rewrite fmap_delete.
  - intros h' x' Hx'. apply lookup_delete_Some in Hx' as [Hne Hx']. apply map_subseteq_spec. intros a b Ha. apply lookup_difference_Some.
    split; [exact (lookup_weaken _ _ _ _ Ha (mr_sub _ _ Hr _ _ Hx'))|]. eapply map_disjoint_Some_r; [|exact Ha]. exact (mr_disj _ _ Hr _ _ _ _ Hne Hx Hx').
  - intros h1 h2 x1 x2 Hne H1 H2. apply lookup_delete_Some in H1 as [_ H1]. apply lookup_delete_Some in H2 as [_ H2]. exact (mr_disj _ _ Hr _ _ _ _ Hne H1 H2).
  - intros a b Hab. apply lookup_difference_Some in Hab as [Ha Hna]. destruct (mr_own _ _ Hr a b Ha) as (h' & x' & Hx' & Hb). exists h', x'.
    split; [|done]. apply lookup_delete_Some. split; [|done]. intros <-. rewrite Hx in Hx'. injection Hx' as <-. congruence.
Qed.
Lemma sum_perm {A} (f : A -> nat) l l' : l ≡ₚ l' -> sum_list_with f l = sum_list_with f l'.
Proof. induction 1; cbn; lia. Qed.
Lemma sum_le {A B} (f : A -> nat) (f' : B -> nat) l l' : Forall2 (fun x y => f x <= f' y) l l' -> sum_list_with f l <= sum_list_with f' l'.
Proof. induction 1; cbn [sum_list_with]; lia. Qed.
(** the fuel *)
Lemma rounds_le w m : mrel w m -> rounds w <= mrounds m.
Proof.
  intros Hr. unfold rounds, mrounds. rewrite (mr_sets _ _ Hr), (sum_perm _ _ _ (fmap_Permutation snd _ _ (map_to_list_fmap struct_of w))).
  assert (Hin : forall h x, (h, x) ∈ map_to_list w -> size (heap (ws x)) <= size (nodes_of m)).
  { intros h x Hx. apply elem_of_map_to_list in Hx. destruct (rest_part _ _ _ _ Hr Hx) as [Hp _]. exact (part_size _ _ _ Hp). }
  apply sum_le. induction (map_to_list w) as [|[h x] l IH]; [constructor|]. constructor.
  - cbn. specialize (Hin h x (elem_of_list_here _ _)). unfold cost. lia.
  - apply IH. intros h' x' Hx. exact (Hin h' x' (elem_of_list_further _ _ _ Hx)).
Qed.

(** ** One call: the private model with the allocator it sees, and this model *)
Definition c_al (R : bheap) (c : scall K) : scall K :=
  match c with
  | SCreate al h hid cid => SCreate (al_part R al) h hid cid
  | SInsert al h k => SInsert (al_part R al) h k
  | SAdd al h1 h2 => SAdd (al_part R al) h1 h2
  | SUnion al h h1 h2 => SUnion (al_part R al) h h1 h2
  | SInter al h h1 h2 => SInter (al_part R al) h h1 h2
  | SDiff al h h1 h2 => SDiff (al_part R al) h h1 h2
  | c => c
  end.
(** the memory that is not the written set's *)
Definition around w m (c : scall K) : bheap :=
  match c with
  | SInsert _ h _ | SAdd _ h _ => match w !! h with Some x => rest m x | None => ∅ end
  | _ => nodes_of m
  end.
Lemma sim_step F w m g c : mrel w m -> slegal F g c -> sspec F g c <> UB -> wrep F w g -> sim (res_rel mrel) (sstep F w (c_al (around w m c) c)) (mstep F m c).
Proof.
  intros Hr Hl Hub Hw. pose proof (rounds_le w m Hr) as Hn.
  assert (Hat : forall h, g !! h <> None -> mrel_at h (match w !! h with Some x => rest m x | None => ∅ end) w m).
  { intros h Hh. destruct (w !! h) as [x|] eqn:E; [split; [done|]; by exists x|]. exfalso. apply Hh. specialize (Hw h). rewrite E in Hw. by inversion Hw. }
  assert (Hone : forall h f, one (K := K) g h f <> UB -> g !! h <> None) by (intros h f Ho E; apply Ho; unfold one; by rewrite E).
  destruct c as [al h hid cid|al h k|h k|h k|h f|h|h|al h1 h2|h1 h2|al h h1 h2|al h h1 h2|al h h1 h2|h1 h2|h]; cbn [slegal c_al around sstep mstep] in *.
  - eapply sim_bind; [by apply sim_w_create|]. intros w1 m1 ([H1 _] & _). by apply sim_ret.
  - eapply sim_bind; [apply sim_w_insert; [done|]; apply Hat; by eapply Hone|]. intros [w1 r] [m1 r'] [[H1 _] E]. cbn in E. subst r'. by apply sim_ret.
  - eapply sim_bind; [by apply sim_w_delete|]. intros [w1 r] [m1 r'] [H1 E]. cbn in E. subst r'. by apply sim_ret.
  - eapply sim_bind; [by apply sim_w_member|]. intros [w1 r] [m1 r'] [H1 E]. cbn in E. subst r'. by apply sim_ret.
  - eapply sim_bind; [by apply sim_w_readonly|]. intros [w1 r] [m1 r'] [H1 E]. cbn in E. subst r'. by apply sim_ret.
  - eapply sim_bind; [by apply sim_get|]. intros x y [-> _]. by apply sim_ret.
  - eapply sim_bind; [by apply sim_get|]. intros x y [-> Hx].
    eapply sim_bind; [apply (sim_set_iterate (rest m x)); [|by eapply rest_part|exact Hn]|].
    { intros k s1 s1' u H1. unfold spure, scollect. by apply sim_ret. }
    intros [[s1 xs] r] [[s1' xs'] r'] (H1 & E & _). cbn [fst snd] in H1, E. subst xs'.
    eapply sim_bind; [by apply (sim_upd w m h x)|]. intros w1 m1 [H2 _]. by apply sim_ret.
  - destruct Hl as [Hal _]. eapply sim_bind; [apply sim_set_add; [done|apply Hat; unfold sspec, two in Hub; by eapply Hone|exact Hn]|]. intros w1 m1 H1. by apply sim_ret.
  - eapply sim_bind; [by apply sim_set_del|]. intros w1 m1 H1. by apply sim_ret.
  - destruct Hl as [Hal _]. eapply sim_bind; [by apply sim_set_union|]. intros w1 m1 H1. by apply sim_ret.
  - destruct Hl as [Hal _]. eapply sim_bind; [by apply sim_set_inter_diff|]. intros w1 m1 H1. by apply sim_ret.
  - destruct Hl as [Hal _]. eapply sim_bind; [by apply sim_set_inter_diff|]. intros w1 m1 H1. by apply sim_ret.
  - eapply sim_bind; [by apply sim_set_equal|]. intros [w1 r] [m1 r'] [H1 E]. cbn in E. subst r'. by apply sim_ret.
  - pose proof (sim_w_destroy w m h Hr) as Hs. destruct (w_destroy w h) as [[w1 H]| | | |]; cbn in Hs |- *.
    + destruct (decide (H = ∅)); [|done]. cbn in Hs. destruct Hs as (m1 & -> & H1). by apply sim_ret.
    + by rewrite Hs.
    + by rewrite Hs.
    + done.
    + done.
Qed.
(** a handle of no live set *)
Lemma step_UB F w m g c : mrel w m -> wrep F w g -> sspec F g c = UB -> mstep F m c = UB.
Proof.
  intros Hr Hw. assert (Hnone : forall h, g !! h = None -> hget (sets_of m) h = UB).
  { intros h Hh. unfold hget. specialize (Hw h). rewrite Hh in Hw. inversion Hw as [|E1 E2]. by rewrite (mrel_none _ _ _ Hr (eq_sym E1)). }
  assert (Hsame : forall h1 h2, g !! h1 = None \/ g !! h2 = None -> m_same m h1 h2 = UB).
  { intros h1 h2 Ho. unfold m_same. destruct Ho as [Ho|Ho]; [by rewrite (Hnone _ Ho)|]. rewrite (Hnone _ Ho). unfold hget. by destruct (sets_of m !! h1). }
  assert (Htwo : forall h1 h2 f, two g h1 h2 f = UB -> (forall y1 y2, f y1 y2 <> UB) -> g !! h1 = None \/ g !! h2 = None).
  { intros h1 h2 f. unfold two, one. destruct (g !! h1) as [y1|]; [|tauto]. destruct (g !! h2) as [y2|]; [|tauto]. destruct (same y1 y2); [|done]. intros E Hf. by apply Hf in E. }
  assert (Hwr : forall y (g' : gworld) (r : sres K), writable y (Ret (g', r)) <> UB) by (intros y g' r; unfold writable; by destruct (_ =? _)%Z).
  destruct c as [al h hid cid|al h k|h k|h k|h f|h|h|al h1 h2|h1 h2|al h h1 h2|al h h1 h2|al h h1 h2|h1 h2|h]; cbn [sspec mstep]; intros E;
    try (unfold one in E; destruct (g !! h) as [y|] eqn:Eh; [first [discriminate E|by apply Hwr in E]|];
         unfold m_insert, m_delete, m_member, m_readonly, m_destroy; rewrite (Hnone _ Eh); reflexivity).
  - discriminate E.
  - apply Htwo in E; [|intros y1 y2; destruct (decide _); [done|apply Hwr]]. unfold m_add. by rewrite (Hsame _ _ E).
  - apply Htwo in E; [|intros y1 y2; destruct (decide _); [done|apply Hwr]]. unfold m_del. by rewrite (Hsame _ _ E).
  - apply Htwo in E; [|done]. unfold m_union. by rewrite (Hsame _ _ E).
  - apply Htwo in E; [|done]. unfold m_inter_diff. by rewrite (Hsame _ _ E).
  - apply Htwo in E; [|done]. unfold m_inter_diff. by rewrite (Hsame _ _ E).
  - apply Htwo in E; [|done]. unfold m_equal. by rewrite (Hsame _ _ E).
Qed.
Lemma c_al_spec F g R c : sspec F g (c_al R c) = sspec F g c.
Proof. by destruct c. Qed.
Lemma c_al_legal F g R c : slegal F g c -> slegal F g (c_al R c).
Proof. destruct c; cbn; intros Hl; try exact Hl; try (destruct Hl as [Hal Hl]; split; [by apply al_part_ok|exact Hl]). by apply al_part_ok. Qed.
Lemma c_al_can R c : scan (c_al R c) -> scan c.
Proof. destruct c; cbn; try done; apply can_part. Qed.

Definition mspec_rel F m g : Prop := exists w, mrel w m /\ wrep F w g.
Lemma mstep_ok F m g c : mspec_rel F m g -> slegal F g c -> call_ok sres_eq scan (mspec_rel F) c (mstep F m c) (sspec F g c).
Proof.
  intros (w & Hr & Hw) Hl. destruct (sspec F g c) as [[g' p]| | | |] eqn:Es.
  all: try (rewrite (step_UB F w m g c Hr Hw Es); done).
  all: pose proof (sstep_ok F w g _ Hw (c_al_legal F g (around w m c) c Hl)) as E1; rewrite c_al_spec, Es in E1;
       pose proof (sim_step F w m g c Hr Hl ltac:(congruence) Hw) as E2;
       destruct (sstep F w (c_al (around w m c) c)) as [[w1 r1]| | | |]; cbn in E1; try done; cbn in E2.
  - destruct E2 as ([m1 r1'] & -> & H1 & E). cbn in H1, E. subst r1'. cbn. destruct E1 as [E1 E1']. split; [by exists w1|done].
  - rewrite E2. cbn. by eapply c_al_can.
  - by rewrite E2.
  - rewrite E2. cbn. by eapply c_al_can.
  - by rewrite E2.
  - rewrite E2. cbn. by eapply c_al_can.
Qed.
(** the number of nodes in memory *)
Definition elements g : nat := sum_list_with (fun y => length (gel y)) (map_to_list g).*2.
Lemma mrel_size w : forall m, mrel w m -> size (nodes_of m) = sum_list_with (fun x => size (heap (ws x))) (map_to_list w).*2.
Proof.
  induction w as [|h x w Hn IH] using map_ind; intros m Hr.
  - rewrite map_to_list_empty. cbn. assert (E : nodes_of m = ∅); [|by rewrite E, map_size_empty]. apply map_eq. intros a. rewrite lookup_empty.
    destruct (nodes_of m !! a) as [b|] eqn:Ea; [|done]. destruct (mr_own _ _ Hr a b Ea) as (h & x & Hx & _). by rewrite lookup_empty in Hx.
  - rewrite (sum_perm _ _ _ (fmap_Permutation snd _ _ (map_to_list_insert w h x Hn))). cbn.
    assert (Hx : <[h := x]> w !! h = Some x) by apply lookup_insert.
    destruct (rest_part _ _ _ _ Hr Hx) as [[Hd E] _]. cbn in E. rewrite E, map_size_disj_union by done. f_equal.
    apply (IH (MW (rest m x) (struct_of <$> w))). split; cbn [sets_of nodes_of].
    + done.
    + intros h' x' Hx'. assert (Hne : h <> h') by congruence. assert (Hx2 : <[h := x]> w !! h' = Some x') by (by rewrite lookup_insert_ne).
      apply map_subseteq_spec. intros a b Ha. apply lookup_difference_Some.
      split; [exact (lookup_weaken _ _ _ _ Ha (mr_sub _ _ Hr _ _ Hx2))|]. eapply map_disjoint_Some_r; [|exact Ha]. exact (mr_disj _ _ Hr _ _ _ _ Hne Hx Hx2).
    + intros h1 h2 x1 x2 Hne H1 H2. apply (mr_disj _ _ Hr h1 h2); [done| |]; (rewrite lookup_insert_ne; [done|congruence]).
    + intros a b Hab. apply lookup_difference_Some in Hab as [Ha Hna]. destruct (mr_own _ _ Hr a b Ha) as (h' & x' & Hx' & Hb). exists h', x'.
      split; [|done]. rewrite lookup_insert_ne in Hx'; [done|]. intros <-. rewrite Hx in Hx'. injection Hx' as <-. congruence.
Qed.
Lemma sum_maps {A B} (f : A -> nat) (f' : B -> nat) (u : gmap positive A) (v : gmap positive B) :
  (forall h, option_Forall2 (fun x y => f x = f' y) (u !! h) (v !! h)) -> sum_list_with f (map_to_list u).*2 = sum_list_with f' (map_to_list v).*2.
Proof.
  intros Hh. assert (E : f <$> u = f' <$> v).
  { apply map_eq. intros h. rewrite !lookup_fmap. destruct (Hh h); cbn; [by f_equal|done]. }
  assert (Hs : forall C (k : C -> nat) (t : gmap positive C), sum_list_with k (map_to_list t).*2 = sum_list_with id (map_to_list (k <$> t)).*2).
  { intros C k t. rewrite (sum_perm _ _ _ (fmap_Permutation snd _ _ (map_to_list_fmap k t))).
    induction (map_to_list t) as [|[i x] l IH]; [done|]. cbn [fmap list_fmap sum_list_with snd prod_map fst]. by rewrite IH. }
  by rewrite (Hs _ f u), (Hs _ f' v), E.
Qed.
Lemma sets_mem_ok F cs : lawful (sspec F) (slegal F) ∅ cs ->
  refines sres_eq scan (fun m g => dom (sets_of m) = dom g /\ size (nodes_of m) = elements g) cs (run (mstep F) (MW ∅ ∅) cs) (run (sspec F) ∅ cs).
Proof.
  intros Hl. eapply refines_Q; [|apply (run_refines _ _ _ _ (slegal F) (mspec_rel F)); [intros; by apply mstep_ok| |exact Hl]].
  - intros m g (w & Hr & Hw). split.
    + rewrite (mr_sets _ _ Hr), dom_fmap_L. apply set_eq. intros h. rewrite !elem_of_dom. specialize (Hw h). destruct Hw; split; intros [? ?]; eauto; done.
    + rewrite (mrel_size w m Hr). unfold elements. apply sum_maps. intros h. specialize (Hw h).
      destruct Hw as [x y (L & HI & _ & Hp & _)|]; constructor. rewrite (pairs_heap _ _ _ HI). rewrite <- Hp. unfold elems. by rewrite fmap_length.
  - exists ∅. split; [split|].
    + by rewrite fmap_empty.
    + intros h x Hx. by rewrite lookup_empty in Hx.
    + intros h1 h2 x1 x2 _ Hx. by rewrite lookup_empty in Hx.
    + intros a b Ha. cbn in Ha. by rewrite lookup_empty in Ha.
    + intros h. rewrite !lookup_empty. constructor.
Qed.
End SetMem.
