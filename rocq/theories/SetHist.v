(** Histories of calls on any number of sets, and what every history guarantees. *)
From Verif Require Import Base PrimeModel PrimeProofs HashModel HashSpec ListLemmas HashProofs HashOps HashOps2 HashIter HashHist SetModel SetSpec SetAlg SetProofs SetWorld.
Local Open Scope nat_scope.

(** ** more loop rounds than needed change nothing *)
Section WalkFuel.
Context {K T : Type} (get : T -> res (hst K unit)) (body : K -> T -> res (T * bool)).
Lemma walk_chain_mono n : forall n' p w r,
  walk_chain get body n p w = Ret r -> n <= n' -> walk_chain get body n' p w = Ret r.
Proof.
  induction n as [|n IH]; intros n' [a|] w r E Hle.
  - discriminate E.
  - by destruct n'.
  - destruct n' as [|n']; [lia|]. cbn [walk_chain] in *.
    destruct (get w) as [s| | | |]; try discriminate E. rewrite bind_Ret in *.
    destruct (hget (heap s) a) as [b| | | |]; try discriminate E. rewrite bind_Ret in *.
    destruct (body (bkey b) w) as [[w' [|]]| | | |]; try discriminate E; rewrite bind_Ret in *; [done|].
    destruct (get w') as [s'| | | |]; try discriminate E. rewrite bind_Ret in *.
    destruct (hget (heap s') a) as [b'| | | |]; try discriminate E. rewrite bind_Ret in *.
    apply IH; [done|lia].
  - by destruct n'.
Qed.
Lemma walk_rows_mono n : forall n' f f' i w r,
  walk_rows get body n f i w = Ret r -> n <= n' -> f <= f' -> walk_rows get body n' f' i w = Ret r.
Proof.
  induction n as [|n IH]; intros n' f f' i w r E Hn Hf; [discriminate E|].
  destruct n' as [|n']; [lia|]. cbn [walk_rows] in *.
  destruct (get w) as [s| | | |]; try discriminate E. rewrite bind_Ret in *.
  destruct (i <? prime (tab s))%N; [|done].
  destruct (aget (buckets (tab s)) (N.to_nat i)) as [p| | | |]; try discriminate E. rewrite bind_Ret in *.
  destruct (walk_chain get body f p w) as [[w' st]| | | |] eqn:Ec; try discriminate E.
  rewrite (walk_chain_mono _ f' _ _ _ Ec Hf). rewrite bind_Ret in *.
  destruct st; [done|]. eapply IH; [exact E|lia|done].
Qed.
Lemma walk_mono n n' w r : walk get body n w = Ret r -> n <= n' -> walk get body n' w = Ret r.
Proof. intros E Hn. by eapply walk_rows_mono. Qed.
End WalkFuel.

Section SetHist.
Context {K : Type}.
Notation hst := (hst K unit).
Notation halloc := (halloc K unit).
Notation henv := (henv K unit).
Notation world := (world K).
Notation wset := (wset K).
Notation gst := (@gst K).
Notation gworld := (gmap positive gst).
Implicit Types (s : hst) (al : halloc) (w : world) (x : wset) (F : fns K) (y : gst) (g : gworld).

(** [whist F w g]: [w] is the state of all live sets after some calls, each of
    which returned; [g] is what these calls alone imply: for each handle the set of
    elements, the readonly flag, and the functions given to set_create. *)
Inductive whist F : world -> gworld -> Prop :=
| wh_nil : whist F ∅ ∅
| wh_create al w g w' h hid cid :
    whist F w g -> g !! h = None -> good (HE (fhash F hid) (fcmp F cid) tt) ->
    w_create al w h hid cid = Ret w' -> whist F w' (<[h := GS [] 0 hid cid]> g)
| wh_insert al w g w' h y k r :
    whist F w g -> g !! h = Some y -> halloc_ok al -> w_insert F al w h k = Ret (w', r) ->
    whist F w' (<[h := gwith y (sinsert (gcmp F y) k (gel y))]> g)
| wh_delete w g w' h y k r :
    whist F w g -> g !! h = Some y -> w_delete F w h k = Ret (w', r) ->
    whist F w' (<[h := gwith y (sremove (gcmp F y) k (gel y))]> g)
| wh_member w g w' h y k r :
    whist F w g -> g !! h = Some y -> w_member F w h k = Ret (w', r) -> whist F w' g
| wh_readonly w g w' h y f r :
    whist F w g -> g !! h = Some y -> w_readonly w h f = Ret (w', r) -> whist F w' (<[h := gflag y f]> g)
| wh_init w g w' h y p :
    whist F w g -> g !! h = Some y -> w_init_position w h = Ret (w', p) ->
    whist F w' (<[h := gflag y (match p with Some _ => 1%Z | None => gro y end)]> g)
| wh_next w g w' h y p q :
    whist F w g -> g !! h = Some y -> w_next_position w h p = Ret (w', q) ->
    whist F w' (<[h := gflag y (match q with Some _ => gro y | None => 0%Z end)]> g)
| wh_add al fuel w g w' h1 h2 y1 y2 :
    whist F w g -> g !! h1 = Some y1 -> g !! h2 = Some y2 -> h1 <> h2 -> halloc_ok al ->
    set_add F al fuel w h1 h2 = Ret w' ->
    whist F w' (<[h1 := gwith y1 (sunion (gcmp F y1) (gel y1) (gel y2))]> g)
| wh_del fuel w g w' h1 h2 y1 y2 :
    whist F w g -> g !! h1 = Some y1 -> g !! h2 = Some y2 -> h1 <> h2 ->
    set_del F fuel w h1 h2 = Ret w' ->
    whist F w' (<[h1 := gwith y1 (sdiff (gcmp F y1) (gel y1) (gel y2))]> g)
| wh_union al fuel w g w' h h1 h2 y1 y2 :
    whist F w g -> g !! h1 = Some y1 -> g !! h2 = Some y2 -> g !! h = None -> halloc_ok al ->
    set_union F al fuel w h h1 h2 = Ret w' ->
    whist F w' (<[h := GS (sunion (gcmp F y1) (gel y1) (gel y2)) 0 (ghid y1) (gcid y1)]> g)
| wh_inter al fuel w g w' h h1 h2 y1 y2 :
    whist F w g -> g !! h1 = Some y1 -> g !! h2 = Some y2 -> g !! h = None -> halloc_ok al ->
    set_inter F al fuel w h h1 h2 = Ret w' ->
    whist F w' (<[h := GS (sinter (gcmp F y1) (gel y1) (gel y2)) 0 (ghid y1) (gcid y1)]> g)
| wh_diff al fuel w g w' h h1 h2 y1 y2 :
    whist F w g -> g !! h1 = Some y1 -> g !! h2 = Some y2 -> g !! h = None -> halloc_ok al ->
    set_diff F al fuel w h h1 h2 = Ret w' ->
    whist F w' (<[h := GS (sdiff (gcmp F y1) (gel y1) (gel y2)) 0 (ghid y1) (gcid y1)]> g)
| wh_equal fuel w g w' h1 h2 y1 y2 r :
    whist F w g -> g !! h1 = Some y1 -> g !! h2 = Some y2 ->
    (N.of_nat (length (gel y1)) < 2 ^ 64)%N -> (N.of_nat (length (gel y2)) < 2 ^ 64)%N ->
    set_equal F fuel w h1 h2 = Ret (w', r) -> whist F w' g
| wh_destroy w g w' h y H :
    whist F w g -> g !! h = Some y -> w_destroy w h = Ret (w', H) -> whist F w' (delete h g).

Lemma enough_ex w h y : exists n, forall fuel, n <= fuel -> enough w h y fuel.
Proof.
  destruct (w !! h) as [x|] eqn:E.
  - exists (S (N.to_nat (prime (tab (ws x))) + length (gel y))). intros fuel Hf x' Hx'.
    rewrite E in Hx'. injection Hx' as <-. lia.
  - exists 0. intros fuel _ x' Hx'. congruence.
Qed.

(** a returning call returns the same with more rounds *)
Lemma set_add_mono F al n n' w h1 h2 r : n <= n' ->
  set_add F al n w h1 h2 = Ret r -> set_add F al n' w h1 h2 = Ret r.
Proof.
  intros Hn. unfold set_add. destruct (same_fns w h1 h2); try done. rb.
  destruct (walk _ _ n w) as [[w1 st]| | | |] eqn:E; try done.
  rewrite (walk_mono _ _ _ n' _ _ E Hn). done.
Qed.
Lemma set_del_mono F n n' w h1 h2 r : n <= n' ->
  set_del F n w h1 h2 = Ret r -> set_del F n' w h1 h2 = Ret r.
Proof.
  intros Hn. unfold set_del. destruct (same_fns w h1 h2); try done. rb.
  destruct (walk _ _ n w) as [[w1 st]| | | |] eqn:E; try done.
  rewrite (walk_mono _ _ _ n' _ _ E Hn). done.
Qed.
Lemma set_union_mono F al n n' w h h1 h2 r : n <= n' ->
  set_union F al n w h h1 h2 = Ret r -> set_union F al n' w h h1 h2 = Ret r.
Proof.
  intros Hn. unfold set_union. destruct (same_fns w h1 h2); try done. rb.
  destruct (hget w h1) as [x1| | | |]; try done. rb. destruct (w_create _ _ _ _ _) as [w0| | | |]; try done. rb.
  destruct (walk (getset h1) _ n w0) as [[w1 st]| | | |] eqn:E; try done.
  rewrite (walk_mono _ _ _ n' _ _ E Hn). rb.
  destruct (walk (getset h2) _ n w1) as [[w2 st2]| | | |] eqn:E2; try done.
  rewrite (walk_mono _ _ _ n' _ _ E2 Hn). done.
Qed.
Lemma set_inter_diff_mono keep F al n n' w h h1 h2 r : n <= n' ->
  set_inter_diff keep F al n w h h1 h2 = Ret r -> set_inter_diff keep F al n' w h h1 h2 = Ret r.
Proof.
  intros Hn. unfold set_inter_diff. destruct (same_fns w h1 h2); try done. rb.
  destruct (hget w h1) as [x1| | | |]; try done. rb. destruct (hget w h2) as [x2| | | |]; try done. rb.
  destruct (w_create _ _ _ _ _) as [w0| | | |]; try done. rb.
  destruct (w_set_ro w0 h2 1) as [w1| | | |]; try done. rb.
  destruct (walk (getset h1) _ n w1) as [[w2 st]| | | |] eqn:E; try done.
  rewrite (walk_mono _ _ _ n' _ _ E Hn). done.
Qed.
Lemma set_equal_mono F n n' w h1 h2 r : n <= n' ->
  set_equal F n w h1 h2 = Ret r -> set_equal F n' w h1 h2 = Ret r.
Proof.
  intros Hn. unfold set_equal. destruct (same_fns w h1 h2); try done. rb.
  destruct (hget w h1) as [x1| | | |]; try done. rb. destruct (hget w h2) as [x2| | | |]; try done. rb.
  destruct (negb _); [done|].
  destruct (w_set_ro w h2 1) as [w1| | | |]; try done. rb.
  destruct (walk (getset h1) _ n w1) as [[w2 st]| | | |] eqn:E; try done.
  rewrite (walk_mono _ _ _ n' _ _ E Hn). done.
Qed.

Definition some_al : halloc := HA (fun _ => None) (fun _ => false).

Lemma same_ids_dec y1 y2 : {same_ids y1 y2} + {~ same_ids y1 y2}.
Proof.
  unfold same_ids. destruct (decide (ghid y1 = ghid y2)); [|by right; intros []].
  destruct (decide (gcid y1 = gcid y2)); [by left|by right; intros []].
Qed.

Lemma ok_Ret {A} (P : A -> Prop) fl (r : res A) a : ok P fl r -> r = Ret a -> P a.
Proof. by intros H ->. Qed.

Lemma rep1_flag F x y f (s' : hst) :
  rep1 F x y -> s' = with_ro (ws x) f -> rep1 F (WS s' (whid x) (wcid x)) (gflag y f).
Proof.
  intros (L & HI & G & Hp & Hf & H1 & H2) ->. exists L. cbn [ws whid wcid gflag gel gro ghid gcid].
  split; [by apply (hinv_flag _ (ws x))|]. done.
Qed.

Lemma set_next_state (s : hst) p s' q :
  set_next_position s p = Ret (s', q) -> s' = match q with Some _ => s | None => with_ro s 0 end.
Proof.
  unfold set_next_position. intros H. destruct p as [pa|]; [|by injection H as <- <-].
  destruct (hget (heap s) pa) as [b| | | |]; try discriminate H. cbn [mbind res_bind] in H.
  destruct (bnext b) as [c|]; [by injection H as <- <-|].
  destruct (umod (bhash b) (prime (tab s))) as [h| | | |]; try discriminate H.
  cbn [mbind res_bind] in H.
  destruct (first_used _ _ _) as [z| | | |]; try discriminate H. cbn [mbind res_bind] in H.
  destruct z; by injection H as <- <-.
Qed.
Lemma set_init_state (s : hst) s' q :
  set_init_position s = Ret (s', q) -> s' = match q with Some _ => with_ro s 1 | None => s end.
Proof.
  unfold set_init_position. intros H.
  destruct (first_used _ _ _) as [z| | | |]; try discriminate H. cbn [mbind res_bind] in H.
  destruct z; by injection H as <- <-.
Qed.
Lemma gflag_id y : gflag y (gro y) = y.
Proof. by destruct y. Qed.
Lemma ws_eta x : WS (ws x) (whid x) (wcid x) = x.
Proof. by destruct x. Qed.

Lemma whist_rep F w g : whist F w g -> wrep F w g.
Proof.
  induction 1 as
    [|al w g w' h hid cid Hw IH Hn G E|al w g w' h y k r Hw IH Hy Hal E|w g w' h y k r Hw IH Hy E
    |w g w' h y k r Hw IH Hy E|w g w' h y f r Hw IH Hy E|w g w' h y p Hw IH Hy E|w g w' h y p q Hw IH Hy E
    |al fuel w g w' h1 h2 y1 y2 Hw IH E1 E2 Hne Hal E|fuel w g w' h1 h2 y1 y2 Hw IH E1 E2 Hne E
    |al fuel w g w' h h1 h2 y1 y2 Hw IH E1 E2 Hn Hal E|al fuel w g w' h h1 h2 y1 y2 Hw IH E1 E2 Hn Hal E
    |al fuel w g w' h h1 h2 y1 y2 Hw IH E1 E2 Hn Hal E
    |fuel w g w' h1 h2 y1 y2 r Hw IH E1 E2 Hl1 Hl2 E|w g w' h y H Hw IH Hy E].
  - intros h. rewrite !lookup_empty. constructor.
  - eapply ok_Ret in E; [|by apply (w_create_spec F al w g)]. apply E.
  - destruct (Z.eq_dec (gro y) 0%Z) as [Hro|Hro].
    2:{ rewrite (w_insert_ro F al w g h y k IH Hy Hro) in E. discriminate E. }
    eapply ok_Ret in E; [|by apply (w_insert_spec F al w g h y k)]. apply E.
  - destruct (Z.eq_dec (gro y) 0%Z) as [Hro|Hro].
    2:{ rewrite (w_delete_ro F w g h y k IH Hy Hro) in E. discriminate E. }
    destruct (w_delete_spec F w g h y k IH Hy Hro) as (w1 & E1 & J & _). rewrite E1 in E. by injection E as <- <-.
  - destruct (w_member_spec F w g h y k IH Hy) as (w1 & E1 & J & _). rewrite E1 in E. by injection E as <- <-.
  - destruct (w_readonly_spec F w g h y f IH Hy) as (w1 & E1 & J & _). rewrite E1 in E. by injection E as <- <-.
  - destruct (wrep_lookup _ _ _ _ _ IH Hy) as (x & Hx & Hr).
    unfold w_init_position, upd in E. rewrite (hget_Some _ _ _ Hx) in E. rewrite bind_Ret in E.
    destruct (set_init_position (ws x)) as [[s' p']| | | |] eqn:E1; try discriminate E.
    rewrite !bind_Ret in E. injection E as <- <-. apply wrep_insert; [done|].
    apply set_init_state in E1 as ->. destruct p'; [by apply rep1_flag|]. by rewrite ws_eta, gflag_id.
  - destruct (wrep_lookup _ _ _ _ _ IH Hy) as (x & Hx & Hr).
    unfold w_next_position, upd in E. rewrite (hget_Some _ _ _ Hx) in E. rewrite bind_Ret in E.
    destruct (set_next_position (ws x) p) as [[s' p']| | | |] eqn:E1; try discriminate E.
    rewrite !bind_Ret in E. injection E as <- <-. apply wrep_insert; [done|].
    apply set_next_state in E1 as ->. destruct p'; [|by apply rep1_flag]. by rewrite ws_eta, gflag_id.
  - destruct (same_ids_dec y1 y2) as [Hid|Hid].
    2:{ rewrite (proj1 (mismatch_fatal F al fuel w g h1 h1 h2 y1 y2 IH E1 E2 Hid)) in E. discriminate E. }
    destruct (enough_ex w h2 y2) as [n Hn].
    destruct (Z.eq_dec (gro y1) 0%Z) as [Hro|Hro].
    + apply (set_add_mono F al fuel (n + fuel)) in E; [|lia].
      eapply ok_Ret in E; [|apply (set_add_spec F al (n + fuel) w g h1 h2 y1 y2); try done; apply Hn; lia]. apply E.
    + apply (set_add_mono F al fuel (n + fuel)) in E; [|lia].
      destruct (add_del_ro F al (n + fuel) w g h1 h2 y1 y2) as [Ea _]; try done; [apply Hn; lia|].
      rewrite Ea in E. destruct (decide (gel y2 = [])) as [Hnil|]; [|discriminate E]. injection E as <-.
      rewrite Hnil. unfold sunion, sdiff. rewrite filter_nil, app_nil_r, gwith_id, insert_id; done.
  - destruct (same_ids_dec y1 y2) as [Hid|Hid].
    2:{ rewrite (proj1 (proj2 (mismatch_fatal F some_al fuel w g h1 h1 h2 y1 y2 IH E1 E2 Hid))) in E. discriminate E. }
    destruct (enough_ex w h2 y2) as [n Hn]. apply (set_del_mono F fuel (n + fuel)) in E; [|lia].
    destruct (Z.eq_dec (gro y1) 0%Z) as [Hro|Hro].
    + destruct (set_del_spec F (n + fuel) w g h1 h2 y1 y2) as (w1 & Ea & J & _); try done; [apply Hn; lia|].
      rewrite Ea in E. by injection E as <-.
    + destruct (add_del_ro F some_al (n + fuel) w g h1 h2 y1 y2) as [_ Ea]; try done; [apply Hn; lia|].
      rewrite Ea in E. destruct (decide (gel y2 = [])) as [Hnil|]; [|discriminate E]. injection E as <-.
      rewrite Hnil. unfold sdiff.
      replace (filter (fun z => smem (gcmp F y1) z [] = false) (gel y1)) with (gel y1).
      2:{ generalize (gcmp F y1). intros cmp. induction (gel y1) as [|z zs IHz]; [done|]. rewrite filter_cons_True by done. by rewrite <- IHz. }
      rewrite gwith_id, insert_id; done.
  - destruct (same_ids_dec y1 y2) as [Hid|Hid].
    2:{ destruct (mismatch_fatal F al fuel w g h h1 h2 y1 y2 IH E1 E2 Hid) as (_ & _ & Hm & _). congruence. }
    destruct (enough_ex w h1 y1) as [n1 Hn1]. destruct (enough_ex w h2 y2) as [n2 Hn2].
    apply (set_union_mono F al fuel (n1 + n2 + fuel)) in E; [|lia].
    eapply ok_Ret in E; [|apply (set_union_spec F al (n1 + n2 + fuel) w g h h1 h2 y1 y2); try done; (apply Hn1 || apply Hn2); lia].
    apply E.
  - destruct (same_ids_dec y1 y2) as [Hid|Hid].
    2:{ destruct (mismatch_fatal F al fuel w g h h1 h2 y1 y2 IH E1 E2 Hid) as (_ & _ & _ & Hm & _). congruence. }
    destruct (enough_ex w h1 y1) as [n1 Hn1]. unfold set_inter in E.
    apply (set_inter_diff_mono true F al fuel (n1 + fuel)) in E; [|lia].
    eapply ok_Ret in E; [|apply (set_inter_diff_spec true F al (n1 + fuel) w g h h1 h2 y1 y2); try done; apply Hn1; lia].
    apply E.
  - destruct (same_ids_dec y1 y2) as [Hid|Hid].
    2:{ destruct (mismatch_fatal F al fuel w g h h1 h2 y1 y2 IH E1 E2 Hid) as (_ & _ & _ & _ & Hm & _). congruence. }
    destruct (enough_ex w h1 y1) as [n1 Hn1]. unfold set_diff in E.
    apply (set_inter_diff_mono false F al fuel (n1 + fuel)) in E; [|lia].
    eapply ok_Ret in E; [|apply (set_inter_diff_spec false F al (n1 + fuel) w g h h1 h2 y1 y2); try done; apply Hn1; lia].
    apply E.
  - destruct (same_ids_dec y1 y2) as [Hid|Hid].
    2:{ destruct (mismatch_fatal F some_al fuel w g h1 h1 h2 y1 y2 IH E1 E2 Hid) as (_ & _ & _ & _ & _ & Hm). congruence. }
    destruct (enough_ex w h1 y1) as [n1 Hn1].
    apply (set_equal_mono F fuel (n1 + fuel)) in E; [|lia].
    destruct (set_equal_spec F (n1 + fuel) w g h1 h2 y1 y2) as (w1 & r1 & Ea & _ & J & _); try done; [apply Hn1; lia|].
    rewrite Ea in E. by injection E as <- <-.
  - rewrite (w_destroy_spec F w g h y IH Hy) in E. destruct (gro y =? 0)%Z; [|discriminate E].
    injection E as <- <-. by apply wrep_delete.
Qed.

(** ** Observations *)
(** an iterator that only updates the user's state *)
Definition spure {U} (f : K -> U -> U * Z) : siterator K U :=
  fun k '(s, u) => let '(u', r) := f k u in Ret (s, u', r).
(** [xs] lists the elements in the order set_iterate hands them to such an iterator *)
Definition senumerates s (xs : list K) : Prop :=
  forall U (f : K -> U -> U * Z) (u : U) fuel,
    N.to_nat (prime (tab s)) + length xs < fuel ->
    set_iterate fuel (spure f) s u =
      let '(u', stopped) := svisit f xs u in Ret (s, u', if stopped then 1%Z else 0%Z).
(** the set at [h]: its elements in iteration order and its readonly flag *)
Definition holds w h (xs : list K) (ro : Z) : Prop :=
  exists x, w !! h = Some x /\ senumerates (ws x) xs /\ readonly (tab (ws x)) = ro.

(** an iterator that also looks keys up in the set *)
Fixpoint members (env : henv) s (ks : list K) : res hst :=
  match ks with [] => Ret s | k :: ks' => '(s', _) ← set_member env s k; members env s' ks' end.
Definition slookup {U} env (ks : K -> U -> list K) (f : K -> U -> U * Z) : siterator K U :=
  fun k '(s, u) => s' ← members env s (ks k u); let '(u', r) := f k u in Ret (s', u', r).

Lemma set_iterate_gen {U} env s L (cb : siterator K U) (f : K -> U -> U * Z) (P : hst -> Prop) fuel u :
  hinv env s L -> P (with_ro s 1) ->
  (forall s1, P s1 -> heap s1 = heap s /\ buckets (tab s1) = buckets (tab s) /\ prime (tab s1) = prime (tab s)) ->
  (forall k s1 u1, P s1 -> exists s2, cb k (s1, u1) = Ret (s2, (f k u1).1, (f k u1).2) /\ P s2) ->
  N.to_nat (prime (tab s)) + length (elems L) < fuel ->
  exists s2, P s2 /\ set_iterate fuel cb s u =
    Ret (with_ro s2 (readonly (tab s)), (svisit f (elems L) u).1,
         if (svisit f (elems L) u).2 then 1%Z else 0%Z).
Proof.
  intros HI P0 HP Hcb Hf. unfold set_iterate.
  set (body := fun k su => _).
  assert (Hb : forall k s1 u1, P s1 -> exists s2, body k (s1, u1) = Ret (s2, (f k u1).1, negb ((f k u1).2 =? 0)%Z) /\ P s2).
  { intros k s1 u1 P1. destruct (Hcb k s1 u1 P1) as (s2 & E & P2). exists s2. unfold body. by rewrite E. }
  rewrite (walk_vfold (fun su : hst * U => Ret su.1) body (fun su => P su.1) s) with (env := env) (L := L); try done.
  - assert (Hv : forall ks s1 u1, P s1 -> exists s2, P s2 /\
       vfold body ks (s1, u1) = Ret (s2, (svisit f ks u1).1, (svisit f ks u1).2)).
    { induction ks as [|k ks IH]; intros s1 u1 P1; [by exists s1|]. cbn [vfold svisit].
      destruct (Hb k s1 u1 P1) as (s2 & -> & P2). rb. destruct (f k u1) as [u2 r]. cbn [fst snd].
      destruct (r =? 0)%Z; cbn [negb]; [by apply IH|]. by exists s2. }
    destruct (Hv (elems L) (with_ro s 1) u P0) as (s2 & P2 & ->). rb. cbn [fst snd]. exists s2. done.
  - intros [s1 u1] P1. exists s1. split; [done|]. by apply HP.
  - intros k [s1 u1] r P1 E. destruct (Hb k s1 u1 P1) as (s2 & E2 & P2). rewrite E2 in E. by injection E as <-.
Qed.

Lemma senumerates_elems env s L : hinv env s L -> senumerates s (elems L).
Proof.
  intros HI U f u fuel Hf.
  destruct (set_iterate_gen env s L (spure f) f (fun s1 => s1 = with_ro s 1) fuel u) as (s2 & -> & ->); try done.
  - intros s1 ->. done.
  - intros k s1 u1 ->. eexists. split; [|done]. unfold spure. by destruct (f k u1).
  - destruct (svisit f (elems L) u) as [u' st]. cbn [fst snd]. do 3 f_equal. by destruct s as [H []].
Qed.

Definition scollect (k : K) (acc : list K) : list K * Z := (acc ++ [k], 0%Z).
Lemma svisit_collect xs acc : svisit scollect xs acc = (acc ++ xs, false).
Proof.
  revert acc. induction xs as [|k xs IH]; intros acc; simpl; [by rewrite app_nil_r|].
  rewrite IH, <- app_assoc. done.
Qed.
Lemma senumerates_unique s xs xs' : senumerates s xs -> senumerates s xs' -> xs = xs'.
Proof.
  intros H1 H2. set (fuel := S (N.to_nat (prime (tab s)) + length xs + length xs')).
  specialize (H1 _ scollect [] fuel ltac:(lia)). specialize (H2 _ scollect [] fuel ltac:(lia)).
  rewrite svisit_collect in H1, H2. rewrite H1 in H2. by injection H2.
Qed.

Lemma undisturbed_senum F x y x' xs :
  rep1 F x y -> undisturbed x x' -> senumerates (ws x) xs -> senumerates (ws x') xs.
Proof.
  intros (L & HI & _) Hu He. rewrite (senumerates_unique _ _ _ He (senumerates_elems _ _ _ HI)).
  eapply senumerates_elems, hinv_undisturbed; [exact Hu|exact HI].
Qed.
Lemma undisturbed_holds F w w' g h xs ro :
  wrep F w g -> (forall x, w !! h = Some x -> exists x', w' !! h = Some x' /\ undisturbed x x') ->
  holds w h xs ro -> holds w' h xs ro.
Proof.
  intros Hw Hu (x & Hx & He & Hro). destruct (Hu x Hx) as (x' & Hx' & U). exists x'. split; [done|].
  assert (Hr : exists y, rep1 F x y).
  { specialize (Hw h). rewrite Hx in Hw. inversion Hw. eauto. }
  destruct Hr as [y Hr]. split; [by eapply undisturbed_senum|].
  destruct U as (r & hh & m & ->). done.
Qed.
Lemma same_holds w w' h xs ro : w' !! h = w !! h -> holds w h xs ro -> holds w' h xs ro.
Proof. unfold holds. by intros ->. Qed.

Lemma holds_of F w g h y : wrep F w g -> g !! h = Some y ->
  exists xs, xs ≡ₚ gel y /\ sdistinct (gcmp F y) xs /\ holds w h xs (gro y).
Proof.
  intros Hw Hy. destruct (wrep_lookup _ _ _ _ _ Hw Hy) as (x & Hx & L & HI & G & Hp & Hro & H1 & H2).
  exists (elems L). split; [done|]. split.
  - replace (gcmp F y) with (cmpf (wenv F x)) by (unfold gcmp; rewrite <- H2; done).
    apply sdistinct_adistinct, HI.
  - exists x. split; [done|]. split; [by eapply senumerates_elems|done].
Qed.

(** ** Statements for the property file *)
Lemma S_create F al w g h hid cid :
  whist F w g -> g !! h = None -> good (HE (fhash F hid) (fcmp F cid) tt) ->
  ok (fun w' => whist F w' (<[h := GS [] 0 hid cid]> g) /\ holds w' h [] 0 /\
                forall h' xs ro, h' <> h -> holds w h' xs ro -> holds w' h' xs ro)
     (can_fail al) (w_create al w h hid cid).
Proof.
  intros Hw Hn G. pose proof (w_create_spec F al w g h hid cid (whist_rep _ _ _ Hw) Hn G) as Hc.
  destruct (w_create al w h hid cid) as [w'| | | |] eqn:E; simpl in *; try done.
  destruct Hc as [Hr Hs]. split; [by eapply wh_create|]. split.
  - destruct (holds_of F w' _ h (GS [] 0 hid cid) Hr) as (xs & Hp & _ & Hh); [by rewrite lookup_insert|].
    apply Permutation_nil_r in Hp as ->. exact Hh.
  - intros h' xs ro Hne. apply same_holds. auto.
Qed.

Lemma S_insert F al w g h y k :
  whist F w g -> g !! h = Some y -> halloc_ok al -> gro y = 0%Z ->
  ok (fun '(w', r) => r = (if smem (gcmp F y) k (gel y) then 1%Z else 0%Z) /\
        forall h' xs ro, h' <> h -> holds w h' xs ro -> holds w' h' xs ro)
     (can_fail al) (w_insert F al w h k).
Proof.
  intros Hw Hy Hal Hro. eapply ok_mono; [by apply (w_insert_spec F al w g h y k); [apply whist_rep|..]| |done].
  intros [w' r] (-> & _ & Hs). split; [done|]. intros h' xs ro Hne. apply same_holds. auto.
Qed.
Lemma S_delete F w g h y k :
  whist F w g -> g !! h = Some y -> gro y = 0%Z ->
  exists w', w_delete F w h k = Ret (w', if smem (gcmp F y) k (gel y) then 0%Z else 1%Z) /\
        forall h' xs ro, h' <> h -> holds w h' xs ro -> holds w' h' xs ro.
Proof.
  intros Hw Hy Hro. destruct (w_delete_spec F w g h y k (whist_rep _ _ _ Hw) Hy Hro) as (w' & E & _ & Hs).
  exists w'. split; [done|]. intros h' xs ro Hne. apply same_holds. auto.
Qed.
Lemma S_member F w g h y k :
  whist F w g -> g !! h = Some y ->
  exists w', w_member F w h k = Ret (w', if smem (gcmp F y) k (gel y) then 1%Z else 0%Z) /\
        (forall h' xs ro, h' <> h -> holds w h' xs ro -> holds w' h' xs ro) /\
        (gro y <> 0%Z -> forall xs ro, holds w h xs ro -> holds w' h xs ro).
Proof.
  intros Hw Hy. destruct (w_member_spec F w g h y k (whist_rep _ _ _ Hw) Hy) as (w' & E & _ & Hs & Hu).
  exists w'. split; [done|]. split.
  - intros h' xs ro Hne. apply same_holds. auto.
  - intros Hro xs ro. eapply undisturbed_holds; [by eapply whist_rep|]. auto.
Qed.
Lemma S_contents F w g h y : whist F w g -> g !! h = Some y ->
  exists xs, xs ≡ₚ gel y /\ sdistinct (gcmp F y) xs /\ holds w h xs (gro y).
Proof. intros Hw. by apply holds_of, whist_rep. Qed.

Lemma S_count F w g h y x : whist F w g -> g !! h = Some y -> w !! h = Some x ->
  set_count (ws x) = to_int (Z.of_N (u64 (N.of_nat (length (gel y))))) /\
  (Z.of_nat (length (gel y)) < 2 ^ 31 -> set_count (ws x) = Z.of_nat (length (gel y)))%Z.
Proof.
  intros Hw Hy Hx. destruct (wrep_lookup _ _ _ _ _ (whist_rep _ _ _ Hw) Hy) as (x' & Hx' & L & HI & _ & Hp & _).
  rewrite Hx in Hx'. injection Hx' as <-. unfold set_count. rewrite (hi_entries _ _ _ HI).
  replace (length (pairs L)) with (length (gel y)) by (rewrite <- Hp; apply fmap_length).
  split; [done|]. intros Hl. unfold u64. rewrite N.mod_small by lia. unfold to_int.
  rewrite Z.mod_small by lia. lia.
Qed.

(** C11 *)
Lemma S_union F w g h h1 h2 y1 y2 al :
  whist F w g -> g !! h1 = Some y1 -> g !! h2 = Some y2 -> g !! h = None -> same_ids y1 y2 -> halloc_ok al ->
  exists n, forall fuel, n <= fuel ->
  ok (fun w' => (exists xs, xs ≡ₚ sunion (gcmp F y1) (gel y1) (gel y2) /\ holds w' h xs 0) /\
                forall h' xs ro, h' <> h -> holds w h' xs ro -> holds w' h' xs ro)
     (can_fail al) (set_union F al fuel w h h1 h2).
Proof.
  intros Hw E1 E2 E Hid Hal. destruct (enough_ex w h1 y1) as [n1 Hn1]. destruct (enough_ex w h2 y2) as [n2 Hn2].
  exists (n1 + n2). intros fuel Hf. eapply ok_mono.
  - apply (set_union_spec F al fuel w g h h1 h2 y1 y2); try done; [by apply whist_rep|apply Hn1; lia|apply Hn2; lia].
  - intros w' [Hr Hs]. split.
    + destruct (holds_of F w' _ h _ Hr (lookup_insert _ _ _)) as (xs & Hp & _ & Hh). exists xs. done.
    + intros h' xs ro Hne. apply same_holds. auto.
  - done.
Qed.
Lemma S_inter_diff keep F w g h h1 h2 y1 y2 al :
  whist F w g -> g !! h1 = Some y1 -> g !! h2 = Some y2 -> g !! h = None -> same_ids y1 y2 -> halloc_ok al ->
  exists n, forall fuel, n <= fuel ->
  ok (fun w' => (exists xs, xs ≡ₚ skeep (gcmp F y1) keep (gel y1) (gel y2) /\ holds w' h xs 0) /\
                forall h' xs ro, h' <> h -> holds w h' xs ro -> holds w' h' xs ro)
     (can_fail al) (set_inter_diff keep F al fuel w h h1 h2).
Proof.
  intros Hw E1 E2 E Hid Hal. destruct (enough_ex w h1 y1) as [n1 Hn1].
  exists n1. intros fuel Hf. eapply ok_mono.
  - apply (set_inter_diff_spec keep F al fuel w g h h1 h2 y1 y2); try done; [by apply whist_rep|apply Hn1; lia].
  - intros w' (Hr & Hs & Hu). split.
    + destruct (holds_of F w' _ h _ Hr (lookup_insert _ _ _)) as (xs & Hp & _ & Hh). exists xs. done.
    + intros h' xs ro Hne. destruct (decide (h' = h2)) as [->|Hne2].
      * eapply undisturbed_holds; [by eapply whist_rep|done].
      * apply same_holds. auto.
  - done.
Qed.

(** C12 *)
Lemma S_add F w g h1 h2 y1 y2 al :
  whist F w g -> g !! h1 = Some y1 -> g !! h2 = Some y2 -> h1 <> h2 -> same_ids y1 y2 -> halloc_ok al ->
  gro y1 = 0%Z -> exists n, forall fuel, n <= fuel ->
  ok (fun w' => (exists xs, xs ≡ₚ sunion (gcmp F y1) (gel y1) (gel y2) /\ holds w' h1 xs 0) /\
                forall h' xs ro, h' <> h1 -> holds w h' xs ro -> holds w' h' xs ro)
     (can_fail al) (set_add F al fuel w h1 h2).
Proof.
  intros Hw E1 E2 Hne Hid Hal Hro. destruct (enough_ex w h2 y2) as [n2 Hn2].
  exists n2. intros fuel Hf. eapply ok_mono.
  - apply (set_add_spec F al fuel w g h1 h2 y1 y2); try done; [by apply whist_rep|apply Hn2; lia].
  - intros w' (Hr & Hs). split.
    + destruct (holds_of F w' _ h1 _ Hr (lookup_insert _ _ _)) as (xs & Hp & _ & Hh). exists xs.
      cbn [gwith gro gel] in *. rewrite Hro in Hh. done.
    + intros h' xs ro Hne'. apply same_holds. auto.
  - done.
Qed.
Lemma S_del F w g h1 h2 y1 y2 :
  whist F w g -> g !! h1 = Some y1 -> g !! h2 = Some y2 -> h1 <> h2 -> same_ids y1 y2 ->
  gro y1 = 0%Z -> exists n, forall fuel, n <= fuel ->
  exists w', set_del F fuel w h1 h2 = Ret w' /\
    (exists xs, xs ≡ₚ sdiff (gcmp F y1) (gel y1) (gel y2) /\ holds w' h1 xs 0) /\
    forall h' xs ro, h' <> h1 -> holds w h' xs ro -> holds w' h' xs ro.
Proof.
  intros Hw E1 E2 Hne Hid Hro. destruct (enough_ex w h2 y2) as [n2 Hn2].
  exists n2. intros fuel Hf.
  destruct (set_del_spec F fuel w g h1 h2 y1 y2 (whist_rep _ _ _ Hw) E1 E2 Hne Hid Hro ltac:(apply Hn2; lia))
    as (w' & E & Hr & Hs).
  exists w'. split; [done|]. split.
  - destruct (holds_of F w' _ h1 _ Hr (lookup_insert _ _ _)) as (xs & Hp & _ & Hh). exists xs.
    cbn [gwith gro gel] in *. rewrite Hro in Hh. done.
  - intros h' xs ro Hne'. apply same_holds. auto.
Qed.
Lemma S_add_del_ro F w g h1 h2 y1 y2 al :
  whist F w g -> g !! h1 = Some y1 -> g !! h2 = Some y2 -> same_ids y1 y2 ->
  gro y1 <> 0%Z -> gel y2 <> [] -> exists n, forall fuel, n <= fuel ->
  set_add F al fuel w h1 h2 = Abort /\ set_del F fuel w h1 h2 = Abort.
Proof.
  intros Hw E1 E2 Hid Hro Hnn. destruct (enough_ex w h2 y2) as [n2 Hn2]. exists n2. intros fuel Hf.
  destruct (add_del_ro F al fuel w g h1 h2 y1 y2 (whist_rep _ _ _ Hw) E1 E2 Hid Hro ltac:(apply Hn2; lia)) as [-> ->].
  by rewrite decide_False.
Qed.
Lemma S_mismatch F al fuel w g h h1 h2 y1 y2 :
  whist F w g -> g !! h1 = Some y1 -> g !! h2 = Some y2 -> ~ same_ids y1 y2 ->
  set_add F al fuel w h1 h2 = Fatal /\ set_del F fuel w h1 h2 = Fatal /\
  set_union F al fuel w h h1 h2 = Fatal /\ set_inter F al fuel w h h1 h2 = Fatal /\
  set_diff F al fuel w h h1 h2 = Fatal /\ set_equal F fuel w h1 h2 = Fatal.
Proof. intros Hw. by apply (mismatch_fatal F al fuel w g), whist_rep. Qed.

(** C13 *)
Lemma S_equal F w g h1 h2 y1 y2 :
  whist F w g -> g !! h1 = Some y1 -> g !! h2 = Some y2 -> same_ids y1 y2 ->
  (N.of_nat (length (gel y1)) < 2 ^ 64)%N -> (N.of_nat (length (gel y2)) < 2 ^ 64)%N ->
  exists n, forall fuel, n <= fuel -> exists w' r, set_equal F fuel w h1 h2 = Ret (w', r) /\
    (r = 1%Z /\ sequal (gcmp F y1) (gel y1) (gel y2) \/ r = 0%Z /\ ~ sequal (gcmp F y1) (gel y1) (gel y2)) /\
    forall h' xs ro, holds w h' xs ro -> holds w' h' xs ro.
Proof.
  intros Hw E1 E2 Hid Hl1 Hl2. destruct (enough_ex w h1 y1) as [n1 Hn1]. exists n1. intros fuel Hf.
  destruct (set_equal_spec F fuel w g h1 h2 y1 y2 (whist_rep _ _ _ Hw) E1 E2 Hid ltac:(apply Hn1; lia) Hl1 Hl2)
    as (w' & r & E & Hr & _ & Hs & Hu).
  exists w', r. split; [done|]. split; [done|]. intros h' xs ro.
  destruct (decide (h' = h2)) as [->|Hne2].
  - eapply undisturbed_holds; [by eapply whist_rep|done].
  - apply same_holds. auto.
Qed.

(** C14 *)
Lemma members_ro env s0 L ks : good env -> hinv env s0 L -> forall s1,
  (exists r h m, s1 = MkH (heap s0) (set_counts (set_readonly (tab s0) 1) r h m)) ->
  exists s2, members env s1 ks = Ret s2 /\
    (exists r h m, s2 = MkH (heap s0) (set_counts (set_readonly (tab s0) 1) r h m)).
Proof.
  intros G HI. induction ks as [|k ks IH]; intros s1 H1; [by exists s1|]. cbn [members].
  assert (HI1 : hinv env s1 L).
  { destruct H1 as (r & h & m & ->). destruct HI as [[] ?]. constructor; [constructor|..]; done. }
  destruct (set_member_spec env s1 L k HI1 G) as (s2 & L' & -> & _ & _ & J4 & J5 & J6 & J7 & J8 & _). rb.
  apply IH. destruct H1 as (r & h & m & ->). destruct (J4 ltac:(done)) as (_ & Hh & Hb).
  exists (retrievals (tab s2)), (hits (tab s2)), (misses (tab s2)). rewrite (set_eta s2), Hh. cbn [heap tab]. f_equal.
  assert (Ht := tab_counts_eq _ _ Hb J6 J7 J8 J5). exact Ht.
Qed.

Lemma S_iterate {U} F w g h y x xs ro (ks : K -> U -> list K) (f : K -> U -> U * Z) u fuel :
  whist F w g -> g !! h = Some y -> w !! h = Some x -> holds w h xs ro ->
  N.to_nat (prime (tab (ws x))) + length xs < fuel ->
  exists s', set_iterate fuel (slookup (wenv F x) ks f) (ws x) u =
      Ret (s', (svisit f xs u).1, if (svisit f xs u).2 then 1%Z else 0%Z) /\
    senumerates s' xs /\ readonly (tab s') = ro.
Proof.
  intros Hw Hy Hx (x' & Hx' & He & Hro) Hf. rewrite Hx in Hx'. injection Hx' as <-.
  destruct (wrep_lookup _ _ _ _ _ (whist_rep _ _ _ Hw) Hy) as (x' & Hx' & L & HI & G & _).
  rewrite Hx in Hx'. injection Hx' as <-.
  rewrite (senumerates_unique _ _ _ He (senumerates_elems _ _ _ HI)) in *.
  destruct (set_iterate_gen (wenv F x) (ws x) L (slookup (wenv F x) ks f) f
     (fun s1 => exists r h m, s1 = MkH (heap (ws x)) (set_counts (set_readonly (tab (ws x)) 1) r h m)) fuel u HI)
    as (s2 & (r & hh & m & ->) & E).
  - exists (retrievals (tab (ws x))), (hits (tab (ws x))), (misses (tab (ws x))). unfold with_ro. f_equal; try done.
  - intros s1 (r & hh & m & ->). done.
  - intros k s1 u1 P1. destruct (members_ro _ _ _ (ks k u1) G HI s1 P1) as (s2 & E2 & P2).
    exists s2. unfold slookup. rewrite E2. rb. by destruct (f k u1).
  - done.
  - eexists. split; [exact E|]. split; [|by cbn].
    apply (senumerates_elems (wenv F x)). unfold with_ro. apply hinv_flag.
    destruct HI as [[] ? ?]. constructor; [constructor|..]; done.
Qed.

(** an iterator that inserts or deletes *)
Lemma S_iterate_mod {U} F w g h y x (kf : K -> K) fuel (u : U) al :
  whist F w g -> g !! h = Some y -> w !! h = Some x -> gel y <> [] ->
  N.to_nat (prime (tab (ws x))) + length (gel y) < fuel ->
  set_iterate fuel (fun k '(s, u) => '(s', r) ← set_insert (wenv F x) al s (kf k); Ret (s', u, 0%Z)) (ws x) u = Abort /\
  set_iterate fuel (fun k '(s, u) => '(s', r) ← set_delete (wenv F x) s (kf k); Ret (s', u, 0%Z)) (ws x) u = Abort.
Proof.
  intros Hw Hy Hx Hnn Hf.
  destruct (wrep_lookup _ _ _ _ _ (whist_rep _ _ _ Hw) Hy) as (x' & Hx' & L & HI & G & Hp & _).
  rewrite Hx in Hx'. injection Hx' as <-. rewrite <- Hp in Hf.
  assert (Hel : exists k ks, elems L = k :: ks).
  { destruct (elems L) as [|k ks]; [|eauto]. by apply Permutation_nil_l in Hp. }
  destruct Hel as (k0 & ks & Hel).
  assert (HI1 : hinv (wenv F x) (with_ro (ws x) 1) L) by (by apply hinv_flag).
  unfold set_iterate. split.
  - rewrite (walk_vfold _ _ (fun su => su.1 = with_ro (ws x) 1) (ws x)) with (env := wenv F x) (L := L); try done.
    + rewrite Hel. cbn [vfold]. rewrite set_insert_ro by done. done.
    + intros [s1 u1] Hs1. cbn in Hs1. subst s1. by exists (with_ro (ws x) 1).
    + intros k [s1 u1] r Hs1. cbn in Hs1. subst s1. rewrite set_insert_ro by done. done.
  - rewrite (walk_vfold _ _ (fun su => su.1 = with_ro (ws x) 1) (ws x)) with (env := wenv F x) (L := L); try done.
    + rewrite Hel. cbn [vfold]. rewrite (set_delete_ro _ _ L) by done. done.
    + intros [s1 u1] Hs1. cbn in Hs1. subst s1. by exists (with_ro (ws x) 1).
    + intros k [s1 u1] r Hs1. cbn in Hs1. subst s1. rewrite (set_delete_ro _ _ L) by done. done.
Qed.

Lemma visit_svisit {U} (f : K -> U -> U * Z) (m : list (K * unit)) : forall u,
  visit (fun k _ => f k) m u = svisit f m.*1 u.
Proof.
  induction m as [|[k d] m IH]; intros u; [done|]. cbn [visit svisit fmap list_fmap fst].
  destruct (f k u) as [u' r]. destruct (r =? 0)%Z; [apply IH|done].
Qed.

Lemma S_SET_ITERATE {U} F w g h y x xs ro (ks : K -> U -> list K) (f : K -> U -> U * Z) u fuel :
  whist F w g -> g !! h = Some y -> w !! h = Some x -> holds w h xs ro -> length xs < fuel ->
  exists s', SET_ITERATE fuel (slookup (wenv F x) ks f) (ws x) u =
      Ret (s', (svisit f xs u).1, (svisit f xs u).2) /\
    senumerates s' xs /\
    readonly (tab s') = (if decide (xs = []) then ro else if (svisit f xs u).2 then 1%Z else 0%Z).
Proof.
  intros Hw Hy Hx (x' & Hx' & He & Hro) Hf. rewrite Hx in Hx'. injection Hx' as <-.
  destruct (wrep_lookup _ _ _ _ _ (whist_rep _ _ _ Hw) Hy) as (x' & Hx' & L & HI & G & _).
  rewrite Hx in Hx'. injection Hx' as <-.
  rewrite (senumerates_unique _ _ _ He (senumerates_elems _ _ _ HI)) in *.
  destruct (HSH_ITERATE_spec (wenv F x) L (fun k _ su => slookup (wenv F x) ks f k su) (fun k _ => f k) fuel (ws x) u)
    as (s' & E & J1 & J2).
  - intros k d s1 u1 HI1 Hro1.
    assert (Hm : forall kl s1, hinv (wenv F x) s1 L -> readonly (tab s1) = 1%Z ->
       exists s2, members (wenv F x) s1 kl = Ret s2 /\ hinv (wenv F x) s2 L /\ readonly (tab s2) = 1%Z).
    { induction kl as [|k1 kl IH]; intros s2 HI2 Hro2; [by exists s2|]. cbn [members].
      destruct (set_member_spec (wenv F x) s2 L k1 HI2 G) as (s3 & L' & -> & I3 & _ & J4 & J5 & _). rb.
      destruct (J4 ltac:(congruence)) as (-> & _). apply IH; [done|congruence]. }
    destruct (Hm (ks k u1) s1 HI1 Hro1) as (s2 & E2 & HI2 & Hro2). exists s2. unfold slookup. rewrite E2. rb.
    by destruct (f k u1).
  - done.
  - unfold elems in Hf. by rewrite fmap_length in Hf.
  - exists s'. rewrite (fits_Ret _ _ _ (SET_ITERATE_fits (wenv F x) fuel (slookup (wenv F x) ks f) (ws x) u) E).
    rewrite visit_svisit in *. split; [done|]. split; [by eapply senumerates_elems|].
    rewrite J2, Hro. unfold elems. destruct (decide (pairs L = [])) as [Hn|Hn], (decide ((pairs L).*1 = [])) as [Hn'|Hn']; try done.
    + by rewrite Hn in Hn'.
    + by apply fmap_nil_inv in Hn'.
Qed.

(** C15 *)
Lemma S_readonly F w g h y f : whist F w g -> g !! h = Some y ->
  exists w', w_readonly w h f = Ret (w', gro y) /\
    (forall xs ro, holds w h xs ro -> holds w' h xs f) /\
    (forall h' xs ro, h' <> h -> holds w h' xs ro -> holds w' h' xs ro).
Proof.
  intros Hw Hy. assert (Hr := whist_rep _ _ _ Hw).
  destruct (w_readonly_spec F w g h y f Hr Hy) as (w' & E & Hr' & Hs & Hx').
  exists w'. split; [done|]. split.
  - intros xs ro (x & Hx & He & _). exists (WS (with_ro (ws x) f) (whid x) (wcid x)). split; [by apply Hx'|]. split; [|done].
    destruct (wrep_lookup _ _ _ _ _ Hr Hy) as (x' & Hx2 & L & HI & _). rewrite Hx in Hx2. injection Hx2 as <-.
    rewrite (senumerates_unique _ _ _ He (senumerates_elems _ _ _ HI)).
    apply (senumerates_elems (wenv F x)). by apply hinv_flag.
  - intros h' xs ro Hne. apply same_holds. auto.
Qed.
Lemma S_ro F w g h y : whist F w g -> g !! h = Some y -> gro y <> 0%Z ->
  (forall al k, w_insert F al w h k = Abort) /\ (forall k, w_delete F w h k = Abort) /\ w_destroy w h = Abort.
Proof.
  intros Hw Hy Hro. assert (Hr := whist_rep _ _ _ Hw). split; [intros; by eapply w_insert_ro|].
  split; [intros; by eapply w_delete_ro|]. rewrite (w_destroy_spec F w g h y Hr Hy).
  destruct (Z.eqb_spec (gro y) 0%Z); done.
Qed.
Lemma S_destroy F w g h y : whist F w g -> g !! h = Some y -> gro y = 0%Z ->
  w_destroy w h = Ret (delete h w, ∅).
Proof. intros Hw Hy Hro. rewrite (w_destroy_spec F w g h y (whist_rep _ _ _ Hw) Hy), Hro. done. Qed.

Lemma S_nodes F w g h y x : whist F w g -> g !! h = Some y -> w !! h = Some x ->
  size (heap (ws x)) = length (gel y).
Proof.
  intros Hw Hy Hx.
  destruct (wrep_lookup _ _ _ _ _ (whist_rep _ _ _ Hw) Hy) as (x' & Hx' & L & HI & _ & Hp & _).
  rewrite Hx in Hx'. injection Hx' as <-.
  assert (Hd : dom (heap (ws x)) = list_to_set (C := gset positive) (addrs L)).
  { apply set_eq. intros a. rewrite elem_of_dom, elem_of_list_to_set. apply (hi_own _ _ _ HI). }
  rewrite <- (size_dom (D := gset positive)), Hd, size_list_to_set by apply (hi_t _ _ _ HI).
  rewrite <- Hp. unfold addrs, elems, pairs, ents. by rewrite !fmap_length.
Qed.

Definition sbucket_counts (hf : K -> N) (p : N) (xs : list K) : list nat :=
  bucket_counts hf p ((fun k => (k, tt)) <$> xs).

Lemma S_stats F w g h y x al : whist F w g -> g !! h = Some y -> w !! h = Some x ->
  (N.of_nat (length (gel y)) < 2 ^ 64)%N ->
  ok (fun st =>
        let c := sbucket_counts (fhash F (ghid y)) (s_size st) (gel y) in
        s_entries st = N.of_nat (length (gel y)) /\
        s_buckets_used st = N.of_nat (count_if (fun n => negb (Nat.eqb n 0)) c) /\
        s_singletons st = N.of_nat (count_if (fun n => Nat.eqb n 1) c) /\
        s_maximum_length st = N.of_nat (max_list c) /\
        s_size st = prime (tab (ws x)) /\ s_resizings st = resizings (tab (ws x)) /\
        s_retrievals st = retrievals (tab (ws x)) /\ s_hits st = hits (tab (ws x)) /\
        s_misses st = misses (tab (ws x)))
     (blk_alloc al 72 = false) (set_get_stats al (ws x)).
Proof.
  intros Hw Hy Hx Hlen.
  destruct (wrep_lookup _ _ _ _ _ (whist_rep _ _ _ Hw) Hy) as (x' & Hx' & L & HI & _ & Hp & _ & H1 & H2).
  rewrite Hx in Hx'. injection Hx' as <-. rewrite (set_get_stats_spec _ al _ L HI) by (by rewrite Hp).
  destruct (blk_alloc al 72); [|done]. cbn [ok s_entries s_size s_buckets_used s_singletons s_maximum_length s_retrievals s_misses s_resizings s_hits].
  assert (Hb : bucket_counts (hashf (wenv F x)) (prime (tab (ws x))) (pairs L) =
               sbucket_counts (fhash F (ghid y)) (prime (tab (ws x))) (gel y)).
  { unfold sbucket_counts, bucket_counts. cbn [wenv hashf]. rewrite H1. apply list_fmap_ext. intros i z _.
    rewrite <- Hp. unfold elems. rewrite <- list_fmap_compose. f_equal.
    replace ((fun k => (k, tt)) ∘ fst <$> pairs L) with (pairs L); [done|].
    clear. induction (pairs L) as [|[k []] m IH]; [done|]. cbn [fmap list_fmap]. by rewrite <- IH. }
  rewrite Hb, Hp. repeat split; done.
Qed.

(** the lookup counters, one call at a time *)
Lemma S_member_counters F w g h y x k xs ro : whist F w g -> g !! h = Some y -> w !! h = Some x ->
  holds w h xs ro ->
  exists s' r, set_member (wenv F x) (ws x) k = Ret (s', r) /\
    retrievals (tab s') = u64 (retrievals (tab (ws x)) + 1) /\
    misses (tab s') = (if smem (gcmp F y) k (gel y) then misses (tab (ws x)) else u64 (misses (tab (ws x)) + 1)) /\
    prime (tab s') = prime (tab (ws x)) /\ resizings (tab s') = resizings (tab (ws x)) /\
    let top := on_top (fhash F (ghid y)) (gcmp F y) (prime (tab (ws x))) k ((fun k => (k, tt)) <$> xs) in
    ((top /\ hits (tab s') = u64 (hits (tab (ws x)) + 1)) \/ (~ top /\ hits (tab s') = hits (tab (ws x)))).
Proof.
  intros Hw Hy Hx (x' & Hx' & He & Hro). rewrite Hx in Hx'. injection Hx' as <-.
  destruct (wrep_lookup _ _ _ _ _ (whist_rep _ _ _ Hw) Hy) as (x' & Hx' & Hr). pose proof (rep1_cmp _ _ _ Hr) as Hc.
  destruct Hr as (L & HI & G & Hp & _ & H1 & H2). rewrite Hx in Hx'. injection Hx' as <-.
  rewrite (senumerates_unique _ _ _ He (senumerates_elems _ _ _ HI)) in *.
  destruct (set_member_spec _ _ L k HI G) as (s' & L' & E & _ & _ & _ & _ & _ & J7 & J8 & J9 & J10 & J11).
  eexists s', _. split; [exact E|]. rewrite Hc in *. rewrite (smem_perm _ k _ _ Hp) in J10.
  do 4 (split; [done|]). cbn zeta.
  replace ((fun k => (k, tt)) <$> elems L) with (pairs L); [rewrite <- H1; exact J11|].
  unfold elems. clear. induction (pairs L) as [|[k []] m IH]; [done|]. cbn [fmap list_fmap fst]. by rewrite <- IH.
Qed.

End SetHist.
