(** Histories of list calls. *)
From Verif Require Import Base StackModel StackProofs ObjModel ObjProofs ListModel ListProofs.
Local Open Scope Z_scope.
Implicit Types (w : lworld) (H : gmap positive (list (positive * ptr))).

(** one more node: the pool's int counters and the long total have room *)
Definition lroom (n : nat) (t : Z) : Prop := Z.of_nat n < 2 ^ 31 - 1 /\ t + 16 < 2 ^ 63.

(** [lst_history w (LG H n t)]: [w] is reached by list calls on any number of lists.
    [H] maps each live list to its elements (position, datum); the position of an
    appended (pushed) element is what lst_last_position (lst_init_position) returns
    right after.  [n] counts nodes requested since the last shutdown, [t] bytes. *)
Inductive lst_history : lworld -> lgh -> Prop :=
| lh_init : lst_history lempty (LG ∅ 0 0)
| lh_create al w H n t w' l : lst_history w (LG H n t) -> lal_ok al -> t + 32 < 2 ^ 63 ->
    lst_create al w = Ret (w', l) -> lst_history w' (LG (<[l := []]> H) n (t + 32))
| lh_append al w H n t w' l L dt d : lst_history w (LG H n t) -> lal_ok al -> lnodes_ok al -> lroom n t ->
    H !! l = Some L -> lst_append al w (Some l) dt = Ret w' -> lst_last_position w' (Some l) = Ret (Some d) ->
    lst_history w' (LG (<[l := L ++ [(d, dt)]]> H) (n + 1) (t + 16))
| lh_push al w H n t w' l L dt d : lst_history w (LG H n t) -> lal_ok al -> lnodes_ok al -> lroom n t ->
    H !! l = Some L -> lst_push al w (Some l) dt = Ret w' -> lst_init_position w' (Some l) = Ret (Some d) ->
    lst_history w' (LG (<[l := (d, dt) :: L]> H) (n + 1) (t + 16))
| lh_pop al w H n t w' l L dt : lst_history w (LG H n t) -> lal_ok al -> lnodes_ok al ->
    H !! l = Some L -> lst_pop al w (Some l) = Ret (w', dt) ->
    lst_history w' (LG (<[l := tail L]> H) n t)
| lh_set w H n t w' l L1 a d L2 dt : lst_history w (LG H n t) -> H !! l = Some (L1 ++ (a, d) :: L2) ->
    lst_set_position w (Some a) dt = Ret w' -> lst_history w' (LG (<[l := L1 ++ (a, dt) :: L2]> H) n t)
| lh_nth_set w H n t w' l L k a d dt : lst_history w (LG H n t) -> H !! l = Some L ->
    (1 <= k)%N -> L !! N.to_nat (k - 1) = Some (a, d) ->
    lst_nth_set w (Some l) k dt = Ret w' ->
    lst_history w' (LG (<[l := <[N.to_nat (k - 1) := (a, dt)]> L]> H) n t)
| lh_truncate al w H n t w' l L k : lst_history w (LG H n t) -> lal_ok al -> lnodes_ok al -> H !! l = Some L ->
    lst_truncate al w (Some l) k = Ret w' ->
    lst_history w' (LG (<[l := take (N.to_nat k) L]> H) n t)
| lh_cut al w H n t w' l L1 a d L2 : lst_history w (LG H n t) -> lal_ok al -> lnodes_ok al ->
    H !! l = Some (L1 ++ (a, d) :: L2) -> lst_truncate_position al w (Some l) (Some a) = Ret w' ->
    lst_history w' (LG (<[l := L1 ++ [(a, d)]]> H) n t)
| lh_clear al w H n t w' l L : lst_history w (LG H n t) -> lal_ok al -> lnodes_ok al ->
    H !! l = Some L -> lst_truncate_position al w (Some l) None = Ret w' ->
    lst_history w' (LG (<[l := []]> H) n t)
| lh_destroy al w H n t w' l L : lst_history w (LG H n t) -> lal_ok al -> lnodes_ok al ->
    H !! l = Some L -> lst_destroy al w (Some l) = Ret w' -> lst_history w' (LG (delete l H) n t)
| lh_shutdown w n t w' : lst_history w (LG ∅ n t) -> lst_shutdown w = Ret w' -> lst_history w' (LG ∅ 0 t).

Lemma lst_history_inv w G : lst_history w G -> linv w G /\ 0 <= g_total G.
Proof.
  induction 1 as [|al w H n t w' l _ [I T] Hal Ht E
    |al w H n t w' l L dt d _ [I T] Hal Hn [R1 R2] Hl E Ed
    |al w H n t w' l L dt d _ [I T] Hal Hn [R1 R2] Hl E Ed
    |al w H n t w' l L dt _ [I T] Hal Hn Hl E
    |w H n t w' l L1 a d L2 dt _ [I T] Hl E
    |w H n t w' l L k a d dt _ [I T] Hl Hk Hd E
    |al w H n t w' l L k _ [I T] Hal Hn Hl E
    |al w H n t w' l L1 a d L2 _ [I T] Hal Hn Hl E
    |al w H n t w' l L _ [I T] Hal Hn Hl E
    |al w H n t w' l L _ [I T] Hal Hn Hl E
    |w n t w' _ [I T] E]; cbn [g_total] in *; (split; [|cbn [g_total]; lia]).
  - apply linv_empty.
  - pose proof (create_list_spec al w H n t I Hal ltac:(lia) Ht) as Hc. rewrite E in Hc. simpl in Hc. tauto.
  - pose proof (append_spec al Hal Hn w H n t I l L Hl dt ltac:(lia)) as Hc. rewrite E in Hc. simpl in Hc.
    destruct Hc as [d' I']. rewrite (last_position_spec w' _ _ _ I' l _ (lookup_insert _ _ _)) in Ed.
    rewrite last_snoc in Ed. injection Ed as ->. done.
  - pose proof (push_spec' al Hal Hn w H n t I l L Hl dt ltac:(lia)) as Hc. rewrite E in Hc. simpl in Hc.
    destruct Hc as [d' I']. rewrite (init_position_spec w' _ _ _ I' l _ (lookup_insert _ _ _)) in Ed.
    injection Ed as ->. done.
  - pose proof (pop_list_spec al Hal Hn w H n t I l L Hl) as Hc. destruct L as [|[a d] L'].
    + rewrite E in Hc. injection Hc as -> ->. cbn [tail]. by rewrite insert_id.
    + destruct Hc as (w1 & E1 & I'). rewrite E in E1. injection E1 as <- <-. done.
  - destruct (set_position_spec w H n t I l _ Hl L1 a d L2 dt eq_refl) as (w1 & E1 & I').
    rewrite E in E1. injection E1 as <-. done.
  - pose proof (nth_set_spec w H n t I l L Hl k dt) as Hc. pose proof (lookup_lt_Some _ _ _ Hd).
    rewrite decide_True in Hc by lia. destruct Hc as (w1 & a' & d' & Hd' & E1 & I'). rewrite Hd in Hd'. injection Hd' as <- <-.
    rewrite E in E1. injection E1 as <-. done.
  - pose proof (truncate_spec al Hal Hn w H n t I l L Hl k) as Hc. destruct (decide (N.of_nat (length L) <= k)%N) as [Hk|Hk].
    + rewrite E in Hc. injection Hc as ->. rewrite take_ge by lia. by rewrite insert_id.
    + destruct (decide (k <= 1)%N); [|congruence]. destruct Hc as (w1 & E1 & I'). rewrite E in E1. injection E1 as <-. done.
  - destruct (cut_spec al Hal Hn w H n t I l _ Hl L1 a d L2 eq_refl) as (w1 & E1 & I' & _).
    rewrite E in E1. injection E1 as <-. done.
  - destruct (truncate_position_null al Hal Hn w H n t I l L Hl) as (w1 & E1 & I').
    rewrite E in E1. injection E1 as <-. done.
  - destruct (destroy_list_spec al Hal Hn w H n t I l L Hl) as (w1 & E1 & I').
    rewrite E in E1. injection E1 as <-. done.
  - destruct (shutdown_spec w n t I) as (w1 & E1 & I' & _). rewrite E in E1. injection E1 as <-. done.
Qed.

Section any.
Context (w : lworld) (H : gmap positive (list (positive * ptr))) (n : nat) (t : Z) (h : lst_history w (LG H n t)).
Notation nomem al := (exists n h, al_blk (la_obj al) n h = None).

Lemma h_create al : lal_ok al -> t + 32 < 2 ^ 63 ->
  ok (fun '(w', l) => H !! l = None /\ lst_history w' (LG (<[l := []]> H) n (t + 32)))
     (exists h, la_list al h = None \/ exists h1 h2, al_info (la_obj al) h1 = None \/ al_stk (la_obj al) h2 = None)
     (lst_create al w).
Proof.
  destruct (lst_history_inv _ _ h) as [I T]. cbn in T. intros Hal Ht.
  pose proof (create_list_spec al w H n t I Hal ltac:(lia) Ht) as Hc.
  destruct (lst_create al w) as [[w' l]| | | |] eqn:E; simpl in *; try done. split; [tauto|]. by eapply lh_create.
Qed.
Section one.
Context (l : positive) (L : list (positive * ptr)) (Hl : H !! l = Some L).

Lemma h_append al dt : lal_ok al -> lnodes_ok al -> lroom n t ->
  ok (fun w' => exists d, lst_last_position w' (Some l) = Ret (Some d) /\
        lst_history w' (LG (<[l := L ++ [(d, dt)]]> H) (n + 1) (t + 16)))
     (nomem al) (lst_append al w (Some l) dt).
Proof.
  destruct (lst_history_inv _ _ h) as [I T]. cbn in T. intros Hal Hn Hr.
  pose proof (append_spec al Hal Hn w H n t I l L Hl dt ltac:(unfold lroom in Hr; lia)) as Hc.
  destruct (lst_append al w (Some l) dt) as [w'| | | |] eqn:E; simpl in *; try done. destruct Hc as [d I'].
  assert (Hd : lst_last_position w' (Some l) = Ret (Some d)).
  { rewrite (last_position_spec w' _ _ _ I' l _ (lookup_insert _ _ _)). by rewrite last_snoc. }
  exists d. split; [done|]. by eapply lh_append.
Qed.
Lemma h_push al dt : lal_ok al -> lnodes_ok al -> lroom n t ->
  ok (fun w' => exists d, lst_init_position w' (Some l) = Ret (Some d) /\
        lst_history w' (LG (<[l := (d, dt) :: L]> H) (n + 1) (t + 16)))
     (nomem al) (lst_push al w (Some l) dt).
Proof.
  destruct (lst_history_inv _ _ h) as [I T]. cbn in T. intros Hal Hn Hr.
  pose proof (push_spec' al Hal Hn w H n t I l L Hl dt ltac:(unfold lroom in Hr; lia)) as Hc.
  destruct (lst_push al w (Some l) dt) as [w'| | | |] eqn:E; simpl in *; try done. destruct Hc as [d I'].
  assert (Hd : lst_init_position w' (Some l) = Ret (Some d)).
  { rewrite (init_position_spec w' _ _ _ I' l _ (lookup_insert _ _ _)). done. }
  exists d. split; [done|]. by eapply lh_push.
Qed.
Lemma h_pop al : lal_ok al -> lnodes_ok al ->
  exists w', lst_pop al w (Some l) = Ret (w', match L with [] => None | (_, d) :: _ => d end) /\
    lst_history w' (LG (<[l := tail L]> H) n t).
Proof.
  destruct (lst_history_inv _ _ h) as [I T]. intros Hal Hn.
  pose proof (pop_list_spec al Hal Hn w H n t I l L Hl) as Hc. destruct L as [|[a d] L'].
  - exists w. split; [done|]. by eapply (lh_pop al w H n t w l []).
  - destruct Hc as (w1 & E1 & I'). exists w1. split; [done|]. by eapply (lh_pop al w H n t w1 l ((a, d) :: L')).
Qed.
Lemma h_reads :
  lst_top w (Some l) = Ret (match L with [] => None | (_, d) :: _ => d end) /\
  lst_length w (Some l) = Ret (N.of_nat (length L)) /\
  (forall k, lst_nth_get w (Some l) k =
     Ret (if (k =? 0)%N then None else match L !! N.to_nat (k - 1) with Some (_, d) => d | None => None end)) /\
  (forall dt, lst_member w (Some l) dt = Ret (if decide (dt ∈ L.*2) then 1 else 0)).
Proof.
  destruct (lst_history_inv _ _ h) as [I T]. split; [by eapply top_list_spec|]. split; [by eapply length_list_spec|].
  split; [intros; by eapply nth_get_spec|intros; by eapply member_spec].
Qed.
Lemma h_positions :
  lst_init_position w (Some l) = Ret (fst <$> head L) /\ lst_last_position w (Some l) = Ret (fst <$> last L) /\
  (forall k, lst_nth_position w (Some l) k = Ret (if (k =? 0)%N then None else fst <$> L !! N.to_nat (k - 1))) /\
  (forall k a d, L !! k = Some (a, d) -> lst_get_position w (Some a) = Ret d /\
     lst_next_position w (Some a) = Ret (fst <$> L !! S k)).
Proof.
  destruct (lst_history_inv _ _ h) as [I T]. split; [by eapply init_position_spec|]. split; [by eapply last_position_spec|].
  split; [intros; by eapply nth_position_spec|]. intros k a d Hk.
  pose proof (take_drop_middle L k (a, d) Hk) as EL.
  destruct (get_position_spec w H n t I l L Hl _ _ _ _ (eq_sym EL)) as [-> ->]. split; [done|].
  f_equal. assert (hp (drop (S k) L) None = fst <$> head (drop (S k) L)) as -> by (by destruct (drop (S k) L) as [|[? ?] ?]).
  f_equal. rewrite head_lookup, lookup_drop. f_equal. lia.
Qed.
Lemma h_distinct : NoDup L.*1 /\ forall l2 L2 a, H !! l2 = Some L2 -> a ∈ L.*1 -> a ∈ L2.*1 -> l = l2.
Proof.
  destruct (lst_history_inv _ _ h) as [(P & M & J) T]. split; [by apply (li_nodup _ _ _ _ J l)|].
  intros l2 L2 a H2. by apply (li_disj _ _ _ _ J).
Qed.
Lemma h_nth_set k dt :
  if decide (1 <= k <= N.of_nat (length L))%N then
    exists w' a d, L !! N.to_nat (k - 1) = Some (a, d) /\ lst_nth_set w (Some l) k dt = Ret w' /\
      lst_history w' (LG (<[l := <[N.to_nat (k - 1) := (a, dt)]> L]> H) n t)
  else lst_nth_set w (Some l) k dt = Fatal.
Proof.
  destruct (lst_history_inv _ _ h) as [I T]. pose proof (nth_set_spec w H n t I l L Hl k dt) as Hc.
  destruct (decide _) as [Hk|]; [|done]. destruct Hc as (w1 & a & d & Hd & E & _). exists w1, a, d.
  split; [done|]. split; [done|]. eapply lh_nth_set; try done. lia.
Qed.
Lemma h_set_position L1 a d L2 dt : L = L1 ++ (a, d) :: L2 ->
  exists w', lst_set_position w (Some a) dt = Ret w' /\ lst_history w' (LG (<[l := L1 ++ (a, dt) :: L2]> H) n t).
Proof.
  destruct (lst_history_inv _ _ h) as [I T]. intros EL.
  destruct (set_position_spec w H n t I l L Hl L1 a d L2 dt EL) as (w1 & E & _). exists w1. split; [done|].
  eapply lh_set; [done| |done]. by rewrite Hl, EL.
Qed.
Lemma h_truncate al k : lal_ok al -> lnodes_ok al ->
  if decide (N.of_nat (length L) <= k \/ k <= 1)%N then
    exists w', lst_truncate al w (Some l) k = Ret w' /\ lst_history w' (LG (<[l := take (N.to_nat k) L]> H) n t)
  else lst_truncate al w (Some l) k = UB.
Proof.
  destruct (lst_history_inv _ _ h) as [I T]. intros Hal Hn.
  pose proof (truncate_spec al Hal Hn w H n t I l L Hl k) as Hc.
  destruct (decide (N.of_nat (length L) <= k)%N) as [Hk|Hk].
  - rewrite decide_True by (by left). exists w. split; [done|]. by eapply lh_truncate.
  - destruct (decide (k <= 1)%N) as [Hk1|Hk1].
    + rewrite decide_True by (by right). destruct Hc as (w1 & E & _). exists w1. split; [done|]. by eapply lh_truncate.
    + rewrite decide_False by tauto. done.
Qed.
Lemma h_cut al L1 a d L2 : lal_ok al -> lnodes_ok al -> L = L1 ++ (a, d) :: L2 ->
  exists w', lst_truncate_position al w (Some l) (Some a) = Ret w' /\ lst_history w' (LG (<[l := L1 ++ [(a, d)]]> H) n t).
Proof.
  destruct (lst_history_inv _ _ h) as [I T]. intros Hal Hn EL.
  destruct (cut_spec al Hal Hn w H n t I l L Hl L1 a d L2 EL) as (w1 & E & _). exists w1. split; [done|].
  eapply lh_cut; [done|done|done| |done]. by rewrite Hl, EL.
Qed.
Lemma h_clear al : lal_ok al -> lnodes_ok al ->
  exists w', lst_truncate_position al w (Some l) None = Ret w' /\ lst_history w' (LG (<[l := []]> H) n t).
Proof.
  destruct (lst_history_inv _ _ h) as [I T]. intros Hal Hn.
  destruct (truncate_position_null al Hal Hn w H n t I l L Hl) as (w1 & E & _). exists w1. split; [done|]. by eapply lh_clear.
Qed.
Lemma h_destroy al : lal_ok al -> lnodes_ok al ->
  exists w', lst_destroy al w (Some l) = Ret w' /\ lst_history w' (LG (delete l H) n t).
Proof.
  destruct (lst_history_inv _ _ h) as [I T]. intros Hal Hn.
  destruct (destroy_list_spec al Hal Hn w H n t I l L Hl) as (w1 & E & _). exists w1. split; [done|]. by eapply lh_destroy.
Qed.
End one.

(** the pool hands out exactly the nodes of the live lists *)
Definition elements_total (m : gmap positive (list (positive * ptr))) : nat :=
  map_fold (fun _ L acc => (length L + acc)%nat) 0%nat m.

Lemma h_total : lst_total_allocated w = t.
Proof. destruct (lst_history_inv _ _ h) as [(P & M & J) T]. apply (li_total _ _ _ _ J). Qed.
End any.

Lemma live_size (m : gmap positive (list (positive * ptr))) : forall X : gset positive,
  (forall a, a ∈ X <-> exists l L, m !! l = Some L /\ a ∈ L.*1) ->
  (forall l L, m !! l = Some L -> NoDup L.*1) ->
  (forall l l' L L' a, m !! l = Some L -> m !! l' = Some L' -> a ∈ L.*1 -> a ∈ L'.*1 -> l = l') ->
  size X = elements_total m.
Proof.
  unfold elements_total.
  apply (map_fold_ind (fun r m => forall X : gset positive,
    (forall a, a ∈ X <-> exists l L, m !! l = Some L /\ a ∈ L.*1) ->
    (forall l L, m !! l = Some L -> NoDup L.*1) ->
    (forall l l' L L' a, m !! l = Some L -> m !! l' = Some L' -> a ∈ L.*1 -> a ∈ L'.*1 -> l = l') -> size X = r)).
  - intros X HX _ _. apply size_empty_iff. intros a. split; [|intros Ha; by apply elem_of_empty in Ha].
    intros (l & L & HL & _)%HX. by rewrite lookup_empty in HL.
  - intros l L m' r Hm IH X HX Hnd Hd.
    set (Y := list_to_set (C := gset positive) L.*1).
    rewrite <- (IH (X ∖ Y)).
    + assert (X ≡ Y ∪ X ∖ Y) as HXY.
      { intros a. rewrite elem_of_union, elem_of_difference. unfold Y. rewrite elem_of_list_to_set.
        destruct (decide (a ∈ L.*1)) as [Ha|Ha]; [|tauto]. split; [tauto|]. intros _. apply HX. exists l, L.
        by rewrite lookup_insert. }
      rewrite HXY at 1. rewrite size_union.
      * f_equal. unfold Y. rewrite size_list_to_set; [apply fmap_length|]. apply (Hnd l). by rewrite lookup_insert.
      * intros a H1 H2. apply elem_of_difference in H2. tauto.
    + intros a. rewrite elem_of_difference. unfold Y. rewrite elem_of_list_to_set, HX. split.
      * intros [(l2 & L2 & H2 & Ha) Hn]. exists l2, L2. destruct (decide (l2 = l)) as [->|Hne].
        -- rewrite lookup_insert in H2. by injection H2 as <-.
        -- by rewrite lookup_insert_ne in H2.
      * intros (l2 & L2 & H2 & Ha). assert (l2 <> l) by congruence. split.
        -- exists l2, L2. by rewrite lookup_insert_ne.
        -- intros HaL. assert (l2 = l); [|done]. apply (Hd l2 l L2 L a); try done; [by rewrite lookup_insert_ne|by rewrite lookup_insert].
    + intros l2 L2 H2. apply (Hnd l2). rewrite lookup_insert_ne by congruence. done.
    + intros l2 l3 L2 L3 a H2 H3. apply (Hd l2 l3 L2 L3 a); rewrite lookup_insert_ne by congruence; done.
Qed.

Lemma h_used w H n t m : lst_history w (LG H n t) -> lmem w = Some m ->
  exists total reused, mem_get_object_stats true (lobj w) (Some m) = Ret (total, Z.of_nat (elements_total H), reused, 16).
Proof.
  intros h Hm. destruct (lst_history_inv _ _ h) as [(P & M & J) T].
  destruct (li_mem _ _ _ _ J m Hm) as (g & HP & Hsz & Hlog & Hlive).
  rewrite (stats_spec anyb (lobj w) P M m g (li_obj _ _ _ _ J)) by (rewrite HP; apply lookup_singleton).
  rewrite (live_size H (p_live g)); [|done|apply (li_nodup _ _ _ _ J)|apply (li_disj _ _ _ _ J)].
  rewrite Hsz. eauto.
Qed.
Lemma h_shutdown w n t : lst_history w (LG ∅ n t) ->
  exists w', lst_shutdown w = Ret w' /\ lst_history w' (LG ∅ 0 t) /\ lmem w' = None /\
    oblk (lobj w') = ∅ /\ lhs w' = ∅.
Proof.
  intros h. destruct (lst_history_inv _ _ h) as [I T]. destruct (shutdown_spec w n t I) as (w1 & E1 & _ & H1 & H2 & H3).
  exists w1. split; [done|]. split; [by eapply lh_shutdown|]. done.
Qed.

(** a run of appends *)
Fixpoint append_all (w : lworld) (l : positive) (ds : list (lalloc * ptr)) : res lworld :=
  match ds with [] => Ret w | (al, dt) :: ds => w1 ← lst_append al w (Some l) dt; append_all w1 l ds end.
Definition aroom (n : nat) (t : Z) (k : nat) : Prop :=
  Z.of_nat n + Z.of_nat k < 2 ^ 31 /\ t + 16 * Z.of_nat k < 2 ^ 63.

Lemma h_append_all ds : forall w H n t l L, lst_history w (LG H n t) -> H !! l = Some L ->
  Forall (fun x => lal_ok x.1 /\ lnodes_ok x.1) ds -> aroom n t (length ds) ->
  ok (fun w' => exists L' n' t', L'.*2 = ds.*2 /\ lst_history w' (LG (<[l := L ++ L']> H) n' t'))
     (exists al dt, (al, dt) ∈ ds /\ exists n h, al_blk (la_obj al) n h = None)
     (append_all w l ds).
Proof.
  induction ds as [|[al dt] ds IH]; intros w H n t l L h Hl Hds Hr.
  - simpl. exists [], n, t. rewrite app_nil_r, insert_id by done. done.
  - apply Forall_cons in Hds as [[Hal Hn] Hds]. cbn [fst] in Hal, Hn. cbn [append_all]. unfold aroom in Hr. cbn [length] in Hr.
    eapply ok_bind.
    + eapply ok_mono; [apply (h_append w H n t h l L Hl al dt Hal Hn); unfold lroom; lia|intros w1 Hw1; exact Hw1|].
      intros Hf. exists al, dt. split; [left|done].
    + intros w1 (d & _ & h1). cbv beta.
      eapply ok_mono; [apply (IH w1 _ _ _ l _ h1 (lookup_insert _ _ _) Hds); unfold aroom; lia| |].
      * intros w2 (L' & n' & t' & EL & h2). rewrite insert_insert in h2. exists ((d, dt) :: L'), n', t'.
        split; [rewrite !fmap_cons, EL; done|]. by rewrite <- app_assoc in h2.
      * intros (al2 & dt2 & Hin & Hf). exists al2, dt2. split; [by right|done].
Qed.
Lemma h_undo ds al w H n t l L p : lst_history w (LG H n t) -> H !! l = Some L ->
  Forall (fun x => lal_ok x.1 /\ lnodes_ok x.1) ds -> aroom n t (length ds) -> lal_ok al -> lnodes_ok al ->
  lst_last_position w (Some l) = Ret p ->
  ok (fun w' => exists n' t', lst_history w' (LG H n' t'))
     (exists al dt, (al, dt) ∈ ds /\ exists n h, al_blk (la_obj al) n h = None)
     (w1 ← append_all w l ds; lst_truncate_position al w1 (Some l) p).
Proof.
  intros h Hl Hds Hr Hal Hn Hp. eapply ok_bind; [by eapply h_append_all|].
  intros w1 (L' & n' & t' & _ & h1). cbv beta.
  destruct (h_positions w H n t h l L Hl) as (_ & Hlast & _). rewrite Hlast in Hp. injection Hp as <-.
  destruct (last L) as [[a d]|] eqn:EL.
  - cbn [fmap option_fmap option_map fst]. apply last_Some in EL as [L0 ->].
    destruct (h_cut w1 _ n' t' h1 l _ (lookup_insert _ _ _) al L0 a d L' Hal Hn) as (w2 & E & h2); [by rewrite <- app_assoc|].
    rewrite E. simpl. rewrite insert_insert, insert_id in h2 by done. eauto.
  - apply last_None in EL. subst L. cbn [fmap option_fmap option_map fst].
    destruct (h_clear w1 _ n' t' h1 l _ (lookup_insert _ _ _) al Hal Hn) as (w2 & E & h2).
    rewrite E. simpl. rewrite insert_insert, insert_id in h2 by done. eauto.
Qed.

(** ** iteration *)
Section visit.
Context {X : Type}.
(** calling [it] on each datum in order until it returns non-zero *)
Fixpoint visit (it : X -> lworld -> ptr -> res (X * lworld * Z)) (s : X) (w : lworld) (ds : list ptr) : res (X * lworld * Z) :=
  match ds with
  | [] => Ret (s, w, 0)
  | d :: ds => '(s1, w1, r) ← it s w d; if negb (r =? 0) then Ret (s1, w1, 1) else visit it s1 w1 ds
  end.
(** the same on pairs *)
Fixpoint visit2 (it : X -> lworld -> ptr -> ptr -> res (X * lworld * Z)) (s : X) (w : lworld) (ds : list (ptr * ptr)) : res (X * lworld) :=
  match ds with
  | [] => Ret (s, w)
  | (d1, d2) :: ds => '(s1, w1, r) ← it s w d1 d2; if negb (r =? 0) then Ret (s1, w1) else visit2 it s1 w1 ds
  end.
(** list [l] has elements [L] in [w] *)
Definition has (w : lworld) (l : positive) (L : list (positive * ptr)) : Prop :=
  exists G, lst_history w G /\ g_lists G !! l = Some L.

Lemma has_cell w l L L1 a d L2 : has w l L -> L = L1 ++ (a, d) :: L2 ->
  oblk (lobj w) !! a = Some (Cell d (hp L2 None)).
Proof.
  intros ([H n t] & h & Hl) ->. destruct (lst_history_inv _ _ h) as [(P & M & J) T]. cbn in Hl.
  pose proof (li_seg _ _ _ _ J l _ Hl) as Hs. rewrite lseg_app in Hs. by destruct Hs as [_ [Ha _]].
Qed.
Lemma has_head w l L : has w l L -> lget w (Some l) = Ret (l, LH (hp L None) (tp L) (N.of_nat (length L))).
Proof. intros ([H n t] & h & Hl). destruct (lst_history_inv _ _ h) as [I T]. by eapply li_get. Qed.

Section one.
Context (it : X -> lworld -> ptr -> res (X * lworld * Z)) (l : positive) (L : list (positive * ptr)).
Context (keeps : forall s w d s' w' r, has w l L -> it s w d = Ret (s', w', r) -> has w' l L).

Lemma iter_loop_spec fuel : forall L2 L1 s w, L = L1 ++ L2 -> has w l L -> (length L2 < fuel)%nat ->
  iter_loop it fuel s w (hp L2 None) = visit it s w L2.*2.
Proof.
  induction fuel as [|fuel IH]; intros L2 L1 s w EL Hw Hf; [lia|]. cbn [iter_loop].
  destruct L2 as [|[a d] L2]; [done|]. cbn [hp]. rewrite fmap_cons. cbn [visit snd length] in *.
  unfold nget. rewrite (hget_Some _ _ _ (has_cell w l L L1 a d L2 Hw EL)). rb. cbn [datum].
  destruct (it s w d) as [[[s1 w1] r]| | | |] eqn:E; try done. rb.
  destruct (negb (r =? 0)); [done|]. apply keeps in E; [|done].
  unfold nget. rewrite (hget_Some _ _ _ (has_cell w1 l L L1 a d L2 E EL)). rb. cbn [next].
  apply (IH L2 (L1 ++ [(a, d)])); [by rewrite <- app_assoc|done|lia].
Qed.
Lemma iterate_spec fuel s w : has w l L -> (length L < fuel)%nat ->
  lst_iterate it fuel s w (Some l) = visit it s w L.*2.
Proof.
  intros Hw Hf. unfold lst_iterate. rewrite (has_head w l L Hw). rb. cbn [lhead]. by apply (iter_loop_spec fuel L []).
Qed.
Lemma for_loop_spec fuel : forall L2 L1 s w, L = L1 ++ L2 -> has w l L -> (length L2 < fuel)%nat ->
  for_loop it fuel s w (hp L2 None) = ('(s', w', _) ← visit it s w L2.*2; Ret (s', w')).
Proof.
  induction fuel as [|fuel IH]; intros L2 L1 s w EL Hw Hf; [lia|]. cbn [for_loop].
  destruct L2 as [|[a d] L2]; [done|]. cbn [hp]. rewrite fmap_cons. cbn [visit snd length] in *.
  unfold lst_get_position, nget. rewrite (hget_Some _ _ _ (has_cell w l L L1 a d L2 Hw EL)). rb. cbn [datum].
  destruct (it s w d) as [[[s1 w1] r]| | | |] eqn:E; try done. rb.
  destruct (negb (r =? 0)); [done|]. apply keeps in E; [|done].
  unfold lst_next_position, nget. rewrite (hget_Some _ _ _ (has_cell w1 l L L1 a d L2 E EL)). rb. cbn [next].
  apply (IH L2 (L1 ++ [(a, d)])); [by rewrite <- app_assoc|done|lia].
Qed.
Lemma LST_ITERATE_spec fuel s w : has w l L -> (length L < fuel)%nat ->
  LST_ITERATE it fuel s w (Some l) = ('(s', w', _) ← visit it s w L.*2; Ret (s', w')).
Proof.
  intros Hw Hf. unfold LST_ITERATE, lst_init_position. rewrite (has_head w l L Hw). rb. cbn [lhead]. by apply (for_loop_spec fuel L []).
Qed.
End one.

Lemma LST_ITERATE2_spec it l1 l2 L1 L2 :
  (forall s w d1 d2 s' w' r, has w l1 L1 -> has w l2 L2 -> it s w d1 d2 = Ret (s', w', r) -> has w' l1 L1 /\ has w' l2 L2) ->
  forall fuel s w, has w l1 L1 -> has w l2 L2 -> (length L1 < fuel \/ length L2 < fuel)%nat ->
  LST_ITERATE2 it fuel s w (Some l1) (Some l2) = visit2 it s w (zip L1.*2 L2.*2).
Proof.
  intros keeps fuel s w Hw1 Hw2 Hf. unfold LST_ITERATE2, lst_init_position.
  rewrite (has_head w l1 L1 Hw1), (has_head w l2 L2 Hw2). rb. cbn [lhead].
  assert (HL : forall fuel A1 B1 A2 B2 s w, L1 = A1 ++ B1 -> L2 = A2 ++ B2 -> has w l1 L1 -> has w l2 L2 ->
     (length B1 < fuel \/ length B2 < fuel)%nat ->
     for_loop2 it fuel s w (hp B1 None) (hp B2 None) = visit2 it s w (zip B1.*2 B2.*2)).
  { clear s w Hw1 Hw2 fuel Hf. induction fuel as [|fuel IH]; intros A1 B1 A2 B2 s w E1 E2 Hw1 Hw2 Hf; [lia|]. cbn [for_loop2].
    destruct B1 as [|[a1 d1] B1]; [done|]. destruct B2 as [|[a2 d2] B2]; [done|]. cbn [hp]. rewrite !fmap_cons. cbn [zip zip_with visit2 snd length] in *.
    unfold lst_get_position, nget.
    rewrite (hget_Some _ _ _ (has_cell w l1 L1 A1 a1 d1 B1 Hw1 E1)), (hget_Some _ _ _ (has_cell w l2 L2 A2 a2 d2 B2 Hw2 E2)). rb. cbn [datum].
    destruct (it s w d1 d2) as [[[s1 w1] r]| | | |] eqn:E; try done. rb.
    destruct (negb (r =? 0)); [done|]. apply keeps in E as [K1 K2]; [|done|done].
    unfold lst_next_position, nget.
    rewrite (hget_Some _ _ _ (has_cell w1 l1 L1 A1 a1 d1 B1 K1 E1)), (hget_Some _ _ _ (has_cell w1 l2 L2 A2 a2 d2 B2 K2 E2)). rb. cbn [next].
    apply (IH (A1 ++ [(a1, d1)]) B1 (A2 ++ [(a2, d2)]) B2); rewrite <- ?app_assoc; try done; lia. }
  by apply (HL fuel [] L1 [] L2).
Qed.
End visit.
