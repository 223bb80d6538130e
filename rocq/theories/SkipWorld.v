(** The skip list calls on a world of lists. *)
From Verif Require Import Base StackModel StackProofs ObjModel ObjProofs MemProofs SkipModel SkipSpec SkipProofs.
Local Open Scope Z_scope.

Lemma filter_all {A} (Q : A -> Prop) `{forall x, Decision (Q x)} (l : list A) : (forall x, x ∈ l -> Q x) -> filter Q l = l.
Proof.
  intros Hl. induction l as [|x l IH]; [done|]. rewrite filter_cons_True by (apply Hl; left).
  f_equal. apply IH. intros y Hy. apply Hl. by right.
Qed.
Lemma filter_no {A} (Q : A -> Prop) `{forall x, Decision (Q x)} (l : list A) : (forall x, x ∈ l -> ~ Q x) -> filter Q l = [].
Proof.
  intros Hl. induction l as [|x l IH]; [done|]. rewrite filter_cons_False by (apply Hl; left).
  apply IH. intros y Hy. apply Hl. by right.
Qed.

Lemma in_data (E : list item) (y : ptr) : y ∈ idt <$> E -> exists x, x ∈ E /\ y = idt x.
Proof. rewrite elem_of_list_fmap. intros (x & -> & Hx). eauto. Qed.

Section World.
Context {K : Type}.
Definition anys (z : Z) (x : slist K) : Prop := True.
Record rl := RL { r_head : positive; r_items : list item; r_lev : nat; r_cmp : K -> K -> Z; r_key : ptr -> K }.
Definition addrs (r : rl) : list positive := r_head r :: (ia <$> r_items r).
Definition absr (r : rl) : glist K := GL (r_cmp r) (r_key r) (idt <$> r_items r).
Definition hdr_of (r : rl) : slist K := SL (r_lev r) (Z.of_nat (length (r_items r))) (r_head r) (r_cmp r) (r_key r).
Implicit Types (A B E : list item) (w : sworld K) (G : gmap positive (glist K)) (R : gmap positive rl) (r : rl).

Record sinvP w G (n : nat) R (P : gmap positive pool) (M : gmap positive (list (positive * ptr))) : Prop := {
  sv_G : G = absr <$> R;
  sv_obj : oinv anys (sobj w) P M;
  sv_none : smem w = None -> P = ∅ /\ R = ∅ /\ n = 0%nat;
  sv_mem : forall i, smem w = Some i -> exists g, P = {[i := g]} /\ p_size g = sizeof_sl /\
      length (p_log g) = n /\ (forall a, a ∈ p_live g <-> is_Some (R !! a));
  sv_hdr : forall l r, R !! l = Some r -> oblk (sobj w) !! l = Some (hdr_of r);
  sv_rep : forall l r, R !! l = Some r -> rep (sent w) (r_head r) (r_items r) (r_lev r);
  sv_ord : forall l r, R !! l = Some r -> order (r_cmp r) /\ ascending (absr r);
  sv_disj : forall l l' r r' a, R !! l = Some r -> R !! l' = Some r' -> a ∈ addrs r -> a ∈ addrs r' -> l = l';
  sv_live : forall a, is_Some (sent w !! a) <-> exists l r, R !! l = Some r /\ a ∈ addrs r;
  sv_n : Z.of_nat n < 2 ^ 31 }.
Definition sinv w G n : Prop := exists R P M, sinvP w G n R P M.

Lemma sinv_empty : sinv sempty_world ∅ 0.
Proof.
  exists ∅, ∅, ∅. constructor; unfold sempty_world; cbn [sobj smem sent]; try done.
  - by rewrite fmap_empty.
  - apply oinv_empty.
  - intros a. rewrite lookup_empty. split; [by intros [? ?]|]. intros (l & r & H & _). by rewrite lookup_empty in H.
Qed.

(** one list changes *)
Lemma sinv_step w G n R P M i g l r r' o' h' :
  sinvP w G n R P M -> smem w = Some i -> P = {[i := g]} -> R !! l = Some r ->
  oinv anys o' P M -> oblk o' = <[l := hdr_of r']> (oblk (sobj w)) ->
  rep h' (r_head r') (r_items r') (r_lev r') -> r_cmp r' = r_cmp r -> ascending (absr r') ->
  (forall a, a ∉ addrs r -> a ∉ addrs r' -> h' !! a = sent w !! a) ->
  (forall a, a ∈ addrs r' -> a ∈ addrs r \/ sent w !! a = None) ->
  (forall a, is_Some (h' !! a) <-> a ∈ addrs r' \/ (is_Some (sent w !! a) /\ a ∉ addrs r)) ->
  sinv (SW (Some i) o' h') (<[l := absr r']> G) n.
Proof.
  intros J Hm HP Hl Io Hb Hrep Hc Hasc Hfr Hnew Hlive.
  assert (Hoth : forall l2 r2 a, l2 <> l -> R !! l2 = Some r2 -> a ∈ addrs r2 -> a ∉ addrs r /\ a ∉ addrs r').
  { intros l2 r2 a Hne H2 Ha. assert (a ∉ addrs r) as Hn.
    { intros H. apply Hne. by apply (sv_disj _ _ _ _ _ _ J l2 l r2 r a). }
    split; [done|]. intros H. destruct (Hnew a H) as [|Hs]; [done|].
    assert (is_Some (sent w !! a)) as [? ?] by (apply (sv_live _ _ _ _ _ _ J); eauto). congruence. }
  exists (<[l := r']> R), P, M. constructor; cbn [sobj smem sent]; try done.
  - rewrite (sv_G _ _ _ _ _ _ J), fmap_insert. done.
  - intros j [= <-]. destruct (sv_mem _ _ _ _ _ _ J i Hm) as (g0 & HP0 & H1 & H2 & H3). exists g0. do 3 (split; [done|]).
    intros a. rewrite H3. destruct (decide (a = l)) as [-> | Hne].
    + rewrite lookup_insert, Hl. split; eauto.
    + by rewrite lookup_insert_ne.
  - intros l2 r2. rewrite Hb. destruct (decide (l2 = l)) as [-> | Hne].
    + rewrite !lookup_insert. by intros [= <-].
    + rewrite !lookup_insert_ne by done. apply (sv_hdr _ _ _ _ _ _ J).
  - intros l2 r2. destruct (decide (l2 = l)) as [-> | Hne].
    + rewrite lookup_insert. by intros [= <-].
    + rewrite lookup_insert_ne by done. intros H2. eapply rep_frame; [|by apply (sv_rep _ _ _ _ _ _ J l2)].
      intros a Ha. destruct (Hoth l2 r2 a Hne H2 Ha). auto.
  - intros l2 r2. destruct (decide (l2 = l)) as [-> | Hne].
    + rewrite lookup_insert. intros [= <-]. split; [|done]. rewrite Hc. by apply (sv_ord _ _ _ _ _ _ J l).
    + rewrite lookup_insert_ne by done. apply (sv_ord _ _ _ _ _ _ J).
  - intros l2 l3 r2 r3 a. destruct (decide (l2 = l)) as [-> | H2]; destruct (decide (l3 = l)) as [-> | H3];
      rewrite ?lookup_insert, ?lookup_insert_ne by done.
    + done.
    + intros [= <-] HL3 Ha Ha3. by destruct (Hoth l3 r3 a H3 HL3 Ha3) as (? & ?).
    + intros HL2 [= <-] Ha Ha2. by destruct (Hoth l2 r2 a H2 HL2 Ha) as (? & ?).
    + apply (sv_disj _ _ _ _ _ _ J).
  - intros a. rewrite Hlive. split.
    + intros [Ha|[Ha Hna]].
      * exists l, r'. by rewrite lookup_insert.
      * apply (sv_live _ _ _ _ _ _ J) in Ha as (l2 & r2 & H2 & Ha). destruct (decide (l2 = l)) as [-> | Hne]; [congruence|].
        exists l2, r2. by rewrite lookup_insert_ne.
    + intros (l2 & r2 & H2 & Ha). destruct (decide (l2 = l)) as [-> | Hne].
      * rewrite lookup_insert in H2. injection H2 as <-. by left.
      * rewrite lookup_insert_ne in H2 by done. right. split; [apply (sv_live _ _ _ _ _ _ J); eauto|].
        by destruct (Hoth l2 r2 a Hne H2 Ha).
  - apply (sv_n _ _ _ _ _ _ J).
Qed.

Lemma sv_get w G n R P M l r : sinvP w G n R P M -> R !! l = Some r -> slget w (Some l) = Ret (l, hdr_of r).
Proof. intros J Hl. unfold slget. rewrite (hget_Some _ _ _ (sv_hdr _ _ _ _ _ _ J l r Hl)). done. Qed.
Lemma sv_pool w G n R P M l r : sinvP w G n R P M -> R !! l = Some r ->
  exists i g, smem w = Some i /\ P = {[i := g]} /\ p_size g = sizeof_sl /\ length (p_log g) = n /\
    (forall a, a ∈ p_live g <-> is_Some (R !! a)) /\ l ∈ p_live g /\ (forall a, a ∈ p_live g -> a ∈ p_log g).
Proof.
  intros J Hl. destruct (smem w) as [i|] eqn:Em.
  - destruct (sv_mem _ _ _ _ _ _ J i Em) as (g & HP & H1 & H2 & H3). exists i, g. do 5 (split; [done|]).
    split; [apply H3; eauto|].
    destruct (oi_pool _ _ _ _ (sv_obj _ _ _ _ _ _ J) i g) as (x & Lf & La & _ & _ & _ & Hok & _);
      [rewrite HP; apply lookup_singleton|]. apply Hok.
  - destruct (sv_none _ _ _ _ _ _ J Em) as (_ & HR & _). rewrite HR, lookup_empty in Hl. done.
Qed.
Lemma slset_inv o i g M a c : oinv anys o {[i := g]} M -> a ∈ p_log g ->
  exists o', slset o a c = Ret o' /\ oinv anys o' {[i := g]} M /\ oblk o' = <[a := c]> (oblk o).
Proof.
  intros Io Ha. destruct (oi_blk _ _ _ _ Io i g a (lookup_singleton _ _) Ha) as (b & Hb & _).
  unfold slset. rewrite (hset_Some _ _ _ _ Hb). eexists. split; [done|]. split; [|done].
  eapply write_spec; [exact Io|apply lookup_singleton|done|done].
Qed.

Record sal_ok (al : salloc K) : Prop := { so_entry : malloc_ok (sa_entry al); so_obj : oalloc_ok anys (sa_obj al) }.
Definition snodes_ok (al : salloc K) : Prop := forall h, al_node (sa_obj al) h <> None.

(** ** Order *)
Section Ord.
Context (cmp : K -> K -> Z) (key : ptr -> K) (Ho : order cmp).
Lemma ord_zero a b : cmp a b = 0 <-> cmp b a = 0.
Proof. pose proof (ord_anti _ Ho a b). pose proof (ord_anti _ Ho b a). lia. Qed.
Lemma ord_lt_le a b c : cmp a b < 0 -> cmp b c <= 0 -> cmp a c < 0.
Proof.
  intros H1 H2. pose proof (ord_anti _ Ho a b). pose proof (ord_anti _ Ho a c).
  pose proof (ord_trans _ Ho a b c). destruct (decide (cmp a c < 0)); [done|].
  assert (cmp a c = 0) by lia. assert (cmp c a <= 0) by (rewrite (proj1 (ord_zero a c)); lia).
  pose proof (ord_trans _ Ho b c a). pose proof (ord_anti _ Ho b a). lia.
Qed.
Lemma ord_le_lt a b c : cmp a b <= 0 -> cmp b c < 0 -> cmp a c < 0.
Proof.
  intros H1 H2. pose proof (ord_anti _ Ho b c). pose proof (ord_anti _ Ho a c).
  pose proof (ord_trans _ Ho a b c). destruct (decide (cmp a c < 0)); [done|].
  assert (cmp a c = 0) by lia. assert (cmp c a <= 0) by (rewrite (proj1 (ord_zero a c)); lia).
  pose proof (ord_trans _ Ho c a b). lia.
Qed.
Notation lt := (fun x y : ptr => cmp (key x) (key y) < 0).

Lemma split_sorted E k : StronglySorted lt (idt <$> E) -> exists A B, E = A ++ B /\
  (forall x, x ∈ A -> below cmp key k x) /\ (forall x, x ∈ B -> ~ below cmp key k x) /\
  (forall y B', B = y :: B' -> forall x, x ∈ B' -> 0 < cmp (key (idt x)) k).
Proof.
  induction E as [|x E IH]; intros HS.
  - exists [], []. split; [done|]. split; [intros y Hy; by apply elem_of_nil in Hy|].
    split; [intros y Hy; by apply elem_of_nil in Hy|done].
  - rewrite fmap_cons in HS. apply StronglySorted_inv in HS as [HS HF].
    destruct (decide (cmp (key (idt x)) k < 0)) as [Hx|Hx].
    + destruct (IH HS) as (A & B & -> & HA & HB & Hhd). exists (x :: A), B. split; [done|].
      split; [intros y [-> | Hy]%elem_of_cons; [done|by apply HA]|done].
    + exists [], (x :: E). split; [done|]. split; [intros y Hy; by apply elem_of_nil in Hy|].
      assert (Hgt : forall y, y ∈ E -> 0 < cmp (key (idt y)) k).
      { intros y Hy. rewrite Forall_forall in HF. specialize (HF (idt y) (elem_of_list_fmap_1 _ _ _ Hy)). cbn in HF.
        apply (ord_anti _ Ho). apply ord_le_lt with (key (idt x)); [|done].
        pose proof (ord_anti _ Ho k (key (idt x))). pose proof (ord_zero k (key (idt x))). lia. }
      split.
      * intros y [-> | Hy]%elem_of_cons; [done|]. specialize (Hgt y Hy). unfold below. lia.
      * intros y B' [= <- <-]. done.
Qed.

Lemma g_insert_split A B d e lev : (forall x, x ∈ A -> below cmp key (key d) x) ->
  (forall x, x ∈ B -> 0 < cmp (key (idt x)) (key d)) ->
  g_data (g_insert d (GL cmp key (idt <$> A ++ B))) = idt <$> (A ++ Item e d lev :: B).
Proof.
  intros HA HB. unfold g_insert. cbn [g_data g_cmp g_key]. rewrite !fmap_app, fmap_cons. cbn [idt].
  rewrite !filter_app.
  rewrite (filter_all _ (idt <$> A)). 2:{ intros y (x & Hx & ->)%in_data. by apply HA. }
  rewrite (filter_no (fun x => cmp (key x) (key d) < 0) (idt <$> B)). 2:{ intros y (x & Hx & ->)%in_data. specialize (HB x Hx). lia. }
  rewrite (filter_no _ (idt <$> A)). 2:{ intros y (x & Hx & ->)%in_data. specialize (HA x Hx). unfold below in HA. lia. }
  rewrite (filter_all _ (idt <$> B)). 2:{ intros y (x & Hx & ->)%in_data. by apply HB. }
  by rewrite app_nil_r.
Qed.
Lemma g_delete_split A y B d : (forall x, x ∈ A -> below cmp key (key d) x) -> cmp (key (idt y)) (key d) = 0 ->
  (forall x, x ∈ B -> 0 < cmp (key (idt x)) (key d)) ->
  g_data (g_delete d (GL cmp key (idt <$> A ++ y :: B))) = idt <$> (A ++ B).
Proof.
  intros HA Hy HB. unfold g_delete. cbn [g_data g_cmp g_key]. rewrite !fmap_app, fmap_cons, filter_app, filter_cons_False by lia.
  rewrite !filter_all; [done| |].
  - intros z (x & Hx & ->)%in_data. specialize (HB x Hx). lia.
  - intros z (x & Hx & ->)%in_data. specialize (HA x Hx). unfold below in HA. lia.
Qed.
Lemma sorted_insert (A B : list ptr) d : StronglySorted lt (A ++ B) -> (forall x, x ∈ A -> cmp (key x) (key d) < 0) ->
  (forall x, x ∈ B -> 0 < cmp (key x) (key d)) -> StronglySorted lt (A ++ d :: B).
Proof.
  induction A as [|x A IH]; intros HS HA HB; cbn [app] in *.
  - constructor; [done|]. apply Forall_forall. intros y Hy. apply (ord_anti _ Ho). by apply HB.
  - apply StronglySorted_inv in HS as [HS HF]. constructor.
    + apply IH; [done| |done]. intros y Hy. apply HA. by right.
    + rewrite Forall_forall in *. intros y [Hy|[-> | Hy]%elem_of_cons]%elem_of_app.
      * apply HF. apply elem_of_app. by left.
      * apply HA. left.
      * apply HF. apply elem_of_app. by right.
Qed.
Lemma sorted_delete (A : list ptr) d (B : list ptr) : StronglySorted lt (A ++ d :: B) -> StronglySorted lt (A ++ B).
Proof.
  induction A as [|x A IH]; intros HS; cbn [app] in *.
  - by apply StronglySorted_inv in HS as [HS HF].
  - apply StronglySorted_inv in HS as [HS HF]. constructor; [by apply IH|].
    rewrite Forall_forall in *. intros y Hy. apply HF. rewrite elem_of_app in *. rewrite elem_of_cons. tauto.
Qed.
End Ord.

Lemma random_loop_range rnd fuel : forall n level, (1 <= level <= MaxLevel)%nat -> (1 <= random_loop rnd fuel n level <= MaxLevel)%nat.
Proof.
  induction fuel as [|fuel IH]; intros n level Hl; cbn [random_loop]; [done|].
  destruct (N.testbit (rnd n) 7 && (level <? MaxLevel)%nat) eqn:E; [|done]. apply andb_true_iff in E as [_ E].
  apply IH. apply Nat.ltb_lt in E. lia.
Qed.
Lemma random_level_range rnd : (1 <= random_level rnd <= MaxLevel)%nat.
Proof. apply random_loop_range. unfold MaxLevel. lia. Qed.

(** ** The calls *)
Section ops.
Context (w : sworld K) (G : gmap positive (glist K)) (n : nat) (R : gmap positive rl) (P : gmap positive pool)
  (M : gmap positive (list (positive * ptr))) (J : sinvP w G n R P M) (l : positive) (r : rl) (Hl : R !! l = Some r).
Notation cmp := (r_cmp r).
Notation key := (r_key r).

(** where the key is *)
Lemma where_is k : exists A B u, r_items r = A ++ B /\
  (forall x, x ∈ A -> below cmp key k x) /\ (forall x, x ∈ B -> ~ below cmp key k x) /\
  (forall y B', B = y :: B' -> forall x, x ∈ B' -> 0 < cmp (key (idt x)) k) /\
  locate (hdr_of r) (sent w) k update0 = Ret (hpi B, u) /\ length u = S MaxLevel /\
  (forall j, (j <= r_lev r)%nat -> u !! j = Some (Some (pre (r_head r) j A))) /\
  is_at (hdr_of r) (sent w) (hpi B) k = Ret (match B with [] => false | x :: _ => cmp (key (idt x)) k =? 0 end).
Proof.
  destruct (sv_ord _ _ _ _ _ _ J l r Hl) as [Ho Ha]. pose proof (sv_rep _ _ _ _ _ _ J l r Hl) as Hr.
  destruct (split_sorted cmp key Ho (r_items r) k Ha) as (A & B & E & HA & HB & Hhd). rewrite E in Hr.
  destruct (locate_spec cmp key (sent w) (r_head r) A B (r_lev r) (Z.of_nat (length (r_items r))) k Hr HA HB) as (u & Eu & Hlen & Hu).
  exists A, B, u. do 4 (split; [done|]). split; [exact Eu|]. split; [done|]. split; [done|].
  apply (is_at_spec cmp key (sent w) (r_head r) A B (r_lev r) (Z.of_nat (length (r_items r))) k Hr).
Qed.

Lemma find_spec k :
  (forall d, present (absr r) k d -> sl_find w (Some l) k = Ret d) /\ (absent (absr r) k -> sl_find w (Some l) k = Ret None).
Proof.
  destruct (where_is k) as (A & B & u & E & HA & HB & Hhd & EL & _ & _ & EA).
  unfold sl_find. rewrite (sv_get _ _ _ _ _ _ _ _ J Hl). rb. rewrite EL. rb. rewrite EA. rb.
  pose proof (sv_rep _ _ _ _ _ _ J l r Hl) as Hr. unfold present, absent. cbn [absr g_data g_cmp g_key]. rewrite E.
  destruct B as [|y B'].
  - split; [|done]. intros d [(x & Hx & ->)%in_data Hd]. rewrite app_nil_r in Hx. specialize (HA x Hx). unfold below in HA. lia.
  - destruct (Z.eqb_spec (cmp (key (idt y)) k) 0) as [Hy|Hy]; cbn [hpi].
    + pose proof (rp_dat _ _ _ _ Hr y) as Hd. rewrite E in Hd. specialize (Hd ltac:(apply elem_of_app; right; left)).
      unfold dat in Hd. destruct (sent w !! ia y) as [e|] eqn:He; [|done]. rewrite (hget_Some _ _ _ He). rb. cbn in Hd. injection Hd as ->.
      split.
      * intros d [(x & Hx & ->)%in_data Hd]. apply elem_of_app in Hx as [Hx|[-> | Hx]%elem_of_cons]; [|done|].
        -- specialize (HA x Hx). unfold below in HA. lia.
        -- specialize (Hhd y B' eq_refl x Hx). lia.
      * intros Habs. exfalso. apply (Habs (idt y)); [|done]. rewrite fmap_app, fmap_cons. apply elem_of_app. right. left.
    + split; [|done]. intros d [(x & Hx & ->)%in_data Hd]. apply elem_of_app in Hx as [Hx|[-> | Hx]%elem_of_cons]; [|done|].
      * specialize (HA x Hx). unfold below in HA. lia.
      * specialize (Hhd y B' eq_refl x Hx). lia.
Qed.

Lemma dump_ok : Z.of_nat (length (r_items r)) < 2 ^ 31 - 1 ->
  exists lines, sl_dump w (Some l) = Ret (r_lev r, Z.of_nat (length (r_items r)), lines) /\ length lines = S (length (r_items r)).
Proof.
  intros Hb. unfold sl_dump. rewrite (sv_get _ _ _ _ _ _ _ _ J Hl). rb. cbn [hdr_of skey shead slevel scount].
  pose proof (sv_rep _ _ _ _ _ _ J l r Hl) as Hr. pose proof (rep_bound _ _ _ _ Hr) as Hbd.
  pose proof (rp_links _ _ _ _ Hr 0 ltac:(lia)) as HL. rewrite at_level_0 in HL.
  destruct (dump_loop_spec key (sent w) (r_items r) (entry_fuel (sent w)) (r_head r) 0) as (ls & E & Hls); try done; try lia.
  - apply Hr.
  - eapply rep_live; [exact Hr|left].
  - unfold entry_fuel. lia.
  - rewrite E. rb. eauto.
Qed.

Lemma insert_dup al rnd d : ~ absent (absr r) (key d) -> sl_insert al rnd w (Some l) d = Abort.
Proof.
  intros Hp. destruct (where_is (key d)) as (A & B & u & E & HA & HB & Hhd & EL & _ & _ & EA).
  unfold sl_insert. rewrite (sv_get _ _ _ _ _ _ _ _ J Hl). rb. cbn [hdr_of skey]. fold (hdr_of r). rewrite EL. rb. rewrite EA. rb.
  destruct B as [|y B']; [|destruct (Z.eqb_spec (cmp (key (idt y)) (key d)) 0) as [Hy|Hy]; [done|]].
  - destruct Hp. intros x. cbn [absr g_data g_cmp g_key]. rewrite E. intros (z & Hz & ->)%in_data. rewrite app_nil_r in Hz.
    specialize (HA z Hz). unfold below in HA. lia.
  - destruct Hp. intros x. cbn [absr g_data g_cmp g_key]. rewrite E. intros (z & Hz & ->)%in_data.
    apply elem_of_app in Hz as [Hz|[-> | Hz]%elem_of_cons]; [|done|].
    + specialize (HA z Hz). unfold below in HA. lia.
    + specialize (Hhd y B' eq_refl z Hz). lia.
Qed.

Lemma insert_spec al rnd d : sal_ok al -> absent (absr r) (key d) -> Z.of_nat (length (r_items r)) < 2 ^ 31 - 1 ->
  ok (fun w' => sinv w' (<[l := g_insert d (absr r)]> G) n) (exists h, sa_entry al h = None) (sl_insert al rnd w (Some l) d).
Proof.
  intros Hal Hab Hlen. destruct (where_is (key d)) as (A & B & u & E & HA & HB & Hhd & EL & Hul & Hu & EA).
  destruct (sv_ord _ _ _ _ _ _ J l r Hl) as [Ho Hasc]. pose proof (sv_rep _ _ _ _ _ _ J l r Hl) as Hr.
  assert (HB' : forall x, x ∈ B -> 0 < cmp (key (idt x)) (key d)).
  { intros x Hx. specialize (HB x Hx). unfold below in HB. specialize (Hab (idt x)). cbn [absr g_data g_cmp g_key] in Hab.
    rewrite E in Hab. specialize (Hab ltac:(apply elem_of_list_fmap_1; apply elem_of_app; by right)). lia. }
  unfold sl_insert. rewrite (sv_get _ _ _ _ _ _ _ _ J Hl). rb. cbn [hdr_of skey]. fold (hdr_of r). rewrite EL. rb. rewrite EA. rb.
  replace (match B with [] => false | x :: _ => cmp (key (idt x)) (key d) =? 0 end) with false.
  2:{ destruct B as [|y B']; [done|]. specialize (HB' y ltac:(left)). lia. }
  pose proof (random_level_range rnd) as Hrl. set (lev0 := random_level rnd) in *.
  cbn [hdr_of slevel shead scount scmp skey].
  (* the level actually used *)
  assert (Hlv : exists level u', (if (r_lev r <? lev0)%nat
      then u' ← aset u (S (r_lev r)) (Some (r_head r)); Ret (S (r_lev r), S (r_lev r), u')
      else Ret (lev0, r_lev r, u)) = Ret (level, Nat.max (r_lev r) level, u') /\ (level <= MaxLevel)%nat /\
      (forall j, (j <= level)%nat -> u' !! j = Some (Some (pre (r_head r) j A)))).
  { pose proof (rp_lev _ _ _ _ Hr) as Hm. destruct (Nat.ltb_spec (r_lev r) lev0) as [Hlt|Hge].
    - destruct (lookup_lt_is_Some_2 u (S (r_lev r))) as [s Hs]; [rewrite Hul; lia|]. rewrite (aset_Some _ _ _ _ Hs). rb.
      eexists _, _. split; [do 3 f_equal; lia|]. split; [lia|]. intros j Hj. destruct (decide (j = S (r_lev r))) as [-> | Hne].
      + rewrite list_lookup_insert by (rewrite Hul; lia). unfold pre. rewrite at_level_none; [done|].
        intros x Hx. apply Nat.lt_succ_r. apply (rp_height _ _ _ _ Hr). rewrite E. apply elem_of_app. by left.
      + rewrite list_lookup_insert_ne by done. apply Hu. lia.
    - eexists _, _. split; [do 3 f_equal; lia|]. split; [lia|]. intros j Hj. apply Hu. lia. }
  destruct Hlv as (level & u' & -> & Hlm & Hu'). rb. unfold sl_create_entry.
  destruct (Nat.ltb_spec MaxLevel level); [lia|]. destruct (sa_entry al (sent w)) as [e|] eqn:Ee; [|simpl; eauto].
  apply (so_entry _ Hal) in Ee. rb. rewrite E in Hr.
  destruct (splice_in_spec (sent w) (r_head r) A B (r_lev r) e d level u' Hr Ee Hlm Hu') as (h' & Eh & Hrep & Hfr & Hlv).
  rewrite Eh. rb. rewrite sint_ok by lia. rb.
  destruct (sv_pool _ _ _ _ _ _ _ _ J Hl) as (i & g & Hm & HP & Hsz & Hlog & Hlive & Hin & Hll).
  pose proof (sv_obj _ _ _ _ _ _ J) as Io. rewrite HP in Io.
  set (r' := RL (r_head r) (A ++ Item e d level :: B) (Nat.max (r_lev r) level) cmp key).
  replace (SL (Nat.max (r_lev r) level) (Z.of_nat (length (r_items r)) + 1) (r_head r) cmp key) with (hdr_of r').
  2:{ unfold hdr_of, r'. cbn [r_items r_head r_lev r_cmp r_key]. f_equal. rewrite E, !app_length. cbn [length]. lia. }
  destruct (slset_inv (sobj w) i g M l (hdr_of r') Io (Hll _ Hin)) as (o' & Eo & Io' & Hb). rewrite Eo. rb. cbn [ok].
  assert (Habs : g_insert d (absr r) = absr r').
  { pose proof (g_insert_split cmp key A B d e level HA HB') as Hg. rewrite <- E in Hg.
    unfold absr, r'. cbn [r_cmp r_key r_items]. rewrite <- Hg. done. }
  rewrite Habs, Hm. assert (Hadd : forall a, a ∈ addrs r' <-> a = e \/ a ∈ addrs r).
  { intros a. unfold addrs, r'. cbn [r_head r_items]. rewrite E, !fmap_app, fmap_cons, !elem_of_cons, !elem_of_app, !elem_of_cons. cbn [ia]. tauto. }
  eapply (sinv_step w G n R P M i g l r r'); try done.
  - by rewrite HP.
  - unfold ascending. rewrite <- Habs. unfold absr, r' in *. cbn [r_cmp r_key r_items g_cmp g_key g_data g_insert] in *.
    pose proof (g_insert_split cmp key A B d e level HA HB') as Hg. cbn [g_insert g_data g_cmp g_key] in Hg. rewrite <- E in Hg. rewrite Hg, fmap_app, fmap_cons.
    apply sorted_insert; [done| | |].
    + unfold ascending in Hasc. cbn [absr g_data g_cmp g_key] in Hasc. rewrite E, fmap_app in Hasc. done.
    + intros y (x & Hx & ->)%in_data. by apply HA.
    + intros y (x & Hx & ->)%in_data. by apply HB'.
  - intros a Ha1 Ha2. apply Hfr; [intros ->; apply Ha2, Hadd; by left|]. by rewrite <- E.
  - intros a Ha. apply Hadd in Ha as [-> | Ha]; [by right|by left].
  - intros a. rewrite Hlv, Hadd. split.
    + intros [-> | Ha]; [by left; left|]. destruct (decide (a ∈ addrs r)); [left; by right|by right].
    + intros [[-> | Ha]|[Ha _]]; [by left| |by right]. right. apply (sv_live _ _ _ _ _ _ J). eauto.
Qed.

Lemma delete_absent d : absent (absr r) (key d) -> Z.of_nat (length (r_items r)) < 2 ^ 31 - 1 -> sl_delete w (Some l) d = Abort.
Proof.
  intros Hab Hlen. destruct (where_is (key d)) as (A & B & u & E & HA & HB & Hhd & EL & Hul & Hu & EA).
  unfold sl_delete. rewrite (sv_get _ _ _ _ _ _ _ _ J Hl). rb. cbn [hdr_of skey]. fold (hdr_of r). rewrite EL. rb. rewrite EA. rb.
  destruct (dump_ok Hlen) as (ls & Ed & _). rewrite Ed. rb.
  replace (match B with [] => false | x :: _ => cmp (key (idt x)) (key d) =? 0 end) with false; [done|].
  destruct B as [|y B']; [done|]. specialize (Hab (idt y)). cbn [absr g_data g_cmp g_key] in Hab. rewrite E in Hab.
  specialize (Hab ltac:(apply elem_of_list_fmap_1, elem_of_app; right; left)). lia.
Qed.

Lemma delete_spec d : ~ absent (absr r) (key d) -> Z.of_nat (length (r_items r)) < 2 ^ 31 ->
  exists w', sl_delete w (Some l) d = Ret w' /\ sinv w' (<[l := g_delete d (absr r)]> G) n.
Proof.
  intros Hp Hlen. destruct (where_is (key d)) as (A & B & u & E & HA & HB & Hhd & EL & Hul & Hu & EA).
  destruct (sv_ord _ _ _ _ _ _ J l r Hl) as [Ho Hasc]. pose proof (sv_rep _ _ _ _ _ _ J l r Hl) as Hr.
  assert (exists y B', B = y :: B' /\ cmp (key (idt y)) (key d) = 0) as (y & B' & -> & Hy).
  { destruct B as [|y B'].
    - destruct Hp. intros x. cbn [absr g_data g_cmp g_key]. rewrite E. intros (z & Hz & ->)%in_data. rewrite app_nil_r in Hz.
      specialize (HA z Hz). unfold below in HA. lia.
    - exists y, B'. split; [done|]. destruct (decide (cmp (key (idt y)) (key d) = 0)) as [|Hy]; [done|].
      destruct Hp. intros x. cbn [absr g_data g_cmp g_key]. rewrite E. intros (z & Hz & ->)%in_data.
      apply elem_of_app in Hz as [Hz|[-> | Hz]%elem_of_cons]; [|done|].
      + specialize (HA z Hz). unfold below in HA. lia.
      + specialize (Hhd y B' eq_refl z Hz). lia. }
  unfold sl_delete. rewrite (sv_get _ _ _ _ _ _ _ _ J Hl). rb. cbn [hdr_of skey]. fold (hdr_of r). rewrite EL. rb. rewrite EA. rb.
  rewrite (proj2 (Z.eqb_eq _ _) Hy). cbn [hpi]. cbn [hdr_of slevel shead scount scmp skey].
  assert (Hr0 := Hr). rewrite E in Hr0.
  destruct (splice_out_spec (sent w) (r_head r) A y B' (r_lev r) u Hr0 Hu) as (h1 & Eh & Hrep & Hfr & Hlv).
  rewrite Eh. rb.
  assert (is_Some (h1 !! ia y)) as [ey Hey].
  { apply Hlv. eapply rep_live; [exact Hr0|]. right. rewrite fmap_app, fmap_cons. apply elem_of_app. right. left. }
  rewrite (hfree_Some _ _ _ Hey). rb. destruct (lower_spec _ _ _ _ Hrep) as (lev' & El & Hrep'). rewrite El. rb.
  assert (Hle : length (r_items r) = S (length (A ++ B'))) by (rewrite E, !app_length; cbn; lia).
  rewrite sint_ok by lia. rb.
  destruct (sv_pool _ _ _ _ _ _ _ _ J Hl) as (i & g & Hm & HP & Hsz & Hlog & Hlive & Hin & Hll).
  pose proof (sv_obj _ _ _ _ _ _ J) as Io. rewrite HP in Io.
  set (r' := RL (r_head r) (A ++ B') lev' cmp key).
  replace (SL lev' (Z.of_nat (length (r_items r)) - 1) (r_head r) cmp key) with (hdr_of r').
  2:{ unfold hdr_of, r'. cbn [r_items r_head r_lev r_cmp r_key]. f_equal. rewrite Hle. lia. }
  destruct (slset_inv (sobj w) i g M l (hdr_of r') Io (Hll _ Hin)) as (o' & Eo & Io' & Hb). rewrite Eo. rb.
  eexists. split; [done|]. rewrite Hm.
  assert (Habs : g_delete d (absr r) = absr r').
  { pose proof (g_delete_split cmp key A y B' d HA Hy (Hhd y B' eq_refl)) as Hg. rewrite <- E in Hg.
    unfold absr, r'. cbn [r_cmp r_key r_items]. rewrite <- Hg. done. }
  assert (Hnd : NoDup (addrs r)) by (unfold addrs; apply Hr).
  assert (Hadd : forall a, a ∈ addrs r' <-> a <> ia y /\ a ∈ addrs r).
  { intros a. unfold addrs, r' in Hnd |- *. cbn [r_head r_items] in Hnd |- *. rewrite E in Hnd |- *. rewrite fmap_app, fmap_cons in Hnd. rewrite !fmap_app, fmap_cons.
    apply NoDup_cons in Hnd as [N1 N2]. apply NoDup_app in N2 as (N2 & N3 & N4). apply NoDup_cons in N4 as [N4 N5].
    rewrite elem_of_app, elem_of_cons in N1.
    rewrite !elem_of_cons, !elem_of_app, !elem_of_cons. split.
    - intros [-> | [Ha|Ha]].
      + split; [intros Hq; rewrite Hq in N1; tauto|by left].
      + split; [intros ->; apply (N3 _ Ha); left|tauto].
      + split; [intros ->; done|tauto].
    - intros [Hne [Ha|[Ha|[Ha|Ha]]]]; tauto. }
  rewrite Habs. eapply (sinv_step w G n R P M i g l r r'); try done.
  - by rewrite HP.
  - unfold ascending, absr, r' in *. cbn [r_cmp r_key r_items g_cmp g_key g_data] in *. rewrite fmap_app.
    rewrite E, fmap_app, fmap_cons in Hasc. by apply sorted_delete in Hasc.
  - intros a Ha1 Ha2. rewrite lookup_delete_ne.
    + apply Hfr. by rewrite <- E.
    + intros <-. apply Ha1. unfold addrs. right. rewrite E, fmap_app, fmap_cons. apply elem_of_app. right. left.
  - intros a Ha. left. by apply Hadd in Ha as [_ Ha].
  - intros a. rewrite Hadd. destruct (decide (a = ia y)) as [-> | Hne].
    + rewrite lookup_delete. split; [by intros [? ?]|]. intros [[? _]|[_ Hn]]; [done|]. destruct Hn. unfold addrs. right.
      rewrite E, fmap_app, fmap_cons. apply elem_of_app. right. left.
    + rewrite lookup_delete_ne by done. rewrite Hlv. split.
      * intros Ha. destruct (decide (a ∈ addrs r)); [by left|by right].
      * intros [[_ Ha]|[Ha _]]; [|done]. apply (sv_live _ _ _ _ _ _ J). eauto.
Qed.

Lemma iterate_calls {X} (f : X -> sworld K -> ptr -> res (X * sworld K * Z)) s :
  sl_iterate f s w (Some l) = calls f s w (idt <$> r_items r).
Proof.
  unfold sl_iterate. rewrite (sv_get _ _ _ _ _ _ _ _ J Hl). rb. cbn [hdr_of scount shead]. rewrite Nat2Z.id.
  pose proof (sv_rep _ _ _ _ _ _ J l r Hl) as Hr. pose proof (rep_bound _ _ _ _ Hr) as Hbd.
  pose proof (rp_links _ _ _ _ Hr 0 ltac:(lia)) as HL. rewrite at_level_0 in HL.
  rewrite (fget_ok _ _ _ _ (links_next _ _ _ _ HL)). rb.
  pose proof (copy_loop_spec (r_items r) [] (entry_fuel (sent w)) (sent w) (r_head r) HL) as Hc.
  cbn [length fmap list_fmap app] in Hc. rewrite Hc; [|apply Hr|unfold entry_fuel; lia]. rb. clear Hc.
  assert (Hcall : forall D2 D1 s w0, call_loop f (length D2) (length D1) (Some <$> (D1 ++ D2)) s w0 = calls f s w0 D2).
  { induction D2 as [|d D2 IH]; intros D1 s0 w0; cbn [length call_loop calls]; [done|].
    erewrite aget_Some. 2:{ rewrite list_lookup_fmap, lookup_app_r, Nat.sub_diag by lia. done. }
    rb. unfold mbind, res_bind. destruct (f s0 w0 d) as [[[s1 w1] rc]| | | |]; try done. destruct (rc =? 0); [|done].
    specialize (IH (D1 ++ [d]) s1 w1). rewrite app_length in IH. cbn [length] in IH. rewrite <- app_assoc in IH.
    cbn [app] in IH. replace (length D1 + 1)%nat with (S (length D1)) in IH by lia. exact IH. }
  specialize (Hcall (idt <$> r_items r) [] s w). rewrite fmap_length in Hcall. exact Hcall.
Qed.

Lemma destroy_spec al : sal_ok al -> snodes_ok al ->
  exists w', sl_destroy al w (Some l) = Ret w' /\ sinv w' (delete l G) n.
Proof.
  intros Hal Hn. unfold sl_destroy. rewrite (sv_get _ _ _ _ _ _ _ _ J Hl). rb. cbn [hdr_of shead].
  pose proof (sv_rep _ _ _ _ _ _ J l r Hl) as Hr. pose proof (rep_bound _ _ _ _ Hr) as Hbd.
  pose proof (rp_links _ _ _ _ Hr 0 ltac:(lia)) as HL. rewrite at_level_0 in HL.
  destruct (free_entries_spec (r_items r) (entry_fuel (sent w)) (sent w) (r_head r) HL) as (h' & E & Hh').
  { apply Hr. } { unfold entry_fuel. lia. }
  rewrite E. rb. destruct (sv_pool _ _ _ _ _ _ _ _ J Hl) as (i & g & Hm & HP & Hsz & Hlog & Hlive & Hin & Hll).
  rewrite Hm. pose proof (sv_obj _ _ _ _ _ _ J) as Io. rewrite HP in Io. pose proof (sv_n _ _ _ _ _ _ J) as Hnn.
  pose proof (free_spec anys (sa_obj al) (sobj w) _ M i g l Io (so_obj _ Hal) (lookup_singleton _ _) Hin ltac:(lia)) as Hf.
  destruct (al_node (sa_obj al) (nodes (osh (sobj w)))) as [nd|] eqn:En; [|by destruct (Hn _ En)].
  destruct Hf as (o' & M' & Ef & Hb & Io'). rewrite Ef. rb. eexists. split; [done|].
  rewrite insert_singleton in Io'. fold (addrs r) in Hh'.
  exists (delete l R), {[i := Pool (p_size g) (p_log g) (p_live g ∖ {[l]})]}, M'.
  constructor; cbn [sobj smem sent]; try done.
  - rewrite (sv_G _ _ _ _ _ _ J), fmap_delete. done.
  - intros j [= <-]. eexists. split; [done|]. cbn [p_size p_log p_live]. split; [done|]. split; [done|].
    intros a. rewrite elem_of_difference, elem_of_singleton, Hlive. destruct (decide (a = l)) as [-> | Hne].
    + rewrite lookup_delete. split; [tauto|]. by intros [? ?].
    + rewrite lookup_delete_ne by done. tauto.
  - intros l2 r2 [Hne H2]%lookup_delete_Some. rewrite Hb. by apply (sv_hdr _ _ _ _ _ _ J).
  - intros l2 r2 [Hne H2]%lookup_delete_Some. eapply rep_frame; [|by apply (sv_rep _ _ _ _ _ _ J l2)].
    intros a Ha. rewrite Hh'. rewrite decide_False; [done|]. intros Ha2. apply Hne.
    by apply (sv_disj _ _ _ _ _ _ J l l2 r r2 a).
  - intros l2 r2 [Hne H2]%lookup_delete_Some. by apply (sv_ord _ _ _ _ _ _ J l2).
  - intros l2 l3 r2 r3 a [_ H2]%lookup_delete_Some [_ H3]%lookup_delete_Some. by apply (sv_disj _ _ _ _ _ _ J).
  - intros a. rewrite Hh'. destruct (decide (a ∈ addrs r)) as [Ha|Ha].
    + split; [by intros [? ?]|]. intros (l2 & r2 & [Hne H2]%lookup_delete_Some & Ha2). destruct Hne.
      by apply (sv_disj _ _ _ _ _ _ J l l2 r r2 a).
    + rewrite (sv_live _ _ _ _ _ _ J). split.
      * intros (l2 & r2 & H2 & Ha2). exists l2, r2. rewrite lookup_delete_ne; [done|]. intros <-. congruence.
      * intros (l2 & r2 & [Hne H2]%lookup_delete_Some & Ha2). eauto.
Qed.
End ops.

(** the head's forward pointers *)
Lemma init_head h e : forall m k, (exists x, h !! e = Some x /\ length (forward x) = 18%nat) -> (k + m <= 17)%nat ->
  (forall i, (i < k)%nat -> fw h e i = Some None) ->
  exists h', for_up m k (fun i h => fset h e i None) h = Ret h' /\ (forall i, (i < k + m)%nat -> fw h' e i = Some None) /\
    (forall b, b <> e -> h' !! b = h !! b) /\ is_Some (h' !! e).
Proof.
  intros m. revert h. induction m as [|m IH]; intros h k (x & Hx & Hlx) Hk Hf; cbn [for_up].
  - exists h. split; [done|]. split; [intros i Hi; apply Hf; lia|]. split; [done|]. rewrite Hx. eauto.
  - destruct (fset_ok h e k None) as (h1 & E & F1 & F2 & F3 & F4 & F5 & F6).
    { exists x. split; [done|]. lia. }
    rewrite E. rb. destruct (IH h1 (S k)) as (h' & E' & H1 & H2 & H3); [| lia| |].
    + unfold fset in E. rewrite (hget_Some _ _ _ Hx) in E. rewrite bind_Ret in E. destruct (lookup_lt_is_Some_2 (forward x) k) as [s Hs]; [lia|].
      rewrite (aset_Some _ _ _ _ Hs), bind_Ret, (hset_Some _ _ _ _ Hx) in E. injection E as <-. rewrite lookup_insert.
      eexists. split; [done|]. cbn [forward]. by rewrite insert_length.
    + intros i Hi. destruct (decide (i = k)) as [-> | Hne]; [done|]. rewrite F2 by congruence. apply Hf. lia.
    + exists h'. split; [done|]. split; [intros i Hi; apply H1; lia|]. split; [|done].
      intros b Hb. by rewrite H2, F5.
Qed.

Lemma create_spec al w G n cmp key : sinv w G n -> sal_ok al -> snodes_ok al -> order cmp -> Z.of_nat n < 2 ^ 31 - 1 ->
  ok (fun '(w', l) => G !! l = None /\ sinv w' (<[l := GL cmp key []]> G) (n + 1))
     (exists h1 h2 h3 h4 m, sa_entry al h1 = None \/ al_info (sa_obj al) h2 = None \/ al_stk (sa_obj al) h3 = None \/
        al_blk (sa_obj al) m h4 = None)
     (sl_create al w (Some cmp) (Some key)).
Proof.
  intros (R & P & M & J) Hal Hn Ho Hnn. unfold sl_create.
  eapply ok_bind with (P := fun '(o, i) => exists g M1, oinv anys o {[i := g]} M1 /\ p_size g = sizeof_sl /\ length (p_log g) = n /\
    (forall a, a ∈ p_live g <-> is_Some (R !! a)) /\ oblk o = oblk (sobj w)).
  { destruct (smem w) as [i|] eqn:Em.
    - destruct (sv_mem _ _ _ _ _ _ J i Em) as (g & HP & H1 & H2 & H3). exists g, M. rewrite <- HP. split; [apply J|]. done.
    - destruct (sv_none _ _ _ _ _ _ J Em) as (HP & HR & Hn0).
      eapply ok_mono; [apply (create_obj_spec anys (sa_obj al) (sobj w) P M sizeof_sl (sv_obj _ _ _ _ _ _ J) (so_obj _ Hal))| |].
      + intros [o i] (M' & _ & Io & Hb). exists (Pool sizeof_sl [] ∅), M'. subst P R n. split; [done|]. split; [done|]. split; [done|].
        split; [|done]. intros a. rewrite lookup_empty. split; [intros Ha; by apply elem_of_empty in Ha|by intros [? ?]].
      + intros [Hf|[h Hf]]; [exists ∅, (oinf (sobj w)), ∅, ∅, 0%N|exists ∅, ∅, h, ∅, 0%N]; auto. }
  intros [o i] (g & M1 & Io & Hsz & Hlog & Hlive & Hblk). cbv beta iota.
  eapply ok_bind.
  { eapply ok_mono; [apply (get_spec anys (sa_obj al) o {[i := g]} M1 i g Io (so_obj _ Hal) (lookup_singleton _ _)); [apply Hn|lia]|
      intros x Hx; exact Hx|]. intros Hf. exists ∅, ∅, ∅. eauto 10. }
  intros [o1 l] (M' & Io1 & Hnl & Hb1). cbv beta iota. unfold sl_create_entry.
  replace (MaxLevel <? MaxLevel)%nat with false by done.
  destruct (sa_entry al (sent w)) as [e|] eqn:Ee; [|simpl; exists (sent w), ∅, ∅, ∅, 0%N; auto]. rb.
  apply (so_entry _ Hal) in Ee. rewrite insert_singleton in Io1.
  set (g' := Pool (p_size g) (p_log g ++ [l]) ({[l]} ∪ p_live g)) in *.
  assert (Hlin : l ∈ p_log g') by (cbn [p_log g']; apply elem_of_app; right; left).
  destruct (slset_inv o1 i g' M' l (SL 0 0 e cmp key) Io1 Hlin) as (o2 & E2 & Io2 & Hb2). rewrite E2. rb.
  destruct (init_head (<[e := Entry None (replicate (MaxLevel + 2) None)]> (sent w)) e (S MaxLevel) 0) as (h' & E' & H1 & H2 & H3).
  { rewrite lookup_insert. eexists. split; [done|]. done. } { unfold MaxLevel. lia. } { intros j Hj. lia. }
  rewrite E'. rb. cbn [ok]. assert (HRl : R !! l = None).
  { apply eq_None_not_Some. rewrite <- Hlive. apply (Hnl i). apply lookup_singleton. }
  assert (Hsent : forall b, b <> e -> h' !! b = sent w !! b).
  { intros b Hb. rewrite H2 by done. by rewrite lookup_insert_ne. }
  assert (Heno : forall l2 r2, R !! l2 = Some r2 -> e ∉ addrs r2).
  { intros l2 r2 HR2 He. assert (is_Some (sent w !! e)) as [? ?] by (apply (sv_live _ _ _ _ _ _ J); eauto). congruence. }
  split.
  { rewrite (sv_G _ _ _ _ _ _ J), lookup_fmap, HRl. done. }
  set (r := RL e [] 0 cmp key). exists (<[l := r]> R), {[i := g']}, M'.
  constructor; cbn [sobj smem sent]; try done.
  - rewrite (sv_G _ _ _ _ _ _ J), fmap_insert. done.
  - intros j [= <-]. exists g'. split; [done|]. split; [done|]. split; [cbn [p_log g']; rewrite app_length; cbn; lia|].
    intros a. cbn [p_live g']. rewrite elem_of_union, elem_of_singleton, Hlive. destruct (decide (a = l)) as [-> | Hne].
    + rewrite lookup_insert. split; eauto.
    + rewrite lookup_insert_ne by done. split; [intros [?|?]; done|tauto].
  - intros l2 r2. rewrite Hb2. destruct (decide (l2 = l)) as [-> | Hne].
    + rewrite !lookup_insert. intros [= <-]. done.
    + rewrite !lookup_insert_ne by done. intros HR2. rewrite <- (sv_hdr _ _ _ _ _ _ J l2 r2 HR2), <- Hblk.
      destruct Hb1 as [[_ ->]|(_ & _ & b & _ & ->)]; [done|]. by rewrite lookup_insert_ne.
  - intros l2 r2. destruct (decide (l2 = l)) as [-> | Hne].
    + rewrite lookup_insert. intros [= <-]. cbn [r_head r_items r_lev r]. constructor.
      * rewrite fmap_nil. apply NoDup_singleton.
      * intros j Hj. cbn [at_level filter list_filter links]. apply H1. unfold MaxLevel in *. lia.
      * intros x Hx. by apply elem_of_nil in Hx.
      * lia.
      * intros x Hx. by apply elem_of_nil in Hx.
    + rewrite lookup_insert_ne by done. intros HR2. eapply rep_frame; [|by apply (sv_rep _ _ _ _ _ _ J l2)].
      intros a Ha. apply Hsent. intros ->. by apply (Heno l2 r2 HR2).
  - intros l2 r2. destruct (decide (l2 = l)) as [-> | Hne].
    + rewrite lookup_insert. intros [= <-]. split; [done|]. unfold ascending. cbn. constructor.
    + rewrite lookup_insert_ne by done. apply (sv_ord _ _ _ _ _ _ J).
  - intros l2 l3 r2 r3 a. destruct (decide (l2 = l)) as [-> | N2]; destruct (decide (l3 = l)) as [-> | N3];
      rewrite ?lookup_insert, ?lookup_insert_ne by done.
    + done.
    + intros [= <-] HR3 Ha Ha3. apply elem_of_list_singleton in Ha as ->. by destruct (Heno l3 r3 HR3).
    + intros HR2 [= <-] Ha Ha3. apply elem_of_list_singleton in Ha3 as ->. by destruct (Heno l2 r2 HR2).
    + apply (sv_disj _ _ _ _ _ _ J).
  - intros a. destruct (decide (a = e)) as [-> | Hne].
    + split; [|done]. intros _. exists l, r. rewrite lookup_insert. split; [done|]. left.
    + rewrite Hsent by done. rewrite (sv_live _ _ _ _ _ _ J). split.
      * intros (l2 & r2 & HR2 & Ha). exists l2, r2. rewrite lookup_insert_ne by congruence. done.
      * intros (l2 & r2 & HR2 & Ha). destruct (decide (l2 = l)) as [-> | N2].
        -- rewrite lookup_insert in HR2. injection HR2 as <-. by apply elem_of_list_singleton in Ha.
        -- rewrite lookup_insert_ne in HR2 by done. eauto.
  - lia.
Qed.

Lemma shutdown_spec w n : sinv w ∅ n ->
  exists w', sl_shutdown w = Ret w' /\ sinv w' ∅ 0 /\ smem w' = None /\ oblk (sobj w') = ∅ /\ sent w' = ∅.
Proof.
  intros (R & P & M & J). unfold sl_shutdown.
  assert (HR : R = ∅). { pose proof (sv_G _ _ _ _ _ _ J) as HG. symmetry in HG. by apply fmap_empty_inv in HG. } subst R.
  assert (Hs : sent w = ∅).
  { apply map_empty. intros a. apply eq_None_not_Some. intros (l & r & H & _)%(sv_live _ _ _ _ _ _ J). by rewrite lookup_empty in H. }
  destruct (smem w) as [i|] eqn:Em.
  - destruct (sv_mem _ _ _ _ _ _ J i Em) as (g & HP & Hsz & Hlog & Hlive). pose proof (sv_obj _ _ _ _ _ _ J) as Io. rewrite HP in Io.
    destruct (destroy_obj_spec anys (sobj w) _ M i g Io (lookup_singleton _ _)) as (o' & M' & E & Io' & Hb & _).
    rewrite E. rb. rewrite delete_singleton in Io'. eexists. split; [done|]. split.
    + exists ∅, ∅, M'. constructor; cbn [sobj smem sent]; try done; [by rewrite fmap_empty|].
      rewrite Hs. intros a. rewrite lookup_empty. split; [by intros [? ?]|]. intros (l & r & H & _). by rewrite lookup_empty in H.
    + split; [done|]. split; [|done]. apply map_empty. intros a. cbn [sobj]. apply eq_None_not_Some. intros Ha.
      destruct (oi_blkall _ _ _ _ Io' a Ha) as (j & g2 & Hj & _). by rewrite lookup_empty in Hj.
  - destruct (sv_none _ _ _ _ _ _ J Em) as (HP & _ & Hn). subst n. eexists. split; [done|]. split; [by exists ∅, P, M|].
    split; [done|]. split; [|done]. apply map_empty. intros a. apply eq_None_not_Some. intros Ha.
    destruct (oi_blkall _ _ _ _ (sv_obj _ _ _ _ _ _ J) a Ha) as (j & g2 & Hj & _). by rewrite HP, lookup_empty in Hj.
Qed.
End World.
