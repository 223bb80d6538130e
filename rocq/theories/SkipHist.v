(** Histories of skip list calls. *)
From Verif Require Import Base StackModel StackProofs ObjModel ObjProofs MemProofs ListHist SkipModel SkipSpec SkipProofs SkipWorld.
Local Open Scope Z_scope.

Section Hist.
Context {K : Type}.
Implicit Types (w : sworld K) (G : gmap positive (glist K)).

(** [sl_history w G n]: [w] is reached by skip list calls that respect the rules (new
    keys inserted, present keys deleted, int counters not exhausted); [G] maps each
    live list to its order and data; [n] lists were created since the last shutdown. *)
Inductive sl_history : sworld K -> gmap positive (glist K) -> nat -> Prop :=
| sh_init : sl_history sempty_world ∅ 0
| sh_create al w G n cmp key w' l : sl_history w G n -> sal_ok al -> snodes_ok al -> order cmp -> Z.of_nat n < 2 ^ 31 - 1 ->
    sl_create al w (Some cmp) (Some key) = Ret (w', l) -> sl_history w' (<[l := GL cmp key []]> G) (n + 1)
| sh_insert al rnd w G n l g d w' : sl_history w G n -> sal_ok al -> G !! l = Some g ->
    absent g (g_key g d) -> Z.of_nat (length (g_data g)) < 2 ^ 31 - 2 ->
    sl_insert al rnd w (Some l) d = Ret w' -> sl_history w' (<[l := g_insert d g]> G) n
| sh_delete w G n l g d x w' : sl_history w G n -> G !! l = Some g -> present g (g_key g d) x ->
    sl_delete w (Some l) d = Ret w' -> sl_history w' (<[l := g_delete d g]> G) n
| sh_destroy al w G n l g w' : sl_history w G n -> sal_ok al -> snodes_ok al -> G !! l = Some g ->
    sl_destroy al w (Some l) = Ret w' -> sl_history w' (delete l G) n
| sh_shutdown w n w' : sl_history w ∅ n -> sl_shutdown w = Ret w' -> sl_history w' ∅ 0.

Lemma present_absent (g : glist K) k x : present g k x -> ~ absent g k.
Proof. intros [H1 H2] Ha. by apply (Ha x). Qed.
Definition small G : Prop := forall l g, G !! l = Some g -> Z.of_nat (length (g_data g)) < 2 ^ 31 - 1.
Lemma small_insert G l g : small G -> Z.of_nat (length (g_data g)) < 2 ^ 31 - 1 -> small (<[l := g]> G).
Proof.
  intros HS Hg l2 g2. destruct (decide (l2 = l)) as [-> | Hne]; [rewrite lookup_insert; by intros [= <-]|].
  rewrite lookup_insert_ne by done. apply HS.
Qed.
Lemma filter_len {A} (Q : A -> Prop) `{forall x, Decision (Q x)} (l : list A) : (length (filter Q l) <= length l)%nat.
Proof. induction l as [|x l IH]; [done|]. rewrite filter_cons. destruct (decide _); cbn [length]; lia. Qed.
Lemma filter_len2 {A} (Q S : A -> Prop) `{forall x, Decision (Q x)} `{forall x, Decision (S x)} (l : list A) :
  (forall x, Q x -> ~ S x) -> (length (filter Q l) + length (filter S l) <= length l)%nat.
Proof.
  intros HQ. induction l as [|x l IH]; [done|]. rewrite !filter_cons. specialize (HQ x).
  destruct (decide (Q x)), (decide (S x)); cbn [length]; try lia. tauto.
Qed.

Lemma lift_inv w G n l g : sinv w G n -> G !! l = Some g ->
  exists R P M r, sinvP w G n R P M /\ R !! l = Some r /\ g = absr r.
Proof.
  intros (R & P & M & J) Hl. pose proof (sv_G _ _ _ _ _ _ J) as HG. rewrite HG, lookup_fmap in Hl.
  destruct (R !! l) as [r|] eqn:Er; [|done]. cbn in Hl. injection Hl as <-. eauto 10.
Qed.

Lemma sl_history_inv w G n : sl_history w G n -> sinv w G n /\ small G.
Proof.
  induction 1 as [|al w G n cmp key w' l _ [I S] Hal Hn Ho Hnn E|al rnd w G n l g d w' _ [I S] Hal Hl Hab Hlen E
    |w G n l g d x w' _ [I S] Hl Hp E|al w G n l g w' _ [I S] Hal Hn Hl E|w n w' _ [I S] E].
  - split; [apply sinv_empty|]. intros l g. by rewrite lookup_empty.
  - pose proof (create_spec al w G n cmp key I Hal Hn Ho Hnn) as Hc. rewrite E in Hc. simpl in Hc. destruct Hc as [_ Hc].
    split; [done|]. apply small_insert; [done|]. cbn. lia.
  - destruct (lift_inv _ _ _ _ _ I Hl) as (R & P & M & r & J & HR & ->).
    pose proof (insert_spec w G n R P M J l r HR al rnd d Hal Hab) as Hc. cbn [absr g_data] in Hlen. rewrite fmap_length in Hlen.
    specialize (Hc ltac:(lia)). rewrite E in Hc. simpl in Hc. split; [done|]. apply small_insert; [done|].
    unfold g_insert. cbn [absr g_data g_cmp g_key]. rewrite app_length. cbn [length].
    pose proof (filter_len2 (fun x => r_cmp r (r_key r x) (r_key r d) < 0) (fun x => 0 < r_cmp r (r_key r x) (r_key r d))
       (idt <$> r_items r) ltac:(cbv beta; intros ? ? ?; lia)) as Hf. rewrite fmap_length in Hf. lia.
  - destruct (lift_inv _ _ _ _ _ I Hl) as (R & P & M & r & J & HR & ->). pose proof (S _ _ Hl) as Hlen.
    cbn [absr g_data] in Hlen. assert (Hlen2 := Hlen). rewrite fmap_length in Hlen.
    destruct (delete_spec w G n R P M J l r HR d (present_absent _ _ _ Hp) ltac:(lia)) as (w1 & E1 & I1).
    rewrite E in E1. injection E1 as <-. split; [done|]. apply small_insert; [done|].
    unfold g_delete. cbn [absr g_data g_cmp g_key].
    pose proof (filter_len (fun x => r_cmp r (r_key r x) (r_key r d) <> 0) (idt <$> r_items r)). lia.
  - destruct (lift_inv _ _ _ _ _ I Hl) as (R & P & M & r & J & HR & ->).
    destruct (destroy_spec w G n R P M J l r HR al Hal Hn) as (w1 & E1 & I1).
    rewrite E in E1. injection E1 as <-. split; [done|]. intros l2 g2 [_ H2]%lookup_delete_Some. by apply (S l2).
  - destruct (shutdown_spec w n I) as (w1 & E1 & I1 & _). rewrite E in E1. injection E1 as <-. done.
Qed.

Section any.
Context (w : sworld K) (G : gmap positive (glist K)) (n : nat) (h : sl_history w G n).

Lemma hs_create al cmp key : sal_ok al -> snodes_ok al -> order cmp -> Z.of_nat n < 2 ^ 31 - 1 ->
  ok (fun '(w', l) => G !! l = None /\ sl_history w' (<[l := GL cmp key []]> G) (n + 1))
     (exists h1 h2 h3 h4 m, sa_entry al h1 = None \/ al_info (sa_obj al) h2 = None \/ al_stk (sa_obj al) h3 = None \/
        al_blk (sa_obj al) m h4 = None)
     (sl_create al w (Some cmp) (Some key)).
Proof.
  destruct (sl_history_inv _ _ _ h) as [I S]. intros Hal Hn Ho Hnn.
  pose proof (create_spec al w G n cmp key I Hal Hn Ho Hnn) as Hc.
  destruct (sl_create al w (Some cmp) (Some key)) as [[w' l]| | | |] eqn:E; simpl in *; try done. split; [tauto|]. by eapply sh_create.
Qed.

Section one.
Context (l : positive) (g : glist K) (Hl : G !! l = Some g).
Lemma hs_insert al rnd d : sal_ok al -> absent g (g_key g d) -> Z.of_nat (length (g_data g)) < 2 ^ 31 - 2 ->
  ok (fun w' => sl_history w' (<[l := g_insert d g]> G) n) (exists h, sa_entry al h = None) (sl_insert al rnd w (Some l) d).
Proof.
  destruct (sl_history_inv _ _ _ h) as [I S]. intros Hal Hab Hlen. destruct (lift_inv _ _ _ _ _ I Hl) as (R & P & M & r & J & HR & Eg).
  pose proof (insert_spec w G n R P M J l r HR al rnd d Hal) as Hc. rewrite <- Eg in Hc.
  assert (g_key g = r_key r) as Ek by (by rewrite Eg). rewrite <- Ek in Hc.
  assert (length (g_data g) = length (r_items r)) as El by (rewrite Eg; cbn; apply fmap_length). specialize (Hc Hab ltac:(lia)).
  destruct (sl_insert al rnd w (Some l) d) as [w'| | | |] eqn:E; simpl in *; try done. by eapply sh_insert.
Qed.
Lemma hs_insert_dup al rnd d x : present g (g_key g d) x -> sl_insert al rnd w (Some l) d = Abort.
Proof.
  destruct (sl_history_inv _ _ _ h) as [I S]. destruct (lift_inv _ _ _ _ _ I Hl) as (R & P & M & r & J & HR & ->).
  intros Hp. by apply (insert_dup w G n R P M J l r HR al rnd d), (present_absent _ _ x).
Qed.
Lemma hs_delete d x : present g (g_key g d) x ->
  exists w', sl_delete w (Some l) d = Ret w' /\ sl_history w' (<[l := g_delete d g]> G) n.
Proof.
  destruct (sl_history_inv _ _ _ h) as [I S]. intros Hp. destruct (lift_inv _ _ _ _ _ I Hl) as (R & P & M & r & J & HR & Eg).
  pose proof (S _ _ Hl) as Hlen. assert (length (g_data g) = length (r_items r)) as El by (rewrite Eg; cbn; apply fmap_length).
  destruct (delete_spec w G n R P M J l r HR d) as (w1 & E1 & I1); [|lia|].
  - pose proof (present_absent _ _ _ Hp) as Hna. rewrite Eg in Hna. done.
  - exists w1. split; [done|]. by eapply sh_delete.
Qed.
Lemma hs_delete_absent d : absent g (g_key g d) -> sl_delete w (Some l) d = Abort.
Proof.
  destruct (sl_history_inv _ _ _ h) as [I S]. intros Hp. pose proof (S _ _ Hl) as Hlen.
  destruct (lift_inv _ _ _ _ _ I Hl) as (R & P & M & r & J & HR & ->). cbn [absr g_data] in Hlen. rewrite fmap_length in Hlen.
  by apply (delete_absent w G n R P M J l r HR d).
Qed.
Lemma hs_find k : (forall d, present g k d -> sl_find w (Some l) k = Ret d) /\ (absent g k -> sl_find w (Some l) k = Ret None).
Proof.
  destruct (sl_history_inv _ _ _ h) as [I S]. destruct (lift_inv _ _ _ _ _ I Hl) as (R & P & M & r & J & HR & ->).
  by apply (find_spec w G n R P M J l r HR).
Qed.
Lemma hs_destroy al : sal_ok al -> snodes_ok al -> exists w', sl_destroy al w (Some l) = Ret w' /\ sl_history w' (delete l G) n.
Proof.
  destruct (sl_history_inv _ _ _ h) as [I S]. intros Hal Hn. destruct (lift_inv _ _ _ _ _ I Hl) as (R & P & M & r & J & HR & Eg).
  destruct (destroy_spec w G n R P M J l r HR al Hal Hn) as (w1 & E1 & I1). exists w1. split; [done|]. by eapply sh_destroy.
Qed.
Lemma hs_ascending : ascending g /\ order (g_cmp g).
Proof.
  destruct (sl_history_inv _ _ _ h) as [I S]. destruct (lift_inv _ _ _ _ _ I Hl) as (R & P & M & r & J & HR & ->).
  destruct (sv_ord _ _ _ _ _ _ J l r HR). done.
Qed.
Lemma hs_iterate {X} (f : X -> sworld K -> ptr -> res (X * sworld K * Z)) s :
  sl_iterate f s w (Some l) = calls f s w (g_data g).
Proof.
  destruct (sl_history_inv _ _ _ h) as [I S]. destruct (lift_inv _ _ _ _ _ I Hl) as (R & P & M & r & J & HR & ->).
  by apply (iterate_calls w G n R P M J l r HR).
Qed.
Lemma hs_dump : exists level lines, sl_dump w (Some l) = Ret (level, Z.of_nat (length (g_data g)), lines) /\
  (level <= 16)%nat /\ length lines = S (length (g_data g)).
Proof.
  destruct (sl_history_inv _ _ _ h) as [I S]. pose proof (S _ _ Hl) as Hlen.
  destruct (lift_inv _ _ _ _ _ I Hl) as (R & P & M & r & J & HR & ->). cbn [absr g_data] in *. rewrite fmap_length in *.
  destruct (dump_ok w G n R P M J l r HR Hlen) as (ls & E & El). exists (r_lev r), ls. split; [done|]. split; [|done].
  apply (rp_lev _ _ _ _ (sv_rep _ _ _ _ _ _ J l r HR)).
Qed.
End one.

(** one entry per datum and one head per list *)
Lemma hs_used m : smem w = Some m ->
  exists total reused, mem_get_object_stats true (sobj w) (Some m) = Ret (total, Z.of_nat (size G), reused, 48).
Proof.
  intros Hm. destruct (sl_history_inv _ _ _ h) as [(R & P & M & J) S].
  destruct (sv_mem _ _ _ _ _ _ J m Hm) as (g & HP & Hsz & Hlog & Hlive).
  rewrite (stats_spec anys (sobj w) P M m g (sv_obj _ _ _ _ _ _ J)) by (rewrite HP; apply lookup_singleton).
  rewrite Hsz. assert (HG : size (p_live g) = size G).
  { rewrite (sv_G _ _ _ _ _ _ J). rewrite map_size_fmap, <- size_dom. f_equal. apply set_eq. intros a. rewrite Hlive. by rewrite elem_of_dom. }
  rewrite HG. eauto.
Qed.
Definition entries_total (m : gmap positive (glist K)) : nat :=
  map_fold (fun _ g acc => (1 + length (g_data g) + acc)%nat) 0%nat m.

Lemma hs_entries : size (sent w) = entries_total G.
Proof.
  destruct (sl_history_inv _ _ _ h) as [(R & P & M & J) S].
  rewrite <- (size_dom (sent w)).
  set (m := (fun r : rl => (r_head r, None) :: ((fun x => (ia x, idt x)) <$> r_items r)) <$> R : gmap positive (list (positive * ptr))).
  assert (Hm : forall l L, m !! l = Some L -> exists r, R !! l = Some r /\ L.*1 = addrs r).
  { intros l L. unfold m. rewrite lookup_fmap. destruct (R !! l) as [r|] eqn:Er; [|done]. cbn. intros [= <-]. exists r. split; [done|].
    rewrite fmap_cons, <- list_fmap_compose. done. }
  assert (Hm2 : forall l r, R !! l = Some r -> exists L, m !! l = Some L /\ L.*1 = addrs r).
  { intros l r Hr. unfold m. rewrite lookup_fmap, Hr. eexists. split; [done|]. cbn [fmap].
    rewrite fmap_cons, <- list_fmap_compose. done. }
  rewrite (live_size m).
  - rewrite (sv_G _ _ _ _ _ _ J). unfold elements_total, entries_total, m. clear.
    induction R as [|l r R Hl IH] using map_ind; [by rewrite !fmap_empty|].
    rewrite !fmap_insert. rewrite !map_fold_insert_L; [|intros; lia|by rewrite lookup_fmap, Hl|intros; lia|by rewrite lookup_fmap, Hl].
    rewrite IH. cbn [length absr g_data]. rewrite !fmap_length. lia.
  - intros a. rewrite elem_of_dom, (sv_live _ _ _ _ _ _ J). split.
    + intros (l & r & Hr & Ha). destruct (Hm2 l r Hr) as (L & HL & E). exists l, L. by rewrite E.
    + intros (l & L & HL & Ha). destruct (Hm l L HL) as (r & Hr & E). exists l, r. by rewrite <- E.
  - intros l L HL. destruct (Hm l L HL) as (r & Hr & ->). apply (rp_nd _ _ _ _ (sv_rep _ _ _ _ _ _ J l r Hr)).
  - intros l l' L L' a HL HL' Ha Ha'. destruct (Hm l L HL) as (r & Hr & E). destruct (Hm l' L' HL') as (r' & Hr' & E').
    rewrite E in Ha. rewrite E' in Ha'. by apply (sv_disj _ _ _ _ _ _ J l l' r r' a).
Qed.
End any.

Lemma hs_shutdown w n : sl_history w ∅ n ->
  exists w', sl_shutdown w = Ret w' /\ sl_history w' ∅ 0 /\ smem w' = None /\ oblk (sobj w') = ∅ /\ sent w' = ∅.
Proof.
  intros h. destruct (sl_history_inv _ _ _ h) as [I S]. destruct (shutdown_spec w n I) as (w1 & E1 & _ & H1 & H2 & H3).
  exists w1. split; [done|]. split; [by eapply sh_shutdown|]. done.
Qed.
End Hist.
