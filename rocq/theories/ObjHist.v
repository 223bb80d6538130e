(** Histories of object pool calls with byte blocks. *)
From Verif Require Import Base StackModel StackProofs ObjModel ObjProofs.
Local Open Scope Z_scope.

(** [b] is a block of [z] bytes *)
Definition bytes_of (z : Z) (b : list N) : Prop := N.of_nat (length b) = size_t z.

Notation oal_ok := (oalloc_ok bytes_of).
Implicit Types (w : oworld (list N)) (P : gmap positive pool) (al : oalloc (list N)).

(** the ghost state after a hand-out of [a] *)
Definition handed (g : pool) (a : positive) : pool := Pool (p_size g) (p_log g ++ [a]) ({[a]} ∪ p_live g).
Definition returned (g : pool) (a : positive) : pool := Pool (p_size g) (p_log g) (p_live g ∖ {[a]}).

(** Any number of pools; a free gives back a live block; the user may store
    anything into a live block.  mem_get_object is asked for fewer than 2^31 - 1
    blocks per pool (the statistics are ints). *)
Inductive obj_history : oworld (list N) -> gmap positive pool -> Prop :=
| oh_init : obj_history oempty ∅
| oh_create al w P n w' i : obj_history w P -> oal_ok al ->
    mem_create_objects al w n = Ret (w', i) -> obj_history w' (<[i := Pool n [] ∅]> P)
| oh_get al w P i g w' a : obj_history w P -> oal_ok al -> P !! i = Some g ->
    al_node al (nodes (osh w)) <> None -> Z.of_nat (length (p_log g)) < 2 ^ 31 - 1 ->
    mem_get_object al w i = Ret (w', a) -> obj_history w' (<[i := handed g a]> P)
| oh_get_empty al w P i g w' a : obj_history w P -> oal_ok al -> P !! i = Some g ->
    al_node al (nodes (osh w)) <> None -> Z.of_nat (length (p_log g)) < 2 ^ 31 - 1 ->
    mem_get_empty_object al w i = Ret (w', a) -> obj_history w' (<[i := handed g a]> P)
| oh_write w P i g a b : obj_history w P -> P !! i = Some g -> a ∈ p_live g -> bytes_of (p_size g) b ->
    obj_history (OW (osh w) (<[a := b]> (oblk w)) (oinf w)) P
| oh_free al w P i g a w' : obj_history w P -> oal_ok al -> P !! i = Some g -> a ∈ p_live g ->
    mem_free_object al w i (Some a) = Ret w' -> obj_history w' (<[i := returned g a]> P)
| oh_destroy w P i g w' : obj_history w P -> P !! i = Some g ->
    mem_destroy_objects w i = Ret w' -> obj_history w' (delete i P).

(** what is kept beside the invariant: every log is short *)
Definition short P : Prop := forall i g, P !! i = Some g -> Z.of_nat (length (p_log g)) < 2 ^ 31.
Lemma short_insert P i g : short P -> Z.of_nat (length (p_log g)) < 2 ^ 31 -> short (<[i := g]> P).
Proof.
  intros H Hg j g2. destruct (decide (j = i)) as [->|Hne].
  - rewrite lookup_insert. by intros [= <-].
  - rewrite lookup_insert_ne by done. apply H.
Qed.

Lemma get_empty_spec al w P M i g : oinv bytes_of w P M -> oal_ok al -> P !! i = Some g ->
  al_node al (nodes (osh w)) <> None -> Z.of_nat (length (p_log g)) < 2 ^ 31 - 1 ->
  ok (fun '(w', a) => exists M', oinv bytes_of w' (<[i := handed g a]> P) M' /\
       (forall j g2, P !! j = Some g2 -> a ∉ p_live g2) /\
       oblk w' !! a = Some (replicate (N.to_nat (size_t (p_size g))) 0%N) /\
       (forall j g2 c, P !! j = Some g2 -> c ∈ p_live g2 -> oblk w' !! c = oblk w !! c))
     (al_blk al (size_t (p_size g)) (oblk w) = None)
     (mem_get_empty_object al w i).
Proof.
  intros I Hal Hi Hn Hl. unfold mem_get_empty_object.
  eapply ok_bind; [apply (get_spec bytes_of al w P M i g I Hal Hi Hn Hl)|].
  intros [w' a] (M' & I' & Hnl & Hblk). cbv beta iota.
  assert (Hh : <[i := handed g a]> P !! i = Some (handed g a)) by apply lookup_insert.
  destruct (oi_pool _ _ _ _ I' i _ Hh) as (x & Lf & La & Hx & _ & _ & Hok & _).
  rewrite (hget_Some _ _ _ Hx). rb. rewrite (po_size _ _ _ _ Hok). cbn [handed p_size].
  destruct (oi_blk _ _ _ _ I' i _ a Hh) as (b & Hb & Hwf); [cbn [handed p_log]; apply elem_of_app; right; left|].
  rewrite (hget_Some _ _ _ Hb). rb. cbn [handed p_size] in Hwf. unfold bytes_of in Hwf.
  unfold c_memset0. rewrite Hwf, N.leb_refl. rb. simpl.
  assert (drop (N.to_nat (size_t (p_size g))) b = []) as -> by (apply drop_ge; lia).
  rewrite app_nil_r. exists M'. split; [|split; [done|split; [by rewrite lookup_insert|]]].
  - eapply write_spec; [exact I'|exact Hh|cbn [handed p_log]; apply elem_of_app; right; left|].
    cbn [handed p_size]. unfold bytes_of. rewrite replicate_length. lia.
  - intros j g2 c Hj Hc. assert (c <> a) by (intros ->; by apply (Hnl j g2)).
    rewrite lookup_insert_ne by done. destruct Hblk as [[_ ->]|(_ & _ & b2 & _ & ->)]; [done|].
    by rewrite lookup_insert_ne.
Qed.

Lemma obj_history_inv w P : obj_history w P -> (exists M, oinv bytes_of w P M) /\ short P.
Proof.
  induction 1 as [|al w P n w' i _ [[M I] S] Hal E|al w P i g w' a _ [[M I] S] Hal Hi Hn Hl E
    |al w P i g w' a _ [[M I] S] Hal Hi Hn Hl E|w P i g a b _ [[M I] S] Hi Ha Hb
    |al w P i g a w' _ [[M I] S] Hal Hi Ha E|w P i g w' _ [[M I] S] Hi E].
  - split; [exists ∅; apply oinv_empty|]. intros i g. by rewrite lookup_empty.
  - pose proof (create_obj_spec bytes_of al w P M n I Hal) as Hc. rewrite E in Hc. simpl in Hc.
    destruct Hc as (M' & _ & I' & _). split; [eauto|]. by apply short_insert.
  - pose proof (get_spec bytes_of al w P M i g I Hal Hi Hn Hl) as Hc. rewrite E in Hc. simpl in Hc.
    destruct Hc as (M' & I' & _). split; [eauto|]. apply short_insert; [done|].
    cbn [handed p_log]. rewrite app_length. simpl. lia.
  - pose proof (get_empty_spec al w P M i g I Hal Hi Hn Hl) as Hc. rewrite E in Hc. simpl in Hc.
    destruct Hc as (M' & I' & _). split; [eauto|]. apply short_insert; [done|].
    cbn [handed p_log]. rewrite app_length. simpl. lia.
  - split; [|done]. exists M. eapply write_spec; [exact I|exact Hi| |exact Hb].
    destruct (oi_pool _ _ _ _ I i g Hi) as (? & ? & ? & _ & _ & _ & Hok & _). by apply Hok.
  - pose proof (free_spec bytes_of al w P M i g a I Hal Hi Ha (S i g Hi)) as Hc.
    destruct (al_node al (nodes (osh w))); [|congruence].
    destruct Hc as (w1 & M' & E1 & _ & I'). rewrite E1 in E. injection E as <-. split; [eauto|].
    apply short_insert; [done|]. exact (S i g Hi).
  - destruct (destroy_obj_spec bytes_of w P M i g I Hi) as (w1 & M' & E1 & I' & _).
    rewrite E1 in E. injection E as <-. split; [eauto|]. intros j g2 [_ Hj]%lookup_delete_Some. by apply (S j).
Qed.

Section any.
Context (w : oworld (list N)) (P : gmap positive pool) (H : obj_history w P).

Lemma oh_live_blocks i g a : P !! i = Some g -> a ∈ p_live g ->
  exists b, oblk w !! a = Some b /\ bytes_of (p_size g) b.
Proof.
  destruct (obj_history_inv w P H) as [[M I] S]. intros Hi Ha.
  destruct (oi_pool _ _ _ _ I i g Hi) as (? & ? & ? & _ & _ & _ & Hok & _).
  apply (oi_blk _ _ _ _ I i g a Hi). by apply Hok.
Qed.
Lemma oh_pools_apart i j g g2 a : P !! i = Some g -> P !! j = Some g2 -> a ∈ p_log g -> a ∈ p_log g2 -> i = j.
Proof. destruct (obj_history_inv w P H) as [[M I] S]. apply I. Qed.
Lemma oh_live_log i g a : P !! i = Some g -> a ∈ p_live g -> a ∈ p_log g.
Proof.
  destruct (obj_history_inv w P H) as [[M I] S]. intros Hi Ha.
  destruct (oi_pool _ _ _ _ I i g Hi) as (? & ? & ? & _ & _ & _ & Hok & _). by apply Hok.
Qed.

Lemma oh_get_ok al i g : oal_ok al -> P !! i = Some g ->
  al_node al (nodes (osh w)) <> None -> Z.of_nat (length (p_log g)) < 2 ^ 31 - 1 ->
  ok (fun '(w', a) => obj_history w' (<[i := handed g a]> P) /\
       (forall j g2, P !! j = Some g2 -> a ∉ p_live g2) /\
       (forall j g2 c, P !! j = Some g2 -> c ∈ p_live g2 -> oblk w' !! c = oblk w !! c) /\
       (a ∈ p_log g <-> exists c, c ∈ p_log g /\ c ∉ p_live g))
     (al_blk al (size_t (p_size g)) (oblk w) = None)
     (mem_get_object al w i).
Proof.
  intros Hal Hi Hn Hl. destruct (obj_history_inv w P H) as [[M I] S].
  pose proof (get_spec bytes_of al w P M i g I Hal Hi Hn Hl) as Hc.
  destruct (mem_get_object al w i) as [[w' a]| | | |] eqn:E; simpl in *; try done.
  destruct Hc as (M' & I' & Hnl & Hblk). split; [by eapply oh_get|]. split; [done|]. split.
  - intros j g2 c Hj Hc. assert (c <> a) by (intros ->; by apply (Hnl j g2)).
    destruct Hblk as [[_ ->]|(_ & _ & b2 & _ & ->)]; [done|]. by rewrite lookup_insert_ne.
  - destruct Hblk as [[Ha _]|(Hall & Hnone & _)].
    + split; [|done]. intros _. exists a. split; [done|]. by apply (Hnl i).
    + split; [|intros (c & Hc & Hn2); by apply Hall in Hc].
      intros Ha. destruct (oi_blk _ _ _ _ I i g a Hi Ha) as (b & Hb & _). congruence.
Qed.

Lemma oh_get_empty_ok al i g : oal_ok al -> P !! i = Some g ->
  al_node al (nodes (osh w)) <> None -> Z.of_nat (length (p_log g)) < 2 ^ 31 - 1 ->
  ok (fun '(w', a) => obj_history w' (<[i := handed g a]> P) /\
       (forall j g2, P !! j = Some g2 -> a ∉ p_live g2) /\
       oblk w' !! a = Some (replicate (N.to_nat (size_t (p_size g))) 0%N) /\
       (forall j g2 c, P !! j = Some g2 -> c ∈ p_live g2 -> oblk w' !! c = oblk w !! c))
     (al_blk al (size_t (p_size g)) (oblk w) = None)
     (mem_get_empty_object al w i).
Proof.
  intros Hal Hi Hn Hl. destruct (obj_history_inv w P H) as [[M I] S].
  pose proof (get_empty_spec al w P M i g I Hal Hi Hn Hl) as Hc.
  destruct (mem_get_empty_object al w i) as [[w' a]| | | |] eqn:E; simpl in *; try done.
  destruct Hc as (M' & I' & Hnl & Hblk). split; [by eapply oh_get_empty|]. done.
Qed.

Lemma oh_free_ok al i g a : oal_ok al -> P !! i = Some g -> a ∈ p_live g ->
  match al_node al (nodes (osh w)) with
  | None => mem_free_object al w i (Some a) = UB
  | Some _ => exists w', mem_free_object al w i (Some a) = Ret w' /\ oblk w' = oblk w /\
      obj_history w' (<[i := returned g a]> P)
  end.
Proof.
  intros Hal Hi Ha. destruct (obj_history_inv w P H) as [[M I] S].
  pose proof (free_spec bytes_of al w P M i g a I Hal Hi Ha (S i g Hi)) as Hc.
  destruct (al_node al (nodes (osh w))); [|done].
  destruct Hc as (w1 & M' & E1 & Hb & I'). exists w1. split; [done|]. split; [done|]. by eapply oh_free.
Qed.

Lemma oh_stats i g : P !! i = Some g ->
  mem_get_object_stats true w (Some i) =
    Ret (Z.of_nat (size (list_to_set (C := gset positive) (p_log g))), Z.of_nat (size (p_live g)),
         Z.of_nat (length (p_log g)) - Z.of_nat (size (list_to_set (C := gset positive) (p_log g))), p_size g)
  /\ (size (p_live g) <= size (list_to_set (C := gset positive) (p_log g)))%nat.
Proof.
  intros Hi. destruct (obj_history_inv w P H) as [[M I] S]. split; [by eapply stats_spec|].
  apply subseteq_size. intros a Ha. apply elem_of_list_to_set. by apply (oh_live_log i).
Qed.

Lemma oh_destroy_ok i g : P !! i = Some g ->
  exists w', mem_destroy_objects w i = Ret w' /\ obj_history w' (delete i P) /\
    (forall a, oblk w' !! a = if decide (a ∈ p_log g) then None else oblk w !! a) /\
    oinf w' = delete i (oinf w).
Proof.
  intros Hi. destruct (obj_history_inv w P H) as [[M I] S].
  destruct (destroy_obj_spec bytes_of w P M i g I Hi) as (w1 & M' & E1 & I' & Hb & Hinf).
  exists w1. split; [done|]. split; [by eapply oh_destroy|]. done.
Qed.
Lemma oh_create_ok al n : oal_ok al ->
  ok (fun '(w', i) => P !! i = None /\ obj_history w' (<[i := Pool n [] ∅]> P) /\ oblk w' = oblk w)
     (al_info al (oinf w) = None \/ exists h, al_stk al h = None)
     (mem_create_objects al w n).
Proof.
  intros Hal. destruct (obj_history_inv w P H) as [[M I] S].
  pose proof (create_obj_spec bytes_of al w P M n I Hal) as Hc.
  destruct (mem_create_objects al w n) as [[w' i]| | | |] eqn:E; simpl in *; try done.
  destruct Hc as (M' & HP & I' & Hb). split; [done|]. split; [by eapply oh_create|done].
Qed.
Lemma oh_no_leak : P = ∅ -> oblk w = ∅ /\ oinf w = ∅ /\ stks (osh w) = ∅ /\ nodes (osh w) = ∅.
Proof.
  intros HP. destruct (obj_history_inv w P H) as [[M I] S]. subst P.
  assert (Hinf : oinf w = ∅).
  { apply map_empty. intros i. apply eq_None_not_Some. rewrite (oi_dom _ _ _ _ I), lookup_empty. by intros [? ?]. }
  assert (HM : forall s, M !! s = None).
  { intros s. apply eq_None_not_Some. intros Hs. destruct (oi_stkall _ _ _ _ I s Hs) as (i & x & Hx & _).
    by rewrite Hinf, lookup_empty in Hx. }
  repeat split; try done.
  - apply map_empty. intros a. apply eq_None_not_Some. intros Ha.
    destruct (oi_blkall _ _ _ _ I a Ha) as (i & g & Hi & _). by rewrite lookup_empty in Hi.
  - apply map_empty. intros s. apply eq_None_not_Some. rewrite (si_dom _ _ (oi_stk _ _ _ _ I)), HM. by intros [? ?].
  - apply map_empty. intros a. apply eq_None_not_Some. intros Ha.
    destruct (si_all _ _ (oi_stk _ _ _ _ I) a Ha) as (s & L & HL & _). by rewrite HM in HL.
Qed.
End any.
