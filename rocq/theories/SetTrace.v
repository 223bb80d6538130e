(** C10-C13 and C15, whole programs: any sequence of calls on any number of
    sets gives the results of the same calls on finite sets. *)
From Verif Require Import Base Trace PrimeModel PrimeProofs HashModel HashSpec ListLemmas HashProofs HashOps HashOps2 HashIter HashHist HashTrace SetModel SetSpec SetAlg SetProofs SetWorld SetHist.
Local Open Scope nat_scope.

Section SetTrace.
Context {K : Type}.
Notation hst := (hst K unit).
Notation halloc := (halloc K unit).
Notation world := (world K).
Notation gst := (@gst K).
Notation gworld := (gmap positive gst).
Implicit Types (al : halloc) (w : world) (F : fns K) (y : gst) (g : gworld).

(** the calls; where a set is made, [h] is the address it gets *)
Inductive scall :=
| SCreate al (h hid cid : positive)
| SInsert al (h : positive) (k : K)
| SDelete (h : positive) (k : K)
| SMember (h : positive) (k : K)
| SReadonly (h : positive) (f : Z)
| SCount (h : positive)
| SIterate (h : positive)                   (* set_iterate, collecting the elements *)
| SAdd al (h1 h2 : positive)
| SDel (h1 h2 : positive)
| SUnion al (h h1 h2 : positive)
| SInter al (h h1 h2 : positive)
| SDiff al (h h1 h2 : positive)
| SEqual (h1 h2 : positive)
| SDestroy (h : positive).
Inductive sres := SInt (z : Z) | SElems (xs : list K) | SDone.

(** ** the model *)
Definition cost (x : wset K) : nat := S (N.to_nat (prime (tab (ws x))) + size (heap (ws x))).
Definition rounds w : nat := sum_list_with cost (map_to_list w).*2.
Definition sstep F w (c : scall) : res (world * sres) :=
  match c with
  | SCreate al h hid cid => w' ← w_create al w h hid cid; Ret (w', SDone)
  | SInsert al h k => '(w', r) ← w_insert F al w h k; Ret (w', SInt r)
  | SDelete h k => '(w', r) ← w_delete F w h k; Ret (w', SInt r)
  | SMember h k => '(w', r) ← w_member F w h k; Ret (w', SInt r)
  | SReadonly h f => '(w', r) ← w_readonly w h f; Ret (w', SInt r)
  | SCount h => x ← hget w h; Ret (w, SInt (set_count (ws x)))
  | SIterate h => x ← hget w h; '(s', xs, _) ← set_iterate (rounds w) (spure scollect) (ws x) [];
                  w' ← upd w h s'; Ret (w', SElems xs)
  | SAdd al h1 h2 => w' ← set_add F al (rounds w) w h1 h2; Ret (w', SDone)
  | SDel h1 h2 => w' ← set_del F (rounds w) w h1 h2; Ret (w', SDone)
  | SUnion al h h1 h2 => w' ← set_union F al (rounds w) w h h1 h2; Ret (w', SDone)
  | SInter al h h1 h2 => w' ← set_inter F al (rounds w) w h h1 h2; Ret (w', SDone)
  | SDiff al h h1 h2 => w' ← set_diff F al (rounds w) w h h1 h2; Ret (w', SDone)
  | SEqual h1 h2 => '(w', r) ← set_equal F (rounds w) w h1 h2; Ret (w', SInt r)
  | SDestroy h => '(w', H) ← w_destroy w h; if decide (H = ∅) then Ret (w', SDone) else UB
  end.

(** ** the specification: for each live set its elements, readonly flag and functions *)
Definition one g h (f : gst -> res (gworld * sres)) : res (gworld * sres) :=
  match g !! h with Some y => f y | None => UB end.
Definition same y1 y2 : bool := bool_decide (ghid y1 = ghid y2) && bool_decide (gcid y1 = gcid y2).
(** two sets, refused unless they have the same functions *)
Definition two g h1 h2 (f : gst -> gst -> res (gworld * sres)) : res (gworld * sres) :=
  one g h1 (fun y1 => one g h2 (fun y2 => if same y1 y2 then f y1 y2 else Fatal)).
Definition writable y (r : res (gworld * sres)) : res (gworld * sres) := if (gro y =? 0)%Z then r else Abort.
Definition included (cmp : K -> K -> Z) (xs ys : list K) : bool := forallb (fun x => smem cmp x ys) xs.
Definition sspec F g (c : scall) : res (gworld * sres) :=
  match c with
  | SCreate _ h hid cid => Ret (<[h := GS [] 0 hid cid]> g, SDone)
  | SInsert _ h k => one g h (fun y => writable y
      (Ret (<[h := gwith y (sinsert (gcmp F y) k (gel y))]> g, SInt (if smem (gcmp F y) k (gel y) then 1 else 0))))
  | SDelete h k => one g h (fun y => writable y
      (Ret (<[h := gwith y (sremove (gcmp F y) k (gel y))]> g, SInt (if smem (gcmp F y) k (gel y) then 0 else 1))))
  | SMember h k => one g h (fun y => Ret (g, SInt (if smem (gcmp F y) k (gel y) then 1 else 0)))
  | SReadonly h f => one g h (fun y => Ret (<[h := gflag y f]> g, SInt (gro y)))
  | SCount h => one g h (fun y => Ret (g, SInt (Z.of_nat (length (gel y)))))
  | SIterate h => one g h (fun y => Ret (g, SElems (gel y)))
  | SAdd _ h1 h2 => two g h1 h2 (fun y1 y2 => if decide (gel y2 = []) then Ret (g, SDone) else
      writable y1 (Ret (<[h1 := gwith y1 (sunion (gcmp F y1) (gel y1) (gel y2))]> g, SDone)))
  | SDel h1 h2 => two g h1 h2 (fun y1 y2 => if decide (gel y2 = []) then Ret (g, SDone) else
      writable y1 (Ret (<[h1 := gwith y1 (sdiff (gcmp F y1) (gel y1) (gel y2))]> g, SDone)))
  | SUnion _ h h1 h2 => two g h1 h2 (fun y1 y2 =>
      Ret (<[h := GS (sunion (gcmp F y1) (gel y1) (gel y2)) 0 (ghid y1) (gcid y1)]> g, SDone))
  | SInter _ h h1 h2 => two g h1 h2 (fun y1 y2 =>
      Ret (<[h := GS (sinter (gcmp F y1) (gel y1) (gel y2)) 0 (ghid y1) (gcid y1)]> g, SDone))
  | SDiff _ h h1 h2 => two g h1 h2 (fun y1 y2 =>
      Ret (<[h := GS (sdiff (gcmp F y1) (gel y1) (gel y2)) 0 (ghid y1) (gcid y1)]> g, SDone))
  | SEqual h1 h2 => two g h1 h2 (fun y1 y2 =>
      Ret (g, SInt (if included (gcmp F y1) (gel y1) (gel y2) && included (gcmp F y1) (gel y2) (gel y1) then 1 else 0)))
  | SDestroy h => one g h (fun y => writable y (Ret (delete h g, SDone)))
  end.
Definition sres_eq (a b : sres) : Prop :=
  match a, b with SElems xs, SElems ys => xs ≡ₚ ys | _, _ => a = b end.
Definition small y : Prop := (Z.of_nat (length (gel y)) < 2 ^ 31)%Z.
(** malloc returns fresh addresses; functions given to set_create are a hash
    and an equivalence that fit; set_add and set_del get two different sets;
    set_count and set_equal get sets that are not astronomically large *)
Definition slegal F g (c : scall) : Prop :=
  match c with
  | SCreate al h hid cid => halloc_ok al /\ g !! h = None /\ good (HE (fhash F hid) (fcmp F cid) tt)
  | SInsert al _ _ => halloc_ok al
  | SAdd al h1 h2 => halloc_ok al /\ h1 <> h2
  | SDel h1 h2 => h1 <> h2
  | SUnion al h _ _ | SInter al h _ _ | SDiff al h _ _ => halloc_ok al /\ g !! h = None
  | SCount h => forall y, g !! h = Some y -> small y
  | SEqual h1 h2 => forall h y, h = h1 \/ h = h2 -> g !! h = Some y -> small y
  | _ => True
  end.
Definition scan (c : scall) : Prop :=
  match c with
  | SCreate al _ _ _ | SInsert al _ _ | SAdd al _ _ | SUnion al _ _ _ | SInter al _ _ _ | SDiff al _ _ _ => can_fail al
  | _ => False
  end.

Lemma rounds_enough F w g h y : wrep F w g -> g !! h = Some y -> enough w h y (rounds w).
Proof.
  intros Hw Hy x Hx. destruct (wrep_lookup _ _ _ _ _ Hw Hy) as (x' & Hx' & L & HI & _ & Hp & _).
  rewrite Hx in Hx'. injection Hx' as <-.
  assert (Hc : cost x <= rounds w).
  { apply (sum_list_with_in x). apply elem_of_list_fmap. exists (h, x). split; [done|]. by apply elem_of_map_to_list. }
  unfold cost in Hc. rewrite (pairs_heap _ _ _ HI) in Hc. rewrite <- Hp. unfold elems. rewrite fmap_length. lia.
Qed.
Lemma same_spec y1 y2 : same y1 y2 = true <-> same_ids y1 y2.
Proof. unfold same, same_ids. rewrite andb_true_iff, !bool_decide_eq_true. done. Qed.
Lemma included_spec cmp hf xs ys : good_cmp hf cmp -> included cmp xs ys && included cmp ys xs = true <-> sequal cmp xs ys.
Proof.
  intros G. rewrite andb_true_iff. unfold included. rewrite !forallb_forall. unfold sequal.
  assert (Hin : forall A B, (forall x, In x A -> smem cmp x B = true) -> forall k, smem cmp k A = true -> smem cmp k B = true).
  { intros A B H k Hk. apply smem_true in Hk as (x & Hx & Hc). apply elem_of_list_In, H, smem_true in Hx as (z & Hz & Hc').
    apply smem_true. exists z. split; [done|]. by eapply (gc_trans _ _ G). }
  split.
  - intros [H1 H2] k. destruct (smem cmp k xs) eqn:E1, (smem cmp k ys) eqn:E2; try done.
    + by rewrite (Hin _ _ H1 _ E1) in E2.
    + by rewrite (Hin _ _ H2 _ E2) in E1.
  - intros H. split; intros x Hx; apply elem_of_list_In in Hx.
    + rewrite <- H. apply smem_true. exists x. split; [done|apply (gc_refl _ _ G)].
    + rewrite H. apply smem_true. exists x. split; [done|apply (gc_refl _ _ G)].
Qed.
Lemma same_fns_UB F w g h1 h2 : wrep F w g -> g !! h1 = None \/ g !! h2 = None -> same_fns w h1 h2 = UB.
Proof.
  intros Hw Hn. unfold same_fns, hget. destruct (w !! h1) as [x1|] eqn:E1; [|done]. rb.
  destruct Hn as [Hn|Hn]; [by rewrite (wrep_None _ _ _ _ Hw Hn) in E1|]. by rewrite (wrep_None _ _ _ _ Hw Hn).
Qed.
Lemma two_UB F al fuel w g h h1 h2 : wrep F w g -> g !! h1 = None \/ g !! h2 = None ->
  set_add F al fuel w h1 h2 = UB /\ set_del F fuel w h1 h2 = UB /\
  set_union F al fuel w h h1 h2 = UB /\ set_inter F al fuel w h h1 h2 = UB /\
  set_diff F al fuel w h h1 h2 = UB /\ set_equal F fuel w h1 h2 = UB.
Proof.
  intros Hw Hn. pose proof (same_fns_UB F w g h1 h2 Hw Hn) as E.
  unfold set_add, set_del, set_union, set_inter, set_diff, set_inter_diff, set_equal. rewrite !E. done.
Qed.
Lemma hget_UB F w g h : wrep F w g -> g !! h = None -> hget w h = UB.
Proof. intros Hw Hn. unfold hget. by rewrite (wrep_None _ _ _ _ Hw Hn). Qed.
Lemma sdiff_nil_r cmp (xs : list K) : sdiff cmp xs [] = xs.
Proof. unfold sdiff. induction xs as [|a l IH]; [done|]. rewrite filter_cons_True by reflexivity. by rewrite IH. Qed.
(** the common part of the calls on two sets *)
Lemma two_call F g h1 h2 (m : res world) f c :
  (g !! h1 = None \/ g !! h2 = None -> m = UB) ->
  (forall y1 y2, g !! h1 = Some y1 -> g !! h2 = Some y2 -> ~ same_ids y1 y2 -> m = Fatal) ->
  (forall y1 y2, g !! h1 = Some y1 -> g !! h2 = Some y2 -> same_ids y1 y2 ->
    call_ok sres_eq scan (wrep F) c (w' ← m; Ret (w', SDone)) (f y1 y2)) ->
  call_ok sres_eq scan (wrep F) c (w' ← m; Ret (w', SDone)) (two g h1 h2 f).
Proof.
  intros Hu Hm Hf. unfold two, one. destruct (g !! h1) as [y1|] eqn:E1; [|rewrite Hu by tauto; done].
  destruct (g !! h2) as [y2|] eqn:E2; [|rewrite Hu by tauto; done].
  destruct (same y1 y2) eqn:Es; [apply Hf; try done; by apply same_spec|].
  rewrite (Hm y1 y2) by (try done; intros Hs; apply same_spec in Hs; congruence). done.
Qed.
Lemma sstep_ok F w g c : wrep F w g -> slegal F g c ->
  call_ok sres_eq scan (wrep F) c (sstep F w c) (sspec F g c).
Proof.
  intros Hw Hl. pose proof (rounds_enough F w g) as Hen. destruct c as [al h hid cid|al h k|h k|h k|h f|h|h|al h1 h2|h1 h2|al h h1 h2|al h h1 h2|al h h1 h2|h1 h2|h];
    cbn [slegal] in Hl; unfold sstep, sspec.
  - destruct Hl as (Hal & Hn & G). pose proof (w_create_spec F al w g h hid cid Hw Hn G) as Hs.
    destruct (w_create al w h hid cid); try done. cbn in *. split; [apply Hs|done].
  - unfold one. destruct (g !! h) as [y|] eqn:E; [|unfold w_insert; by rewrite (hget_UB F w g h Hw E)]. unfold writable.
    destruct (Z.eqb_spec (gro y) 0) as [Hz|Hz]; [|by rewrite (w_insert_ro F al w g h y k Hw E Hz)].
    pose proof (w_insert_spec F al w g h y k Hw E Hl Hz) as Hs. destruct (w_insert F al w h k) as [[w' r]| | | |]; try done. cbn in *.
    destruct Hs as (-> & Hr & _). split; [done|]. by destruct (smem _ _ _).
  - unfold one. destruct (g !! h) as [y|] eqn:E; [|unfold w_delete; by rewrite (hget_UB F w g h Hw E)]. unfold writable.
    destruct (Z.eqb_spec (gro y) 0) as [Hz|Hz]; [|by rewrite (w_delete_ro F w g h y k Hw E Hz)].
    destruct (w_delete_spec F w g h y k Hw E Hz) as (w' & -> & Hr & _). cbn. split; [done|]. by destruct (smem _ _ _).
  - unfold one. destruct (g !! h) as [y|] eqn:E; [|unfold w_member; by rewrite (hget_UB F w g h Hw E)].
    destruct (w_member_spec F w g h y k Hw E) as (w' & -> & Hr & _). cbn. split; [done|]. by destruct (smem _ _ _).
  - unfold one. destruct (g !! h) as [y|] eqn:E; [|unfold w_readonly; by rewrite (hget_UB F w g h Hw E)].
    destruct (w_readonly_spec F w g h y f Hw E) as (w' & -> & Hr & _). done.
  - unfold one. destruct (g !! h) as [y|] eqn:E; [|by rewrite (hget_UB F w g h Hw E)].
    destruct (wrep_lookup _ _ _ _ _ Hw E) as (x & Hx & L & HI & _ & Hp & _). rewrite (hget_Some _ _ _ Hx). cbn. split; [done|]. f_equal.
    specialize (Hl y eq_refl). unfold small in Hl. unfold set_count. rewrite (hi_entries _ _ _ HI).
    replace (length (pairs L)) with (length (gel y)) by (rewrite <- Hp; apply fmap_length).
    unfold u64. rewrite N.mod_small by lia. unfold to_int. rewrite Z.mod_small by lia. lia.
  - unfold one. destruct (g !! h) as [y|] eqn:E; [|by rewrite (hget_UB F w g h Hw E)].
    specialize (Hen h y Hw E). destruct (wrep_lookup _ _ _ _ _ Hw E) as (x & Hx & L & HI & _ & Hp & _). rewrite (hget_Some _ _ _ Hx). rb.
    specialize (Hen x Hx). rewrite (senumerates_elems _ _ _ HI) by (rewrite (Permutation_length Hp); exact Hen).
    rewrite svisit_collect. rb. unfold upd. rewrite (hget_Some _ _ _ Hx). rb. rewrite ws_eta, insert_id by done. cbn. done.
  - destruct Hl as [Hal Hne]. apply two_call; [intros Hn; by apply (two_UB F al (rounds w) w g h1 h1 h2 Hw Hn)| |].
    + intros y1 y2 E1 E2 Hn. by apply (mismatch_fatal F al (rounds w) w g h1 h1 h2 y1 y2).
    + intros y1 y2 E1 E2 Hs. unfold writable. destruct (Z.eqb_spec (gro y1) 0) as [Hz|Hz].
      * pose proof (set_add_spec F al (rounds w) w g h1 h2 y1 y2 Hw E1 E2 Hne Hs Hal Hz (Hen _ _ Hw E2)) as Ho.
        destruct (decide (gel y2 = [])) as [Hnil|_].
        -- destruct (set_add F al (rounds w) w h1 h2); try done. cbn in *. destruct Ho as [Ho _]. split; [|done].
           rewrite Hnil in Ho. unfold sunion, sdiff in Ho. cbn in Ho. rewrite app_nil_r in Ho.
           rewrite insert_id in Ho; [done|]. rewrite E1. by destruct y1.
        -- destruct (set_add F al (rounds w) w h1 h2); try done. cbn in *. split; [apply Ho|done].
      * rewrite (proj1 (add_del_ro F al (rounds w) w g h1 h2 y1 y2 Hw E1 E2 Hs Hz (Hen _ _ Hw E2))).
        destruct (decide (gel y2 = [])); done.
  - apply two_call; [intros Hn; by apply (two_UB F (HA (fun _ => None) (fun _ => false)) (rounds w) w g h1 h1 h2 Hw Hn)| |].
    + intros y1 y2 E1 E2 Hn. by apply (mismatch_fatal F (HA (fun _ => None) (fun _ => false)) (rounds w) w g h1 h1 h2 y1 y2).
    + intros y1 y2 E1 E2 Hs. unfold writable. destruct (Z.eqb_spec (gro y1) 0) as [Hz|Hz].
      * destruct (set_del_spec F (rounds w) w g h1 h2 y1 y2 Hw E1 E2 Hl Hs Hz (Hen _ _ Hw E2)) as (w' & -> & Ho & _).
        destruct (decide (gel y2 = [])) as [Hnil|_]; cbn; (split; [|done]); [|done].
        rewrite Hnil, sdiff_nil_r, insert_id in Ho; [done|]. rewrite E1. by destruct y1.
      * rewrite (proj2 (add_del_ro F (HA (fun _ => None) (fun _ => false)) (rounds w) w g h1 h2 y1 y2 Hw E1 E2 Hs Hz (Hen _ _ Hw E2))).
        destruct (decide (gel y2 = [])); done.
  - destruct Hl as [Hal Hn]. apply two_call; [intros Hn'; by apply (two_UB F al (rounds w) w g h h1 h2 Hw Hn')| |].
    + intros y1 y2 E1 E2 Hs. by apply (mismatch_fatal F al (rounds w) w g h h1 h2 y1 y2).
    + intros y1 y2 E1 E2 Hs. pose proof (set_union_spec F al (rounds w) w g h h1 h2 y1 y2 Hw E1 E2 Hn Hs Hal (Hen _ _ Hw E1) (Hen _ _ Hw E2)) as Ho.
      destruct (set_union F al (rounds w) w h h1 h2); try done. cbn in *. split; [apply Ho|done].
  - destruct Hl as [Hal Hn]. apply two_call; [intros Hn'; by apply (two_UB F al (rounds w) w g h h1 h2 Hw Hn')| |].
    + intros y1 y2 E1 E2 Hs. by apply (mismatch_fatal F al (rounds w) w g h h1 h2 y1 y2).
    + intros y1 y2 E1 E2 Hs. pose proof (set_inter_diff_spec true F al (rounds w) w g h h1 h2 y1 y2 Hw E1 E2 Hn Hs Hal (Hen _ _ Hw E1)) as Ho.
      unfold set_inter. destruct (set_inter_diff true F al (rounds w) w h h1 h2); try done. cbn in *. split; [apply Ho|done].
  - destruct Hl as [Hal Hn]. apply two_call; [intros Hn'; by apply (two_UB F al (rounds w) w g h h1 h2 Hw Hn')| |].
    + intros y1 y2 E1 E2 Hs. by apply (mismatch_fatal F al (rounds w) w g h h1 h2 y1 y2).
    + intros y1 y2 E1 E2 Hs. pose proof (set_inter_diff_spec false F al (rounds w) w g h h1 h2 y1 y2 Hw E1 E2 Hn Hs Hal (Hen _ _ Hw E1)) as Ho.
      unfold set_diff. destruct (set_inter_diff false F al (rounds w) w h h1 h2); try done. cbn in *. split; [apply Ho|done].
  - unfold two, one. set (al := HA (fun _ : gmap positive (bucket K unit) => None) (fun _ => false)).
    destruct (g !! h1) as [y1|] eqn:E1; [|destruct (two_UB F al (rounds w) w g h1 h1 h2 Hw (or_introl E1)) as (_ & _ & _ & _ & _ & ->); done].
    destruct (g !! h2) as [y2|] eqn:E2; [|destruct (two_UB F al (rounds w) w g h1 h1 h2 Hw (or_intror E2)) as (_ & _ & _ & _ & _ & ->); done].
    destruct (same y1 y2) eqn:Es.
    2:{ destruct (mismatch_fatal F al (rounds w) w g h1 h1 h2 y1 y2 Hw E1 E2) as (_ & _ & _ & _ & _ & ->); [|done].
        intros Hs. apply same_spec in Hs. congruence. }
    apply same_spec in Es. pose proof (Hl h1 y1 ltac:(tauto) E1) as S1. pose proof (Hl h2 y2 ltac:(tauto) E2) as S2. unfold small in S1, S2.
    destruct (set_equal_spec F (rounds w) w g h1 h2 y1 y2 Hw E1 E2 Es (Hen _ _ Hw E1) ltac:(lia) ltac:(lia)) as (w' & r & -> & Hr & Hw' & _). cbn.
    split; [done|]. destruct (wrep_lookup _ _ _ _ _ Hw E1) as (x & Hx & Hrep). pose proof (rep1_cmp _ _ _ Hrep) as Hc. destruct Hrep as (L & _ & G & _).
    unfold good in G. rewrite Hc in G. pose proof (included_spec (gcmp F y1) _ (gel y1) (gel y2) G) as Hi. f_equal.
    destruct (included _ _ _ && included _ _ _); destruct Hr as [[-> Hr]|[-> Hr]]; try done.
    + exfalso. apply Hr. by apply Hi.
    + apply Hi in Hr. done.
  - unfold one. destruct (g !! h) as [y|] eqn:E; [|unfold w_destroy; by rewrite (hget_UB F w g h Hw E)].
    rewrite (w_destroy_spec F w g h y Hw E). unfold writable. destruct (gro y =? 0)%Z; [|done]. rb. rewrite decide_True by done. cbn. split; [|done].
    intros i. destruct (decide (i = h)) as [->|Hne]; [rewrite !lookup_delete; constructor|]. rewrite !lookup_delete_ne by done. apply Hw.
Qed.

Lemma sets_ok F cs : lawful (sspec F) (slegal F) ∅ cs ->
  refines sres_eq scan (fun w g => dom w = dom g) cs (run (sstep F) ∅ cs) (run (sspec F) ∅ cs).
Proof.
  intros Hl. eapply refines_Q; [|apply (run_refines _ _ _ _ (slegal F) (wrep F)); [intros; by apply sstep_ok| |exact Hl]].
  - intros w g Hw. apply set_eq. intros h. rewrite !elem_of_dom. specialize (Hw h). destruct Hw; split; intros [? ?]; eauto; done.
  - intros h. rewrite !lookup_empty. constructor.
Qed.
End SetTrace.
Arguments scall : clear implicits.
Arguments sres : clear implicits.
