(** C10-C15: sets.
    [whist F w g] (SetHist.v): [w] is the state of all sets after some sequence of
    returned API calls on any number of sets; [g !! h = Some y] gives what these
    calls alone imply for the set at handle [h]: [gel y] its elements, [gro y] its
    readonly flag, [ghid y]/[gcid y] its hash and compare functions.
    [holds w h xs ro]: set_iterate on the set at [h] hands over exactly the list
    [xs] and its readonly flag is [ro].  Set operations on element lists: SetSpec.v.
    [exists n, forall fuel, n <= fuel -> ...]: the loops end within [n] rounds. *)
From Verif Require Import Base PrimeModel HashModel HashSpec HashProofs HashOps SetModel SetSpec SetAlg SetProofs SetWorld SetHist.
Local Open Scope nat_scope.

(** ** C10 *)
Theorem C10_set_create : forall {K} (F : fns K) al w g h hid cid,
  whist F w g -> g !! h = None -> good (HE (fhash F hid) (fcmp F cid) tt) ->
  ok (fun w' => whist F w' (<[h := GS [] 0 hid cid]> g) /\ holds w' h [] 0 /\
                forall h' xs ro, h' <> h -> holds w h' xs ro -> holds w' h' xs ro)
     (can_fail al) (w_create al w h hid cid).
Proof. exact @S_create. Qed.
Print Assumptions C10_set_create.

(** a set keeps the functions it was given (a new set: those of set_create; a union, intersection or difference: those of
    its first argument, see [whist]) *)
Theorem C10_functions : forall {K} (F : fns K) w g h y, whist F w g -> g !! h = Some y ->
  set_get_hash w h = Ret (ghid y) /\ set_get_compare w h = Ret (gcid y).
Proof.
  intros K F w g h y Hw Hg. pose proof (whist_rep F w g Hw) as R. specialize (R h). rewrite Hg in R. inversion R as [x y' (L & _ & _ & _ & _ & H1 & H2) Ex Ey|]; subst.
  unfold set_get_hash, set_get_compare, hget. rewrite <- Ex. rb. by rewrite H1, H2.
Qed.
Print Assumptions C10_functions.

Theorem C10_set_insert : forall {K} (F : fns K) al w g h y k,
  whist F w g -> g !! h = Some y -> halloc_ok al -> gro y = 0%Z ->
  ok (fun '(w', r) => r = (if smem (gcmp F y) k (gel y) then 1%Z else 0%Z) /\
        forall h' xs ro, h' <> h -> holds w h' xs ro -> holds w' h' xs ro)
     (can_fail al) (w_insert F al w h k).
Proof. exact @S_insert. Qed.
Print Assumptions C10_set_insert.

Theorem C10_set_delete : forall {K} (F : fns K) w g h y k,
  whist F w g -> g !! h = Some y -> gro y = 0%Z ->
  exists w', w_delete F w h k = Ret (w', if smem (gcmp F y) k (gel y) then 0%Z else 1%Z) /\
        forall h' xs ro, h' <> h -> holds w h' xs ro -> holds w' h' xs ro.
Proof. exact @S_delete. Qed.
Print Assumptions C10_set_delete.

Theorem C10_set_member : forall {K} (F : fns K) w g h y k,
  whist F w g -> g !! h = Some y ->
  exists w', w_member F w h k = Ret (w', if smem (gcmp F y) k (gel y) then 1%Z else 0%Z) /\
        (forall h' xs ro, h' <> h -> holds w h' xs ro -> holds w' h' xs ro) /\
        (gro y <> 0%Z -> forall xs ro, holds w h xs ro -> holds w' h xs ro).
Proof. exact @S_member. Qed.
Print Assumptions C10_set_member.

(** what iteration shows is the set the calls imply *)
Theorem C10_contents : forall {K} (F : fns K) w g h y,
  whist F w g -> g !! h = Some y ->
  exists xs, xs ≡ₚ gel y /\ sdistinct (gcmp F y) xs /\ holds w h xs (gro y).
Proof. exact @S_contents. Qed.
Print Assumptions C10_contents.

Theorem C10_set_count : forall {K} (F : fns K) w g h y x,
  whist F w g -> g !! h = Some y -> w !! h = Some x ->
  set_count (ws x) = to_int (Z.of_N (u64 (N.of_nat (length (gel y))))) /\
  (Z.of_nat (length (gel y)) < 2 ^ 31 -> set_count (ws x) = Z.of_nat (length (gel y)))%Z.
Proof. exact @S_count. Qed.
Print Assumptions C10_set_count.

(** ** C11; [h1 = h2] is allowed *)
Theorem C11_set_union : forall {K} (F : fns K) w g h h1 h2 y1 y2 al,
  whist F w g -> g !! h1 = Some y1 -> g !! h2 = Some y2 -> g !! h = None -> same_ids y1 y2 -> halloc_ok al ->
  exists n, forall fuel, n <= fuel ->
  ok (fun w' => (exists xs, xs ≡ₚ sunion (gcmp F y1) (gel y1) (gel y2) /\ holds w' h xs 0) /\
                forall h' xs ro, h' <> h -> holds w h' xs ro -> holds w' h' xs ro)
     (can_fail al) (set_union F al fuel w h h1 h2).
Proof. exact @S_union. Qed.
Print Assumptions C11_set_union.

Theorem C11_set_inter : forall {K} (F : fns K) w g h h1 h2 y1 y2 al,
  whist F w g -> g !! h1 = Some y1 -> g !! h2 = Some y2 -> g !! h = None -> same_ids y1 y2 -> halloc_ok al ->
  exists n, forall fuel, n <= fuel ->
  ok (fun w' => (exists xs, xs ≡ₚ sinter (gcmp F y1) (gel y1) (gel y2) /\ holds w' h xs 0) /\
                forall h' xs ro, h' <> h -> holds w h' xs ro -> holds w' h' xs ro)
     (can_fail al) (set_inter F al fuel w h h1 h2).
Proof. intros K. exact (S_inter_diff true). Qed.
Print Assumptions C11_set_inter.

Theorem C11_set_diff : forall {K} (F : fns K) w g h h1 h2 y1 y2 al,
  whist F w g -> g !! h1 = Some y1 -> g !! h2 = Some y2 -> g !! h = None -> same_ids y1 y2 -> halloc_ok al ->
  exists n, forall fuel, n <= fuel ->
  ok (fun w' => (exists xs, xs ≡ₚ sdiff (gcmp F y1) (gel y1) (gel y2) /\ holds w' h xs 0) /\
                forall h' xs ro, h' <> h -> holds w h' xs ro -> holds w' h' xs ro)
     (can_fail al) (set_diff F al fuel w h h1 h2).
Proof. intros K. exact (S_inter_diff false). Qed.
Print Assumptions C11_set_diff.

(** sets with different functions are refused *)
Theorem C11_mismatch_fatal : forall {K} (F : fns K) al fuel w g h h1 h2 y1 y2,
  whist F w g -> g !! h1 = Some y1 -> g !! h2 = Some y2 -> ~ same_ids y1 y2 ->
  set_add F al fuel w h1 h2 = Fatal /\ set_del F fuel w h1 h2 = Fatal /\
  set_union F al fuel w h h1 h2 = Fatal /\ set_inter F al fuel w h h1 h2 = Fatal /\
  set_diff F al fuel w h h1 h2 = Fatal /\ set_equal F fuel w h1 h2 = Fatal.
Proof. exact @S_mismatch. Qed.
Print Assumptions C11_mismatch_fatal.

(** ** C12 *)
Theorem C12_set_add : forall {K} (F : fns K) w g h1 h2 y1 y2 al,
  whist F w g -> g !! h1 = Some y1 -> g !! h2 = Some y2 -> h1 <> h2 -> same_ids y1 y2 -> halloc_ok al ->
  gro y1 = 0%Z -> exists n, forall fuel, n <= fuel ->
  ok (fun w' => (exists xs, xs ≡ₚ sunion (gcmp F y1) (gel y1) (gel y2) /\ holds w' h1 xs 0) /\
                forall h' xs ro, h' <> h1 -> holds w h' xs ro -> holds w' h' xs ro)
     (can_fail al) (set_add F al fuel w h1 h2).
Proof. exact @S_add. Qed.
Print Assumptions C12_set_add.

Theorem C12_set_del : forall {K} (F : fns K) w g h1 h2 y1 y2,
  whist F w g -> g !! h1 = Some y1 -> g !! h2 = Some y2 -> h1 <> h2 -> same_ids y1 y2 ->
  gro y1 = 0%Z -> exists n, forall fuel, n <= fuel ->
  exists w', set_del F fuel w h1 h2 = Ret w' /\
    (exists xs, xs ≡ₚ sdiff (gcmp F y1) (gel y1) (gel y2) /\ holds w' h1 xs 0) /\
    forall h' xs ro, h' <> h1 -> holds w h' xs ro -> holds w' h' xs ro.
Proof. exact @S_del. Qed.
Print Assumptions C12_set_del.

Theorem C12_readonly_aborts : forall {K} (F : fns K) w g h1 h2 y1 y2 al,
  whist F w g -> g !! h1 = Some y1 -> g !! h2 = Some y2 -> same_ids y1 y2 ->
  gro y1 <> 0%Z -> gel y2 <> [] -> exists n, forall fuel, n <= fuel ->
  set_add F al fuel w h1 h2 = Abort /\ set_del F fuel w h1 h2 = Abort.
Proof. exact @S_add_del_ro. Qed.
Print Assumptions C12_readonly_aborts.

(** ** C13 *)
Theorem C13_set_equal : forall {K} (F : fns K) w g h1 h2 y1 y2,
  whist F w g -> g !! h1 = Some y1 -> g !! h2 = Some y2 -> same_ids y1 y2 ->
  (N.of_nat (length (gel y1)) < 2 ^ 64)%N -> (N.of_nat (length (gel y2)) < 2 ^ 64)%N ->
  exists n, forall fuel, n <= fuel -> exists w' r, set_equal F fuel w h1 h2 = Ret (w', r) /\
    (r = 1%Z /\ sequal (gcmp F y1) (gel y1) (gel y2) \/ r = 0%Z /\ ~ sequal (gcmp F y1) (gel y1) (gel y2)) /\
    forall h' xs ro, holds w h' xs ro -> holds w' h' xs ro.
Proof. exact @S_equal. Qed.
Print Assumptions C13_set_equal.

(** ** C14.  An iterator that looks up any keys [ks] in the set and updates the
    user's state is called on each element until it returns non-zero; afterwards
    elements, order and readonly flag are as before. *)
Theorem C14_set_iterate : forall {K U} (F : fns K) w g h y x xs ro (ks : K -> U -> list K) (f : K -> U -> U * Z) u fuel,
  whist F w g -> g !! h = Some y -> w !! h = Some x -> holds w h xs ro ->
  N.to_nat (prime (tab (ws x))) + length xs < fuel ->
  exists s', set_iterate fuel (slookup (wenv F x) ks f) (ws x) u =
      Ret (s', (svisit f xs u).1, if (svisit f xs u).2 then 1%Z else 0%Z) /\
    senumerates s' xs /\ readonly (tab s') = ro.
Proof. intros K U. exact (@S_iterate K U). Qed.
Print Assumptions C14_set_iterate.

(** inserting or deleting inside the iterator aborts *)
Theorem C14_modifying_iterator_aborts : forall {K U} (F : fns K) w g h y x (kf : K -> K) fuel (u : U) al,
  whist F w g -> g !! h = Some y -> w !! h = Some x -> gel y <> [] ->
  N.to_nat (prime (tab (ws x))) + length (gel y) < fuel ->
  set_iterate fuel (fun k '(s, u) => '(s', r) ← set_insert (wenv F x) al s (kf k); Ret (s', u, 0%Z)) (ws x) u = Abort /\
  set_iterate fuel (fun k '(s, u) => '(s', r) ← set_delete (wenv F x) s (kf k); Ret (s', u, 0%Z)) (ws x) u = Abort.
Proof. intros K U. exact (@S_iterate_mod K U). Qed.
Print Assumptions C14_modifying_iterator_aborts.

Theorem C14_SET_ITERATE : forall {K U} (F : fns K) w g h y x xs ro (ks : K -> U -> list K) (f : K -> U -> U * Z) u fuel,
  whist F w g -> g !! h = Some y -> w !! h = Some x -> holds w h xs ro -> length xs < fuel ->
  exists s', SET_ITERATE fuel (slookup (wenv F x) ks f) (ws x) u =
      Ret (s', (svisit f xs u).1, (svisit f xs u).2) /\
    senumerates s' xs /\
    readonly (tab s') = (if decide (xs = []) then ro else if (svisit f xs u).2 then 1%Z else 0%Z).
Proof. intros K U. exact (@S_SET_ITERATE K U). Qed.
Print Assumptions C14_SET_ITERATE.
(** leaving the loop with a break needs SET_ITERATE_END, which makes the set writable again *)
Theorem C14_SET_ITERATE_END : forall {K} (F : fns K) w g h y x xs ro,
  whist F w g -> g !! h = Some y -> w !! h = Some x -> holds w h xs ro ->
  exists s', SET_ITERATE_END (ws x) = Ret (s', ro) /\ senumerates s' xs /\ readonly (tab s') = 0%Z.
Proof.
  intros K F w g h y x xs ro Hw Hy Hx (x' & Hx' & He & Hro). rewrite Hx in Hx'. injection Hx' as <-.
  destruct (wrep_lookup _ _ _ _ _ (whist_rep _ _ _ Hw) Hy) as (x' & Hx' & L & HI & G & _).
  rewrite Hx in Hx'. injection Hx' as <-.
  rewrite (senumerates_unique _ _ _ He (senumerates_elems _ _ _ HI)) in *.
  unfold SET_ITERATE_END, set_readonly_. rewrite Hro. eexists. split; [reflexivity|]. split; [|reflexivity].
  eapply senumerates_elems. by apply HashOps2.hinv_flag.
Qed.
Print Assumptions C14_SET_ITERATE_END.

(** ** C15 *)
Theorem C15_set_readonly : forall {K} (F : fns K) w g h y f,
  whist F w g -> g !! h = Some y ->
  exists w', w_readonly w h f = Ret (w', gro y) /\
    (forall xs ro, holds w h xs ro -> holds w' h xs f) /\
    (forall h' xs ro, h' <> h -> holds w h' xs ro -> holds w' h' xs ro).
Proof. exact @S_readonly. Qed.
Print Assumptions C15_set_readonly.

Theorem C15_readonly_refuses : forall {K} (F : fns K) w g h y,
  whist F w g -> g !! h = Some y -> gro y <> 0%Z ->
  (forall al k, w_insert F al w h k = Abort) /\ (forall k, w_delete F w h k = Abort) /\ w_destroy w h = Abort.
Proof. exact @S_ro. Qed.
Print Assumptions C15_readonly_refuses.

(** one node per element; set_destroy frees them all (freeing twice would be UB) *)
Theorem C15_nodes : forall {K} (F : fns K) w g h y x,
  whist F w g -> g !! h = Some y -> w !! h = Some x -> size (heap (ws x)) = length (gel y).
Proof. exact @S_nodes. Qed.
Print Assumptions C15_nodes.

Theorem C15_set_destroy : forall {K} (F : fns K) w g h y,
  whist F w g -> g !! h = Some y -> gro y = 0%Z -> w_destroy w h = Ret (delete h w, ∅).
Proof. exact @S_destroy. Qed.
Print Assumptions C15_set_destroy.

Theorem C15_set_get_stats : forall {K} (F : fns K) w g h y x al,
  whist F w g -> g !! h = Some y -> w !! h = Some x ->
  (N.of_nat (length (gel y)) < 2 ^ 64)%N ->
  ok (fun st =>
        let c := sbucket_counts (fhash F (ghid y)) (s_size st) (gel y) in
        s_entries st = N.of_nat (length (gel y)) /\
        s_buckets_used st = N.of_nat (count_if (fun n => negb (Nat.eqb n 0)) c) /\
        s_singletons st = N.of_nat (count_if (fun n => Nat.eqb n 1) c) /\
        s_maximum_length st = N.of_nat (max_list c) /\
        s_size st = prime (tab (ws x)) /\ s_resizings st = resizings (tab (ws x)) /\
        s_retrievals st = retrievals (tab (ws x)) /\ s_hits st = hits (tab (ws x)) /\
        s_misses st = misses (tab (ws x)))
     (blk_alloc al 72 = false) (set_get_stats al (ws x)).
Proof. exact @S_stats. Qed.
Print Assumptions C15_set_get_stats.

Theorem C15_counters : forall {K} (F : fns K) w g h y x k xs ro,
  whist F w g -> g !! h = Some y -> w !! h = Some x -> holds w h xs ro ->
  exists s' r, set_member (wenv F x) (ws x) k = Ret (s', r) /\
    retrievals (tab s') = u64 (retrievals (tab (ws x)) + 1) /\
    misses (tab s') = (if smem (gcmp F y) k (gel y) then misses (tab (ws x)) else u64 (misses (tab (ws x)) + 1)) /\
    prime (tab s') = prime (tab (ws x)) /\ resizings (tab s') = resizings (tab (ws x)) /\
    let top := on_top (fhash F (ghid y)) (gcmp F y) (prime (tab (ws x))) k ((fun k => (k, tt)) <$> xs) in
    ((top /\ hits (tab s') = u64 (hits (tab (ws x)) + 1)) \/ (~ top /\ hits (tab s') = hits (tab (ws x)))).
Proof. exact @S_member_counters. Qed.
Print Assumptions C15_counters.

(** ** Concrete instances *)
Definition ex_F : fns N := FN (fun _ => id) (fun _ a b => Z.of_N a - Z.of_N b)%Z.
Definition ex_sal : halloc N unit :=
  HA (fun h => Some (map_fold (fun a _ m => Pos.max m (Pos.succ a)) 1%positive h)) (fun _ => true).
Lemma ex_sgood hid cid : good (HE (fhash ex_F hid) (fcmp ex_F cid) tt).
Proof. constructor; simpl; intros; unfold id; lia. Qed.
Lemma ex_sal_ok : halloc_ok ex_sal.
Proof.
  intros h a [= <-]. simpl.
  assert (Hlt : forall b x, h !! b = Some x ->
     (b < map_fold (fun a _ m => Pos.max m (Pos.succ a)) 1 h)%positive).
  { apply (map_fold_ind (fun m h => forall b x, h !! b = Some x -> (b < m)%positive)).
    - intros b x. by rewrite lookup_empty.
    - intros i y h' m Hi IH b x Hb. destruct (decide (b = i)) as [->|Hne]; [lia|].
      rewrite lookup_insert_ne in Hb by done. specialize (IH b x Hb). lia. }
  destruct (h !! _) as [x|] eqn:E; [|done]. specialize (Hlt _ _ E). lia.
Qed.

Fixpoint ex_fill (h : positive) (ks : list N) (w : world N) : res (world N) :=
  match ks with
  | [] => Ret w
  | k :: ks' => '(w', _) ← w_insert ex_F ex_sal w h k; ex_fill h ks' w'
  end.
(** two sets, at handles 1 and 2 *)
Definition ex_two (ks1 ks2 : list N) : res (world N) :=
  w ← w_create ex_sal ∅ 1 1 1; w ← w_create ex_sal w 2 1 1; w ← ex_fill 1 ks1 w; ex_fill 2 ks2 w.
Definition listing (w : world N) (h : positive) : res (list N) :=
  x ← hget w h; '(_, l, _) ← set_iterate 1000 (spure (fun k l => (l ++ [k], 0%Z))) (ws x) []; Ret l.

Lemma ex_fill_hist h ks : forall w g y w',
  whist ex_F w g -> g !! h = Some y -> gro y = 0%Z -> ex_fill h ks w = Ret w' ->
  exists g' y', whist ex_F w' g' /\ g' !! h = Some y' /\ gro y' = 0%Z /\ ghid y' = ghid y /\ gcid y' = gcid y /\
    (forall h', h' <> h -> g' !! h' = g !! h').
Proof.
  induction ks as [|k ks IH]; intros w g y w' Hw Hy Hro E; simpl in E.
  - injection E as <-. exists g, y. exact (conj Hw (conj Hy (conj Hro (conj eq_refl (conj eq_refl (fun _ _ => eq_refl)))))).
  - destruct (w_insert ex_F ex_sal w h k) as [[w1 r]| | | |] eqn:E1; try discriminate E. simpl in E.
    apply (wh_insert ex_F ex_sal w g w1 h y k r Hw Hy ex_sal_ok) in E1.
    destruct (IH _ _ _ _ E1 (lookup_insert _ _ _) Hro E) as (g' & y' & H1 & H2 & H3 & H4 & H5 & H6).
    exists g', y'. split; [exact H1|]. split; [exact H2|]. split; [exact H3|]. split; [exact H4|]. split; [exact H5|].
    intros h' Hne. rewrite H6 by exact Hne. apply lookup_insert_ne. intros Heq. apply Hne. by symmetry.
Qed.
Lemma ex_two_hist ks1 ks2 w : ex_two ks1 ks2 = Ret w ->
  exists g y1 y2, whist ex_F w g /\ g !! 1%positive = Some y1 /\ g !! 2%positive = Some y2 /\ g !! 3%positive = None /\
    gro y1 = 0%Z /\ gro y2 = 0%Z /\ same_ids y1 y2.
Proof.
  unfold ex_two. intros E.
  destruct (w_create ex_sal ∅ 1 1 1) as [w1| | | |] eqn:E1; try discriminate E. rewrite bind_Ret in E.
  destruct (w_create ex_sal w1 2 1 1) as [w2| | | |] eqn:E2; try discriminate E. rewrite bind_Ret in E.
  destruct (ex_fill 1 ks1 w2) as [w3| | | |] eqn:E3; try discriminate E. rewrite bind_Ret in E.
  apply (wh_create ex_F ex_sal _ _ _ _ _ _ (wh_nil ex_F) (lookup_empty _) (ex_sgood 1 1)) in E1.
  apply (wh_create ex_F ex_sal w1 _ w2 2 1 1 E1 eq_refl (ex_sgood 1 1)) in E2.
  eapply ex_fill_hist in E3 as (g3 & y3 & H1 & H2 & H3 & H4 & H5 & H6); [|exact E2|reflexivity|reflexivity].
  assert (Hg2 : g3 !! 2%positive = Some (GS [] 0 1 1)) by (rewrite H6 by discriminate; reflexivity).
  assert (Hg3 : g3 !! 3%positive = None) by (rewrite H6 by discriminate; reflexivity).
  eapply ex_fill_hist in E as (g4 & y4 & J1 & J2 & J3 & J4 & J5 & J6); [|exact H1|exact Hg2|reflexivity].
  exists g4, y3, y4. split; [exact J1|]. rewrite (J6 1%positive), (J6 3%positive) by discriminate.
  split; [exact H2|]. split; [exact J2|]. split; [exact Hg3|]. split; [exact H3|]. split; [exact J3|].
  split; congruence.
Qed.

(** two overlapping sets meet the hypotheses of C10-C15, and the operations on them *)
Lemma ex_two_run : exists w, ex_two [1; 2; 3; 4; 12]%N [3; 4; 5]%N = Ret w /\
  (listing w 1 = Ret [12; 1; 2; 3; 4]%N /\ listing w 2 = Ret [3; 4; 5]%N /\
   (w' ← set_union ex_F ex_sal 1000 w 3 1 2; listing w' 3) = Ret [1; 12; 2; 3; 4; 5]%N /\
   (w' ← set_inter ex_F ex_sal 1000 w 3 1 2; listing w' 3) = Ret [3; 4]%N /\
   (w' ← set_diff ex_F ex_sal 1000 w 3 1 2; listing w' 3) = Ret [1; 12; 2]%N /\
   (w' ← set_diff ex_F ex_sal 1000 w 3 1 1; listing w' 3) = Ret [] /\
   (w' ← set_add ex_F ex_sal 1000 w 1 2; listing w' 1) = Ret [12; 1; 2; 3; 4; 5]%N /\
   (w' ← set_del ex_F 1000 w 1 2; listing w' 1) = Ret [12; 1; 2]%N /\
   snd <$> set_equal ex_F 1000 w 1 2 = Ret 0%Z /\ snd <$> set_equal ex_F 1000 w 1 1 = Ret 1%Z).
Proof. run. Qed.
Example ex_two_reachable : exists w g y1 y2,
  ex_two [1; 2; 3; 4; 12]%N [3; 4; 5]%N = Ret w /\ whist ex_F w g /\
  g !! 1%positive = Some y1 /\ g !! 2%positive = Some y2 /\ g !! 3%positive = None /\
  gro y1 = 0%Z /\ gro y2 = 0%Z /\ same_ids y1 y2 /\ listing w 1 = Ret [12; 1; 2; 3; 4]%N.
Proof.
  destruct ex_two_run as (w & E & Hl & _). destruct (ex_two_hist _ _ _ E) as (g & y1 & y2 & H1 & H2 & H3 & H4 & H5 & H6 & H7).
  exists w, g, y1, y2.
  exact (conj E (conj H1 (conj H2 (conj H3 (conj H4 (conj H5 (conj H6 (conj H7 Hl)))))))).
Qed.

(** C12, the aliased calls: set_del(s, s) reads the node it has just freed, and
    so does set_add(s, s) when the set is due to grow. *)
Example C12_set_del_self_reads_freed_memory : exists w, ex_two [1]%N []%N = Ret w /\
  (const tt <$> set_del ex_F 1000 w 1 1 = UB).
Proof. run. Qed.
Example C12_set_add_self_reads_freed_memory : exists w, ex_two [1]%N []%N = Ret w /\
  (const tt <$> set_add ex_F ex_sal 1000 w 1 1 = UB).
Proof. run. Qed.
