(** C28-C32: lists (list.c).  [lst_history w (LG H n t)]: [w] is reached by some
    sequence of list calls on any number of lists, with any allocator; [H] maps every
    live list to its elements (position, datum) as a mathematical sequence. *)
From Verif Require Import Base StackModel StackProofs ObjModel ObjProofs ListModel ListProofs ListHist Alloc.
Local Open Scope Z_scope.

(** ** C28 *)
Theorem C28_create : forall w H n t al, lst_history w (LG H n t) -> lal_ok al -> t + 32 < 2 ^ 63 ->
  ok (fun '(w', l) => H !! l = None /\ lst_history w' (LG (<[l := []]> H) n (t + 32)))
     (exists h, la_list al h = None \/ exists h1 h2, al_info (la_obj al) h1 = None \/ al_stk (la_obj al) h2 = None)
     (lst_create al w).
Proof. exact (fun w H n t al h => h_create w H n t h al). Qed.
Print Assumptions C28_create.

(** append at the tail, push at the head; fatal only if malloc fails *)
Theorem C28_append : forall w H n t l L al dt, lst_history w (LG H n t) -> H !! l = Some L ->
  lal_ok al -> lnodes_ok al -> lroom n t ->
  ok (fun w' => exists d, lst_last_position w' (Some l) = Ret (Some d) /\
        lst_history w' (LG (<[l := L ++ [(d, dt)]]> H) (n + 1) (t + 16)))
     (exists n h, al_blk (la_obj al) n h = None) (lst_append al w (Some l) dt).
Proof. exact (fun w H n t l L al dt h Hl => h_append w H n t h l L Hl al dt). Qed.
Print Assumptions C28_append.
Theorem C28_push : forall w H n t l L al dt, lst_history w (LG H n t) -> H !! l = Some L ->
  lal_ok al -> lnodes_ok al -> lroom n t ->
  ok (fun w' => exists d, lst_init_position w' (Some l) = Ret (Some d) /\
        lst_history w' (LG (<[l := (d, dt) :: L]> H) (n + 1) (t + 16)))
     (exists n h, al_blk (la_obj al) n h = None) (lst_push al w (Some l) dt).
Proof. exact (fun w H n t l L al dt h Hl => h_push w H n t h l L Hl al dt). Qed.
Print Assumptions C28_push.

Theorem C28_pop : forall w H n t l L al, lst_history w (LG H n t) -> H !! l = Some L -> lal_ok al -> lnodes_ok al ->
  exists w', lst_pop al w (Some l) = Ret (w', match L with [] => None | (_, d) :: _ => d end) /\
    lst_history w' (LG (<[l := tail L]> H) n t).
Proof. exact (fun w H n t l L al h Hl => h_pop w H n t h l L Hl al). Qed.
Print Assumptions C28_pop.

(** top, length, nth_get (1-based, NULL when absent), member *)
Theorem C28_reads : forall w H n t l L, lst_history w (LG H n t) -> H !! l = Some L ->
  lst_top w (Some l) = Ret (match L with [] => None | (_, d) :: _ => d end) /\
  lst_length w (Some l) = Ret (N.of_nat (length L)) /\
  (forall k, lst_nth_get w (Some l) k =
     Ret (if (k =? 0)%N then None else match L !! N.to_nat (k - 1) with Some (_, d) => d | None => None end)) /\
  (forall dt, lst_member w (Some l) dt = Ret (if decide (dt ∈ L.*2) then 1 else 0)).
Proof. exact (fun w H n t l L h Hl => h_reads w H n t h l L Hl). Qed.
Print Assumptions C28_reads.

Theorem C28_nth_set : forall w H n t l L k dt, lst_history w (LG H n t) -> H !! l = Some L ->
  if decide (1 <= k <= N.of_nat (length L))%N then
    exists w' a d, L !! N.to_nat (k - 1) = Some (a, d) /\ lst_nth_set w (Some l) k dt = Ret w' /\
      lst_history w' (LG (<[l := <[N.to_nat (k - 1) := (a, dt)]> L]> H) n t)
  else lst_nth_set w (Some l) k dt = Fatal.
Proof. exact (fun w H n t l L k dt h Hl => h_nth_set w H n t h l L Hl k dt). Qed.
Print Assumptions C28_nth_set.

(** lst_iterate calls the iterator on the data in order until it returns non-zero,
    for every iterator that leaves this list alone (it may use other lists) *)
Theorem C28_iterate : forall X (it : X -> lworld -> ptr -> res (X * lworld * Z)) l L,
  (forall s w d s' w' r, has w l L -> it s w d = Ret (s', w', r) -> has w' l L) ->
  forall fuel s w, has w l L -> (length L < fuel)%nat ->
  lst_iterate it fuel s w (Some l) = visit it s w L.*2.
Proof. exact @iterate_spec. Qed.
Print Assumptions C28_iterate.

(** a NULL list: append ignores it, everything else aborts *)
Theorem C28_null : forall al w dt k, lst_append al w None dt = Ret w /\
  lst_pop al w None = Abort /\ lst_top w None = Abort /\ lst_length w None = Abort /\
  lst_nth_get w None k = Abort /\ lst_nth_set w None k dt = Abort /\ lst_member w None dt = Abort /\
  lst_truncate al w None k = Abort /\ lst_truncate_position al w None dt = Abort /\
  lst_destroy al w None = Abort /\ lst_init_position w None = Abort /\ lst_last_position w None = Abort /\
  lst_nth_position w None k = Abort.
Proof. intros. repeat split. Qed.
Print Assumptions C28_null.

(** ** C29 *)
(** Positions of live lists never coincide, within a list or between lists; together
    with the C28 theorems (which change [H] at one list only) no list call affects
    another list. *)
Theorem C29_disjoint : forall w H n t l L, lst_history w (LG H n t) -> H !! l = Some L ->
  NoDup L.*1 /\ forall l2 L2 a, H !! l2 = Some L2 -> a ∈ L.*1 -> a ∈ L2.*1 -> l = l2.
Proof. exact (fun w H n t l L h Hl => h_distinct w H n t h l L Hl). Qed.
Print Assumptions C29_disjoint.
Theorem C29_destroy : forall w H n t l L al, lst_history w (LG H n t) -> H !! l = Some L -> lal_ok al -> lnodes_ok al ->
  exists w', lst_destroy al w (Some l) = Ret w' /\ lst_history w' (LG (delete l H) n t).
Proof. exact (fun w H n t l L al h Hl => h_destroy w H n t h l L Hl al). Qed.
Print Assumptions C29_destroy.
(** the pool counts as used exactly the elements of the live lists *)
Theorem C29_pool_used : forall w H n t m, lst_history w (LG H n t) -> lmem w = Some m ->
  exists total reused,
    mem_get_object_stats true (lobj w) (Some m) = Ret (total, Z.of_nat (elements_total H), reused, 16).
Proof. exact h_used. Qed.
Print Assumptions C29_pool_used.
Theorem C29_total_allocated : forall w H n t, lst_history w (LG H n t) -> lst_total_allocated w = t.
Proof. exact (fun w H n t h => h_total w H n t h). Qed.
Print Assumptions C29_total_allocated.
Theorem C29_shutdown : forall w n t, lst_history w (LG ∅ n t) ->
  exists w', lst_shutdown w = Ret w' /\ lst_history w' (LG ∅ 0 t) /\ lmem w' = None /\
    oblk (lobj w') = ∅ /\ lhs w' = ∅.
Proof. exact h_shutdown. Qed.
Print Assumptions C29_shutdown.

(** ** C30 *)
Theorem C30_truncate : forall w H n t l L al k, lst_history w (LG H n t) -> H !! l = Some L -> lal_ok al -> lnodes_ok al ->
  if decide (N.of_nat (length L) <= k \/ k <= 1)%N then
    exists w', lst_truncate al w (Some l) k = Ret w' /\ lst_history w' (LG (<[l := take (N.to_nat k) L]> H) n t)
  else lst_truncate al w (Some l) k = UB.
Proof. exact (fun w H n t l L al k h Hl => h_truncate w H n t h l L Hl al k). Qed.
Print Assumptions C30_truncate.

(** ** C31 *)
Theorem C31_truncate_position : forall w H n t l al L1 a d L2, lst_history w (LG H n t) ->
  H !! l = Some (L1 ++ (a, d) :: L2) -> lal_ok al -> lnodes_ok al ->
  exists w', lst_truncate_position al w (Some l) (Some a) = Ret w' /\
    lst_history w' (LG (<[l := L1 ++ [(a, d)]]> H) n t).
Proof. exact (fun w H n t l al L1 a d L2 h Hl Hal Hn => h_cut w H n t h l _ Hl al L1 a d L2 Hal Hn eq_refl). Qed.
Print Assumptions C31_truncate_position.
Theorem C31_null_position : forall w H n t l L al, lst_history w (LG H n t) -> H !! l = Some L -> lal_ok al -> lnodes_ok al ->
  exists w', lst_truncate_position al w (Some l) None = Ret w' /\ lst_history w' (LG (<[l := []]> H) n t).
Proof. exact (fun w H n t l L al h Hl => h_clear w H n t h l L Hl al). Qed.
Print Assumptions C31_null_position.
(** take the marker, append anything, truncate to the marker: the lists are as before *)
Theorem C31_restore : forall ds al w H n t l L p, lst_history w (LG H n t) -> H !! l = Some L ->
  Forall (fun x => lal_ok x.1 /\ lnodes_ok x.1) ds -> aroom n t (length ds) -> lal_ok al -> lnodes_ok al ->
  lst_last_position w (Some l) = Ret p ->
  ok (fun w' => exists n' t', lst_history w' (LG H n' t'))
     (exists al dt, (al, dt) ∈ ds /\ exists n h, al_blk (la_obj al) n h = None)
     (w1 ← append_all w l ds; lst_truncate_position al w1 (Some l) p).
Proof. exact h_undo. Qed.
Print Assumptions C31_restore.

(** ** C32 *)
Theorem C32_positions : forall w H n t l L, lst_history w (LG H n t) -> H !! l = Some L ->
  lst_init_position w (Some l) = Ret (fst <$> head L) /\ lst_last_position w (Some l) = Ret (fst <$> last L) /\
  (forall k, lst_nth_position w (Some l) k = Ret (if (k =? 0)%N then None else fst <$> L !! N.to_nat (k - 1))) /\
  (forall k a d, L !! k = Some (a, d) -> lst_get_position w (Some a) = Ret d /\
     lst_next_position w (Some a) = Ret (fst <$> L !! S k)).
Proof. exact (fun w H n t l L h Hl => h_positions w H n t h l L Hl). Qed.
Print Assumptions C32_positions.
Theorem C32_set_position : forall w H n t l L1 a d L2 dt, lst_history w (LG H n t) -> H !! l = Some (L1 ++ (a, d) :: L2) ->
  exists w', lst_set_position w (Some a) dt = Ret w' /\ lst_history w' (LG (<[l := L1 ++ (a, dt) :: L2]> H) n t).
Proof. exact (fun w H n t l L1 a d L2 dt h Hl => h_set_position w H n t h l _ Hl L1 a d L2 dt eq_refl). Qed.
Print Assumptions C32_set_position.
Theorem C32_LST_ITERATE : forall X (it : X -> lworld -> ptr -> res (X * lworld * Z)) l L,
  (forall s w d s' w' r, has w l L -> it s w d = Ret (s', w', r) -> has w' l L) ->
  forall fuel s w, has w l L -> (length L < fuel)%nat ->
  LST_ITERATE it fuel s w (Some l) = ('(s', w', _) ← visit it s w L.*2; Ret (s', w')).
Proof. exact @LST_ITERATE_spec. Qed.
Print Assumptions C32_LST_ITERATE.
Theorem C32_LST_ITERATE2 : forall X (it : X -> lworld -> ptr -> ptr -> res (X * lworld * Z)) l1 l2 L1 L2,
  (forall s w d1 d2 s' w' r, has w l1 L1 -> has w l2 L2 -> it s w d1 d2 = Ret (s', w', r) -> has w' l1 L1 /\ has w' l2 L2) ->
  forall fuel s w, has w l1 L1 -> has w l2 L2 -> (length L1 < fuel \/ length L2 < fuel)%nat ->
  LST_ITERATE2 it fuel s w (Some l1) (Some l2) = visit2 it s w (zip L1.*2 L2.*2).
Proof. exact @LST_ITERATE2_spec. Qed.
Print Assumptions C32_LST_ITERATE2.

(** ** reachable cases: two lists [1;2;3;4] and [9], with a recycled node *)
Definition ex_lal : lalloc := LA bump (OA bump bump bump (fun _ h => (fun a => (a, Cell (Some 77%positive) (Some 78%positive))) <$> bump h)).
Lemma ex_lal_ok : lal_ok ex_lal /\ lnodes_ok ex_lal.
Proof.
  split; [constructor; [apply bump_ok|]; constructor; try apply bump_ok|done].
  intros z h a b. unfold ex_lal. cbn [al_blk la_obj]. destruct (bump h) as [a'|] eqn:E; [|done].
  cbn. intros [= <- <-]. split; [by apply bump_ok|done].
Qed.
Definition dt (p : positive) : ptr := Some p.
Example C28_reachable : exists w H n t, lst_history w (LG H n t) /\ aroom n t 5 /\ lroom n t /\
  H !! 1%positive = Some [(1, dt 1); (2, dt 2); (4, dt 3); (5, dt 4)]%positive /\
  H !! 2%positive = Some [(3, dt 9)]%positive /\ lmem w = Some 1%positive /\
  mem_get_object_stats true (lobj w) (lmem w) = Ret (5, 5, 1, 16) /\
  lst_length w (Some 1%positive) = Ret 4%N /\ lst_total_allocated w = 160 /\
  (* the iterator records what it sees and stops at datum 3 *)
  (exists w', lst_iterate (fun s w d => Ret (s ++ [d], w, if decide (d = dt 3) then 1 else 0)) 9 [] w (Some 1%positive)
     = Ret ([dt 1; dt 2; dt 3], w', 1)) /\
  lst_truncate ex_lal w (Some 1%positive) 2 = UB.
Proof.
  destruct ex_lal_ok as [Hal Hn].
  assert (h : lst_history lempty (LG ∅ 0 0)) by constructor.
  assert (Hr : forall n t, (n < 100)%nat -> t < 1000 -> lroom n t) by (intros n t H1 H2; split; lia).
  eapply (lh_create ex_lal) in h; [|done|lia|vm_compute; reflexivity].
  eapply (lh_append ex_lal _ _ _ _ _ 1 _ (dt 5)) in h; [|done|done|apply Hr; lia|apply lookup_insert|vm_compute; reflexivity|vm_compute; reflexivity].
  eapply (lh_append ex_lal _ _ _ _ _ 1 _ (dt 2)) in h; [|done|done|apply Hr; lia|apply lookup_insert|vm_compute; reflexivity|vm_compute; reflexivity].
  eapply (lh_create ex_lal) in h; [|done|lia|vm_compute; reflexivity].
  eapply (lh_append ex_lal _ _ _ _ _ 2 _ (dt 9)) in h; [|done|done|apply Hr; lia|vm_compute; reflexivity|vm_compute; reflexivity|vm_compute; reflexivity].
  eapply (lh_pop ex_lal _ _ _ _ _ 1) in h; [|done|done|vm_compute; reflexivity|vm_compute; reflexivity].
  eapply (lh_push ex_lal _ _ _ _ _ 1 _ (dt 1)) in h; [|done|done|apply Hr; lia|vm_compute; reflexivity|vm_compute; reflexivity|vm_compute; reflexivity].
  eapply (lh_append ex_lal _ _ _ _ _ 1 _ (dt 3)) in h; [|done|done|apply Hr; lia|vm_compute; reflexivity|vm_compute; reflexivity|vm_compute; reflexivity].
  eapply (lh_append ex_lal _ _ _ _ _ 1 _ (dt 4)) in h; [|done|done|apply Hr; lia|vm_compute; reflexivity|vm_compute; reflexivity|vm_compute; reflexivity].
  eexists _, _, _, _. split; [exact h|]. split; [split; vm_compute; reflexivity|]. split; [split; vm_compute; reflexivity|].
  do 6 (split; [vm_compute; reflexivity|]). split; [eexists; vm_compute; reflexivity|vm_compute; reflexivity].
Qed.
