(** C23, C24: object pools (memory.c).  [obj_history w P]: the store [w] is reached
    by some sequence of calls on any number of pools with any allocator, the user
    storing what it likes into live blocks; [P] records, per live pool, its size
    argument, the blocks handed out in order ([p_log]) and those not given back
    ([p_live]). *)
From Verif Require Import Base StackModel StackProofs ObjModel ObjProofs ObjHist Alloc.
Local Open Scope Z_scope.

(** ** C23 *)
(** A hand-out is never a live block of any pool, leaves live blocks alone, and
    reuses a returned block iff there is one. *)
Theorem C23_get : forall w P al i g, obj_history w P -> oal_ok al -> P !! i = Some g ->
  al_node al (nodes (osh w)) <> None -> Z.of_nat (length (p_log g)) < 2 ^ 31 - 1 ->
  ok (fun '(w', a) => obj_history w' (<[i := handed g a]> P) /\
       (forall j g2, P !! j = Some g2 -> a ∉ p_live g2) /\
       (forall j g2 c, P !! j = Some g2 -> c ∈ p_live g2 -> oblk w' !! c = oblk w !! c) /\
       (a ∈ p_log g <-> exists c, c ∈ p_log g /\ c ∉ p_live g))
     (al_blk al (Z.to_N (p_size g mod 2 ^ 64)) (oblk w) = None)
     (mem_get_object al w i).
Proof. exact (fun w P al i g H => oh_get_ok w P H al i g). Qed.
Print Assumptions C23_get.

Theorem C23_live_blocks : forall w P i g a, obj_history w P -> P !! i = Some g -> a ∈ p_live g ->
  a ∈ p_log g /\ exists b, oblk w !! a = Some b /\ N.of_nat (length b) = Z.to_N (p_size g mod 2 ^ 64).
Proof. exact (fun w P i g a H Hi Ha => conj (oh_live_log w P H i g a Hi Ha) (oh_live_blocks w P H i g a Hi Ha)). Qed.
Print Assumptions C23_live_blocks.

Theorem C23_free : forall w P al i g a, obj_history w P -> oal_ok al -> P !! i = Some g -> a ∈ p_live g ->
  match al_node al (nodes (osh w)) with
  | None => mem_free_object al w i (Some a) = UB
  | Some _ => exists w', mem_free_object al w i (Some a) = Ret w' /\ oblk w' = oblk w /\
      obj_history w' (<[i := returned g a]> P)
  end.
Proof. exact (fun w P al i g a H => oh_free_ok w P H al i g a). Qed.
Print Assumptions C23_free.

(** total, used, reused, size: distinct blocks, live blocks, repeated hand-outs *)
Theorem C23_stats : forall w P i g, obj_history w P -> P !! i = Some g ->
  mem_get_object_stats true w (Some i) =
    Ret (Z.of_nat (size (list_to_set (C := gset positive) (p_log g))), Z.of_nat (size (p_live g)),
         Z.of_nat (length (p_log g)) - Z.of_nat (size (list_to_set (C := gset positive) (p_log g))), p_size g)
  /\ (size (p_live g) <= size (list_to_set (C := gset positive) (p_log g)))%nat.
Proof. exact (fun w P i g H => oh_stats w P H i g). Qed.
Print Assumptions C23_stats.

(** destroy frees exactly the blocks of that pool, each once (a second free is UB) *)
Theorem C23_destroy : forall w P i g, obj_history w P -> P !! i = Some g ->
  exists w', mem_destroy_objects w i = Ret w' /\ obj_history w' (delete i P) /\
    (forall a, oblk w' !! a = if decide (a ∈ p_log g) then None else oblk w !! a) /\
    oinf w' = delete i (oinf w).
Proof. exact (fun w P i g H => oh_destroy_ok w P H i g). Qed.
Print Assumptions C23_destroy.

Theorem C23_pools_disjoint : forall w P i j g g2 a, obj_history w P -> P !! i = Some g -> P !! j = Some g2 ->
  a ∈ p_log g -> a ∈ p_log g2 -> i = j.
Proof. exact (fun w P i j g g2 a H => oh_pools_apart w P H i j g g2 a). Qed.
Print Assumptions C23_pools_disjoint.

Theorem C23_create : forall w P al n, obj_history w P -> oal_ok al ->
  ok (fun '(w', i) => P !! i = None /\ obj_history w' (<[i := Pool n [] ∅]> P) /\ oblk w' = oblk w)
     (al_info al (oinf w) = None \/ exists h, al_stk al h = None)
     (mem_create_objects al w n).
Proof. exact (fun w P al n H => oh_create_ok w P H al n). Qed.
Print Assumptions C23_create.

(** after all pools are destroyed nothing is left *)
Theorem C23_no_leak : forall w, obj_history w ∅ ->
  oblk w = ∅ /\ oinf w = ∅ /\ stks (osh w) = ∅ /\ nodes (osh w) = ∅.
Proof. exact (fun w H => oh_no_leak w ∅ H eq_refl). Qed.
Print Assumptions C23_no_leak.

(** ** C24 *)
Theorem C24_get_empty : forall w P al i g, obj_history w P -> oal_ok al -> P !! i = Some g ->
  al_node al (nodes (osh w)) <> None -> Z.of_nat (length (p_log g)) < 2 ^ 31 - 1 ->
  ok (fun '(w', a) => obj_history w' (<[i := handed g a]> P) /\
       (forall j g2, P !! j = Some g2 -> a ∉ p_live g2) /\
       oblk w' !! a = Some (replicate (N.to_nat (Z.to_N (p_size g mod 2 ^ 64))) 0%N) /\
       (forall j g2 c, P !! j = Some g2 -> c ∈ p_live g2 -> oblk w' !! c = oblk w !! c))
     (al_blk al (Z.to_N (p_size g mod 2 ^ 64)) (oblk w) = None)
     (mem_get_empty_object al w i).
Proof. exact (fun w P al i g H => oh_get_empty_ok w P H al i g). Qed.
Print Assumptions C24_get_empty.

(** a pool of 3-byte blocks: two hand-outs, a write, a return, a recycled hand-out *)
Definition ex_oal : oalloc (list N) :=
  OA bump bump bump (fun n h => (fun a => (a, replicate (N.to_nat n) 170%N)) <$> bump h).
Lemma ex_oal_ok : oal_ok ex_oal.
Proof.
  constructor; try apply bump_ok. intros z h a b. unfold ex_oal. cbn [al_blk].
  destruct (bump h) as [a'|] eqn:E; [|done]. cbn. intros [= <- <-]. split; [by apply bump_ok|].
  unfold bytes_of. rewrite replicate_length. lia.
Qed.
Example C23_reachable : exists w P g, obj_history w P /\ P !! 1%positive = Some g /\
  p_log g = [1; 2; 1]%positive /\ elements (p_live g) = [1; 2]%positive /\
  mem_get_object_stats true w (Some 1%positive) = Ret (2, 2, 1, 3) /\
  oblk w !! 1%positive = Some [0; 0; 0]%N.
Proof.
  assert (H : obj_history oempty ∅) by constructor.
  eapply (oh_create ex_oal _ _ 3) in H; [|apply ex_oal_ok|vm_compute; reflexivity].
  eapply (oh_get ex_oal _ _ 1) in H; [|apply ex_oal_ok|apply lookup_insert|vm_compute; discriminate|vm_compute; reflexivity|vm_compute; reflexivity].
  eapply (oh_get ex_oal _ _ 1) in H; [|apply ex_oal_ok|apply lookup_insert|vm_compute; discriminate|vm_compute; reflexivity|vm_compute; reflexivity].
  eapply (oh_write _ _ 1 _ 1 [7; 8; 9]%N) in H; [|apply lookup_insert|vm_compute; reflexivity|vm_compute; reflexivity].
  eapply (oh_free ex_oal _ _ 1 _ 1) in H; [|apply ex_oal_ok|apply lookup_insert|vm_compute; reflexivity|vm_compute; reflexivity].
  eapply (oh_get_empty ex_oal _ _ 1) in H; [|apply ex_oal_ok|apply lookup_insert|vm_compute; discriminate|vm_compute; reflexivity|vm_compute; reflexivity].
  eexists _, _, _. split; [exact H|]. split; [apply lookup_insert|].
  split; [vm_compute; reflexivity|]. split; [vm_compute; reflexivity|].
  split; vm_compute; reflexivity.
Qed.
