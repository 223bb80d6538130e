(** C25, C26, C27: string memory (memory.c).  [str_history w G]: the store [w] is
    reached by some sequence of string-memory calls on any number of objects with any
    allocator; [G] records, per live object, the strings handed out ([s_done]: address
    and bytes, including the terminator), the bytes grown since the last hand-out
    ([s_cur]) and the bytes asked for so far ([s_bytes]). *)
From Verif Require Import Base CStr StackModel StackProofs ObjModel ObjProofs MemModel MemProofs MemHist Alloc.
Local Open Scope Z_scope.

(** ** C25 *)
(** Every string ever handed out by a live object is still at its address with its
    bytes, whatever was called since, and no two hand-outs share an address. *)
Theorem C25_stable : forall w G i g p b, str_history w G -> G !! i = Some g ->
  (p, b) ∈ s_done g -> mblk w !! p = Some b.
Proof. exact (fun w G i g p b H => sh_done w G H i g p b). Qed.
Print Assumptions C25_stable.
Theorem C25_distinct : forall w G, str_history w G ->
  (forall i g, G !! i = Some g -> NoDup (s_done g).*1) /\
  (forall i j g g2 p b b2, G !! i = Some g -> G !! j = Some g2 ->
     (p, b) ∈ s_done g -> (p, b2) ∈ s_done g2 -> i = j).
Proof. exact (fun w G H => conj (sh_nodup w G H) (sh_distinct w G H)). Qed.
Print Assumptions C25_distinct.

(** mem_strcpy stores a terminated copy in a new block and touches no other block *)
Theorem C25_strcpy : forall w G al i g s rest, str_history w G -> malloc_good al -> nodes_ok al ->
  G !! i = Some g -> str_ok s -> room g (Z.of_nat (length s) + 1) ->
  ok (fun '(w', a) => str_history w' (<[i := stored g a (s ++ [0%N]) (Z.of_nat (length s) + 1)]> G) /\
        mblk w !! a = None /\ mblk w' = <[a := s ++ [0%N]]> (mblk w))
     (may_fail al) (mem_strcpy al w i (s ++ 0%N :: rest)).
Proof. exact (fun w G al i g s rest H => sh_strcpy_ok w G H al i g s rest). Qed.
Print Assumptions C25_strcpy.

(** the statistics: strings handed out, bytes asked for *)
Theorem C25_stats : forall w G i g, str_history w G -> G !! i = Some g ->
  mem_get_string_stats true w (Some i) = Ret (Z.of_nat (length (s_done g)), s_bytes g).
Proof. exact (fun w G i g H => sh_stats w G H i g). Qed.
Print Assumptions C25_stats.

Theorem C25_create : forall w G al, str_history w G -> malloc_good al ->
  ok (fun '(w', i) => G !! i = None /\ str_history w' (<[i := SG [] [] 0]> G))
     (m_info al (minf w) = None \/ m_stk al (stks (msh w)) = None) (mem_create_strings al w).
Proof. exact (fun w G al H => sh_create_ok w G H al). Qed.
Print Assumptions C25_create.

(** destroy succeeds (freeing a block twice would be UB), frees that object's strings
    and leaves every string of every other object *)
Theorem C25_destroy : forall w G i g, str_history w G -> G !! i = Some g ->
  exists w', mem_destroy_strings w i = Ret w' /\ str_history w' (delete i G) /\
    minf w' = delete i (minf w) /\ (forall p b, (p, b) ∈ s_done g -> mblk w' !! p = None) /\
    (forall j g2 p b, j <> i -> G !! j = Some g2 -> (p, b) ∈ s_done g2 -> mblk w' !! p = Some b).
Proof. exact (fun w G i g H => sh_destroy_ok w G H i g). Qed.
Print Assumptions C25_destroy.

Theorem C25_no_leak : forall w, str_history w ∅ ->
  mblk w = ∅ /\ minf w = ∅ /\ stks (msh w) = ∅ /\ nodes (msh w) = ∅.
Proof. exact (fun w H => sh_no_leak w ∅ H eq_refl). Qed.
Print Assumptions C25_no_leak.

(** ** C26 *)
(** Any run of mem_grow calls (any pieces, any allocator behaviour in each call)
    followed by mem_finish returns the terminated concatenation of the pieces. *)
Theorem C26_grow_finish : forall al l w G i g, str_history w G -> run_ok l -> malloc_good al -> nodes_ok al ->
  G !! i = Some g -> room g (total l + 1) -> s_cur g = [] ->
  ok (fun '(w', p) => exists a, p = Some a /\ mblk w' !! a = Some (pieces l ++ [0%N]) /\
        str_history w' (<[i := stored g a (pieces l ++ [0%N]) (total l + 1)]> G))
     (exists al2, may_fail al2 /\ (al2 = al \/ exists src len, (al2, src, len) ∈ l))
     (w1 ← grow_all w i l; mem_finish al w1 i).
Proof. exact sh_grow_finish. Qed.
Print Assumptions C26_grow_finish.
Theorem C26_grow : forall w G al i g src len, str_history w G -> malloc_good al -> nodes_ok al -> G !! i = Some g ->
  0 <= len <= Z.of_nat (length src) -> room g len ->
  ok (fun w' => str_history w' (<[i := grown g (take (Z.to_nat len) src) len]> G))
     (may_fail al) (mem_grow al w i src len).
Proof. exact (fun w G al i g src len H => sh_grow_ok w G H al i g src len). Qed.
Print Assumptions C26_grow.
Theorem C26_finish : forall w G al i g, str_history w G -> malloc_good al -> nodes_ok al -> G !! i = Some g -> room g 1 ->
  ok (fun '(w', p) => exists a, p = Some a /\ str_history w' (<[i := stored g a (s_cur g ++ [0%N]) 1]> G))
     (may_fail al) (mem_finish al w i).
Proof. exact (fun w G al i g H => sh_finish_ok w G H al i g). Qed.
Print Assumptions C26_finish.

(** ** C27 *)
(** mem_strncpy copies exactly the [len + 1] bytes s[0..len] into a new block. *)
Theorem C27_strncpy : forall w G al i g src len, str_history w G -> malloc_good al -> nodes_ok al -> G !! i = Some g ->
  0 <= len < Z.of_nat (length src) -> room g (len + 1) ->
  ok (fun '(w', a) => str_history w' (<[i := stored g a (take (Z.to_nat len + 1) src) (len + 1)]> G) /\
        mblk w !! a = None /\ mblk w' = <[a := take (Z.to_nat len + 1) src]> (mblk w))
     (may_fail al) (mem_strncpy al w i src len).
Proof. exact (fun w G al i g src len H => sh_strncpy_ok w G H al i g src len). Qed.
Print Assumptions C27_strncpy.

(** so the copy is the first [len] bytes plus a terminator iff s[len] is NUL *)
Theorem C27_terminated_iff : forall (src : list N) (len : nat), (len < length src)%nat ->
  take (len + 1) src = take len src ++ [0%N] <-> src !! len = Some 0%N.
Proof.
  intros src len Hl. destruct (lookup_lt_is_Some_2 src len Hl) as [x Hx].
  rewrite Nat.add_1_r, (take_S_r _ _ _ Hx), Hx.
  split; [intros Ht; apply app_inj_2 in Ht as [_ Ht]; [injection Ht as ->; done|done]|by intros [= ->]].
Qed.
Print Assumptions C27_terminated_iff.

(** the documented use on an object of exactly [len] bytes reads out of bounds *)
Theorem C27_overread : forall w G al i g src len, str_history w G -> malloc_good al -> G !! i = Some g ->
  0 <= len < 2 ^ 31 - 1 -> Z.of_nat (length src) <= len -> ~ may_fail al ->
  mem_strncpy al w i src len = UB.
Proof. exact (fun w G al i g src len H => sh_overread w G H al i g src len). Qed.
Print Assumptions C27_overread.

(** ** a reachable case: strcpy "ab", grow "x" "" "yz", finish, strncpy "pq" 1 *)
Definition ex_mal : malloc :=
  MA bump bump bump (fun n h => (fun a => (a, replicate (N.to_nat n) 170%N)) <$> bump h).
Lemma ex_mal_ok : malloc_good ex_mal /\ nodes_ok ex_mal /\ ~ may_fail ex_mal.
Proof.
  split; [constructor; try apply bump_ok|split].
  - intros n h a b. unfold ex_mal. cbn [m_blk]. destruct (bump h) as [a'|] eqn:E; [|done].
    cbn. intros [= <- <-]. split; [by apply bump_ok|]. by rewrite replicate_length.
  - intros h. done.
  - intros (n & h & Hf). done.
Qed.
Example C25_reachable : exists w G g, str_history w G /\ G !! 1%positive = Some g /\
  s_done g = [(1%positive, [97; 98; 0]%N); (2%positive, [120; 121; 122; 0]%N); (3%positive, [112; 113]%N)] /\
  mem_get_string_stats true w (Some 1%positive) = Ret (3, 9) /\
  mblk w !! 2%positive = Some [120; 121; 122; 0]%N.
Proof.
  destruct ex_mal_ok as (Hal & Hn & _).
  assert (H : str_history mempty ∅) by constructor.
  eapply (sh_create ex_mal) in H; [|done|vm_compute; reflexivity].
  eapply (sh_strcpy ex_mal _ _ 1 _ [97; 98]%N []) in H; [|done|done|apply lookup_insert|by repeat constructor|split; vm_compute; reflexivity|vm_compute; reflexivity].
  eapply (sh_grow ex_mal _ _ 1 _ [120; 0]%N 1) in H; [|done|done|apply lookup_insert|cbn; lia|split; vm_compute; reflexivity|vm_compute; reflexivity].
  eapply (sh_grow ex_mal _ _ 1 _ [0]%N 0) in H; [|done|done|apply lookup_insert|cbn; lia|split; vm_compute; reflexivity|vm_compute; reflexivity].
  eapply (sh_grow ex_mal _ _ 1 _ [121; 122]%N 2) in H; [|done|done|apply lookup_insert|cbn; lia|split; vm_compute; reflexivity|vm_compute; reflexivity].
  eapply (sh_finish ex_mal _ _ 1) in H; [|done|done|apply lookup_insert|split; vm_compute; reflexivity|vm_compute; reflexivity].
  eapply (sh_strncpy ex_mal _ _ 1 _ [112; 113; 0]%N 1) in H; [|done|done|apply lookup_insert|cbn; lia|split; vm_compute; reflexivity|vm_compute; reflexivity].
  eexists _, _, _. split; [exact H|]. split; [apply lookup_insert|].
  split; [vm_compute; reflexivity|]. split; vm_compute; reflexivity.
Qed.
