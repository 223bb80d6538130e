(** Property C60: the allocation wrappers.  [bl] is the heap: the live blocks and their
    bytes; [al] any allocator that gives blocks that are not in use and have the size asked
    for ([blocks_ok]).  A result is always an address, never NULL. *)
From Verif Require Import Base CStr StackModel ObjModel MemModel MemProofs XmallocModel Alloc.
Local Open Scope N_scope.
Implicit Types bl : gmap positive (list N).

Definition blocks_ok (al : malloc) : Prop :=
  forall n h a b, m_blk al n h = Some (a, b) -> h !! a = None /\ length b = N.to_nat n.

(** xmalloc: a new block of the size asked for, the others untouched; or out of memory. *)
Theorem C60_xmalloc al bl n : blocks_ok al ->
  match xmalloc al bl n with
  | Ret (bl', a) => bl !! a = None /\ (exists junk, length junk = N.to_nat n /\ bl' = <[a := junk]> bl)
  | Fatal => m_blk al n bl = None
  | _ => False
  end.
Proof.
  intros Hal. unfold xmalloc. destruct (m_blk al n bl) as [[a junk]|] eqn:E; [|done]. destruct (Hal _ _ _ _ E) as [H1 H2].
  split; [done|]. by exists junk.
Qed.
(** xcalloc: a new block of [num * size] zeros; a product that is no size_t is fatal. *)
Theorem C60_xcalloc al bl num size : blocks_ok al ->
  match xcalloc al bl num size with
  | Ret (bl', a) => num * size < 2 ^ 64 /\ bl !! a = None /\ bl' = <[a := replicate (N.to_nat (num * size)) 0]> bl
  | Fatal => 2 ^ 64 <= num * size \/ m_blk al (num * size) bl = None
  | _ => False
  end.
Proof.
  intros Hal. unfold xcalloc, c_calloc. destruct (N.ltb_spec (num * size) (2 ^ 64)); [|by left].
  destruct (m_blk al (num * size) bl) as [[a junk]|] eqn:E; [|by right]. destruct (Hal _ _ _ _ E) as [H1 H2]. done.
Qed.
(** xrealloc of a live block: the bytes both sizes have stay, the old block is gone unless
    it is the new one, the others are untouched. *)
Theorem C60_xrealloc al bl a old n : blocks_ok al -> bl !! a = Some old ->
  match xrealloc al bl (Some a) n with
  | Ret (bl', a') => (a' = a \/ bl !! a' = None) /\ (a' <> a -> bl' !! a = None) /\
      (exists b, bl' !! a' = Some b /\ length b = N.to_nat n /\
         forall i, (i < length old)%nat -> (i < N.to_nat n)%nat -> b !! i = old !! i) /\
      (forall c, c <> a -> c <> a' -> bl' !! c = bl !! c)
  | Fatal => m_blk al n (delete a bl) = None
  | _ => False
  end.
Proof.
  intros Hal Ha. unfold xrealloc, hget. rewrite Ha. rb. destruct (m_blk al n (delete a bl)) as [[a' junk]|] eqn:E; [|done].
  destruct (Hal _ _ _ _ E) as [H1 H2]. split.
  { destruct (decide (a' = a)); [by left|]. right. by rewrite lookup_delete_ne in H1. }
  split; [intros Hn; rewrite lookup_insert_ne by done; apply lookup_delete|]. split.
  - eexists. split; [apply lookup_insert|]. split.
    + rewrite app_length, take_length, drop_length. lia.
    + intros i Hi Hn. rewrite lookup_app_l by (rewrite take_length; lia). by rewrite lookup_take by done.
  - intros c H3 H4. by rewrite lookup_insert_ne, lookup_delete_ne.
Qed.
(** of NULL: xmalloc; of a freed block: undefined *)
Lemma xrealloc_null al bl n : xrealloc al bl None n = xmalloc al bl n.
Proof. done. Qed.
Lemma xrealloc_freed al bl a n : bl !! a = None -> xrealloc al bl (Some a) n = UB.
Proof. intros H. unfold xrealloc, hget. by rewrite H. Qed.
(** xfree: NULL is fatal; a live block is freed and nothing else changes; freeing again is
    undefined *)
Theorem C60_xfree bl a b : bl !! a = Some b -> xfree bl None = Fatal /\
  exists bl', xfree bl (Some a) = Ret bl' /\ bl' !! a = None /\ (forall c, c <> a -> bl' !! c = bl !! c) /\ xfree bl' (Some a) = UB.
Proof.
  intros Ha. split; [done|]. exists (delete a bl). unfold xfree, hfree. rewrite Ha. split; [done|]. split; [apply lookup_delete|].
  split; [intros c Hc; by rewrite lookup_delete_ne|]. by rewrite lookup_delete.
Qed.
(** xstrdup: a new block with exactly the string and its NUL *)
Theorem C60_xstrdup al bl s rest : blocks_ok al -> str_ok s ->
  match xstrdup al bl (s ++ 0 :: rest) with
  | Ret (bl', a) => bl !! a = None /\ bl' = <[a := s ++ [0]]> bl
  | Fatal => m_blk al (N.of_nat (length s) + 1) bl = None
  | _ => False
  end.
Proof.
  intros Hal Hs. unfold xstrdup. rewrite c_string_spec by done. rb. unfold xmalloc.
  replace (N.of_nat (length s + 1)) with (N.of_nat (length s) + 1) by lia.
  destruct (m_blk al (N.of_nat (length s) + 1) bl) as [[a junk]|] eqn:E; [|done]. rb. destruct (Hal _ _ _ _ E) as [H1 H2].
  unfold hget. rewrite lookup_insert. rb. unfold c_memcpy. rewrite (proj2 (Nat.leb_le _ _)) by (rewrite app_length; cbn [length]; lia).
  rewrite (proj2 (Nat.leb_le _ _)) by lia. cbn [andb]. rb. split; [done|]. rewrite insert_insert. f_equal.
  rewrite take_0. cbn [app]. rewrite drop_ge by lia. rewrite app_nil_r. rewrite take_app_ge by lia. f_equal.
  by replace (length s + 1 - length s)%nat with 1%nat by lia.
Qed.
Print Assumptions C60_xmalloc.
Print Assumptions C60_xcalloc.
Print Assumptions C60_xrealloc.
Print Assumptions C60_xfree.
Print Assumptions C60_xstrdup.

(** ** example: an allocator with 4 bytes in all *)
Definition ex_small : malloc :=
  MA bump bump bump (fun n h => if (n <=? 4) && (size h =? 0)%nat then match bump h with Some a => Some (a, replicate (N.to_nat n) 7) | None => None end else None).
Lemma ex_small_ok : blocks_ok ex_small.
Proof.
  intros n h a b. cbn [ex_small m_blk]. destruct (_ && _); [|done]. destruct (bump h) as [a'|] eqn:E; [|done]. intros [= <- <-].
  split; [by apply (bump_ok h)|by rewrite replicate_length].
Qed.
Example ex_xm : exists bl' a, xstrdup ex_small ∅ [104; 105; 0; 9] = Ret (bl', a) /\ bl' !! a = Some [104; 105; 0].
Proof. eexists _, _. split; [vm_compute; reflexivity|]. vm_compute. reflexivity. Qed.
Example ex_re : exists bl' a, xrealloc ex_small {[5%positive := [1; 2; 3; 4; 5; 6]]} (Some 5%positive) 4 = Ret (bl', a) /\ a = 1%positive /\ bl' !! a = Some [1; 2; 3; 4].
Proof. eexists _, _. split; [vm_compute; reflexivity|]. split; vm_compute; reflexivity. Qed.
Example ex_oom : xmalloc ex_small ∅ 5 = Fatal /\ xcalloc ex_small ∅ (2 ^ 40) (2 ^ 40) = Fatal.
Proof. by vm_compute. Qed.
