(** C22: stack.c.  [stk_history h G]: the store [h] is reached by some sequence of
    create, push, pop and destroy calls on any number of stacks, each with any
    allocator, and [G] gives the contents (top first) those calls imply for each
    live stack. *)
From Verif Require Import Base StackModel StackProofs Alloc.

Theorem C22_top : forall h G s l, stk_history h G -> G !! s = Some l -> stk_top h s = Ret (hd None l).
Proof. exact (fun h G s l H => h_top h G H s l). Qed.
Print Assumptions C22_top.

Theorem C22_isempty : forall h G s l, stk_history h G -> G !! s = Some l ->
  stk_isempty h s = Ret (if decide (l = []) then 1%Z else 0%Z).
Proof. exact (fun h G s l H => h_isempty h G H s l). Qed.
Print Assumptions C22_isempty.

(** the popped datum; the store after it is [stk_history h' (<[s := tail l]> G)] *)
Theorem C22_pop : forall h G s l, stk_history h G -> G !! s = Some l ->
  exists h', stk_pop h s = Ret (h', hd None l) /\ stk_history h' (<[s := tail l]> G).
Proof.
  intros h G s l H HG. destruct (h_pop h G H s l HG) as [h' E].
  exists h'. exact (conj E (sk_pop h G h' s l _ H HG E)).
Qed.
Print Assumptions C22_pop.

(** push: undefined (write through NULL) exactly when malloc fails *)
Theorem C22_push : forall al h G s l d, stk_history h G -> malloc_ok al -> G !! s = Some l ->
  match al (nodes h) with
  | None => stk_push al h s d = UB
  | Some _ => exists h', stk_push al h s d = Ret h' /\ stk_history h' (<[s := d :: l]> G)
  end.
Proof.
  intros al h G s l d H Hal HG. pose proof (h_push h G H al s l d Hal HG) as Hp.
  destruct (al (nodes h)); [|exact Hp]. destruct Hp as [h' E].
  exists h'. exact (conj E (sk_push al h G h' s l d H Hal HG E)).
Qed.
Print Assumptions C22_push.

Theorem C22_create : forall al h G, stk_history h G -> malloc_ok al ->
  match al (stks h) with
  | None => stk_create al h = Fatal
  | Some s => G !! s = None /\ exists h', stk_create al h = Ret (h', s) /\ stk_history h' (<[s := []]> G)
  end.
Proof.
  intros al h G H Hal. pose proof (h_create h G H al Hal) as Hp.
  destruct (al (stks h)); [|exact Hp]. destruct Hp as [HG [h' E]].
  exact (conj HG (ex_intro _ h' (conj E (sk_create al h G h' _ H Hal E)))).
Qed.
Print Assumptions C22_create.

(** destroy frees the stack object and exactly one node per element *)
Theorem C22_destroy : forall h G s l, stk_history h G -> G !! s = Some l ->
  exists h', stk_destroy h s = Ret h' /\ stk_history h' (delete s G) /\
    stks h' = delete s (stks h) /\ nodes h' ⊆ nodes h /\ size (nodes h) = size (nodes h') + length l.
Proof.
  intros h G s l H HG. destruct (h_destroy h G H s l HG) as [h' [E R]].
  exists h'. exact (conj E (conj (sk_destroy h G h' s l H HG E) R)).
Qed.
Print Assumptions C22_destroy.

Theorem C22_no_leak : forall h G, stk_history h G -> (forall s l, G !! s = Some l -> l = []) -> nodes h = ∅.
Proof. exact h_no_leak. Qed.
Print Assumptions C22_no_leak.

(** two stacks, three pushes, one of them NULL, one pop *)
Definition ex_stk : res sheap :=
  '(h, s) ← stk_create bump sempty; '(h, t) ← stk_create bump h;
  h ← stk_push bump h s (Some 7%positive); h ← stk_push bump h t (Some 8%positive);
  h ← stk_push bump h s None; '(h, _) ← stk_pop h t; Ret h.
Example C22_reachable : exists h G, ex_stk = Ret h /\ stk_history h G /\
  G !! 1%positive = Some [None; Some 7%positive] /\ G !! 2%positive = Some [] /\
  stk_top h 1%positive = Ret None /\ stk_push full h 1%positive None = UB.
Proof.
  assert (H : stk_history sempty ∅) by constructor.
  eapply (sk_create bump) in H; [|apply bump_ok|vm_compute; reflexivity].
  eapply (sk_create bump) in H; [|apply bump_ok|vm_compute; reflexivity].
  eapply (sk_push bump _ _ _ 1 _ (Some 7%positive)) in H; [|apply bump_ok|reflexivity|vm_compute; reflexivity].
  eapply (sk_push bump _ _ _ 2 _ (Some 8%positive)) in H; [|apply bump_ok|reflexivity|vm_compute; reflexivity].
  eapply (sk_push bump _ _ _ 1 _ None) in H; [|apply bump_ok|reflexivity|vm_compute; reflexivity].
  eapply (sk_pop _ _ _ 2) in H; [|reflexivity|vm_compute; reflexivity].
  eexists _, _. split; [vm_compute; reflexivity|]. split; [exact H|].
  split; [reflexivity|]. split; [reflexivity|]. split; vm_compute; reflexivity.
Qed.
