(** Model of maa/stack.c.  Any number of stacks live in one store; a datum is a
    [void *] ([None] is NULL).  [struct stack] is its only field, the pointer to
    the top node. *)
From Verif Require Import Base.

(** struct data (stack.c:37-40) *)
Record node := Node { datum : ptr; prev : ptr }.
Global Instance node_eq_dec : EqDecision node.
Proof. solve_decision. Defined.

(** the live [struct stack] and [struct data] objects (stack.c:37-44) *)
Record sheap := SHeap { stks : gmap positive ptr; nodes : gmap positive node }.
Definition sempty : sheap := SHeap ∅ ∅.

(** the results of malloc for the two kinds of objects *)
Notation stk_alloc := (gmap positive ptr -> option positive).
Notation node_alloc := (gmap positive node -> option positive).

(** stk_create (stack.c:48-56) *)
Definition stk_create (al : stk_alloc) (h : sheap) : res (sheap * positive) :=
  match al (stks h) with
  | None => Fatal
  | Some s => Ret (SHeap (<[s := None]> (stks h)) (nodes h), s)
  end.

(** stk_isempty (stack.c:104-113) *)
Definition stk_isempty (h : sheap) (s : positive) : res Z :=
  p ← hget (stks h) s; Ret (match p with Some _ => 0%Z | None => 1%Z end).

(** stk_push (stack.c:73-81); malloc is not checked: a write through NULL *)
Definition stk_push (al : node_alloc) (h : sheap) (s : positive) (d : ptr) : res sheap :=
  match al (nodes h) with
  | None => UB
  | Some a =>
      p ← hget (stks h) s;
      Ret (SHeap (<[s := Some a]> (stks h)) (<[a := Node d p]> (nodes h)))
  end.

(** stk_pop (stack.c:86-101) *)
Definition stk_pop (h : sheap) (s : positive) : res (sheap * ptr) :=
  p ← hget (stks h) s;
  match p with
  | None => Ret (h, None)
  | Some old =>
      n ← hget (nodes h) old;
      let st' := <[s := prev n]> (stks h) in
      nodes' ← hfree (nodes h) old;
      Ret (SHeap st' nodes', datum n)
  end.

(** stk_top (stack.c:119-127) *)
Definition stk_top (h : sheap) (s : positive) : res ptr :=
  p ← hget (stks h) s;
  match p with
  | None => Ret None
  | Some a => n ← hget (nodes h) a; Ret (datum n)
  end.

(** stk_destroy (stack.c:62-69); the loop runs at most once per node and once
    more to find the stack empty, so [S (size nodes)] tests suffice unless it
    never ends *)
Fixpoint stk_destroy_loop (fuel : nat) (h : sheap) (s : positive) : res sheap :=
  match fuel with
  | O => Diverge
  | S fuel' =>
      e ← stk_isempty h s;
      if (e =? 0)%Z then x ← stk_pop h s; stk_destroy_loop fuel' (fst x) s else Ret h
  end.
Definition stk_destroy (h : sheap) (s : positive) : res sheap :=
  h' ← stk_destroy_loop (S (size (nodes h))) h s;
  st' ← hfree (stks h') s;
  Ret (SHeap st' (nodes h')).
