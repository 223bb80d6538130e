(** Model of the object pools of maa/memory.c (257-379).  Blocks are cells of some
    type [B]; [list N] gives byte blocks.  The list routines reuse the model with
    [B] the list node type. *)
From Verif Require Import Base StackModel.
Local Open Scope Z_scope.

(** struct objectInfo (memory.c:46-56); magic is constant while the object lives *)
Record oinfo := OInfo { total : Z; used : Z; reused : Z; osize : Z; ostack : positive; oallocated : positive }.
Global Instance oinfo_eq_dec : EqDecision oinfo.
Proof. solve_decision. Defined.

Record oworld B := OW { osh : sheap; oblk : gmap positive B; oinf : gmap positive oinfo }.
Arguments OW {B}. Arguments osh {B}. Arguments oblk {B}. Arguments oinf {B}.
Definition oempty {B} : oworld B := OW sempty ∅ ∅.

(** what malloc does during one call: for info objects, stacks, stack nodes and
    blocks of a size (whose contents are unspecified) *)
Record oalloc B := OA {
  al_info : gmap positive oinfo -> option positive;
  al_stk : stk_alloc;
  al_node : node_alloc;
  al_blk : N -> gmap positive B -> option (positive * B) }.
Arguments OA {B}. Arguments al_info {B}. Arguments al_stk {B}. Arguments al_node {B}. Arguments al_blk {B}.

(** conversion of an int to size_t *)
Definition size_t (z : Z) : N := Z.to_N (z mod 2 ^ 64).

Section Obj.
Context {B : Type}.
Implicit Types (al : oalloc B) (w : oworld B).

(** mem_create_objects (memory.c:257-272) *)
Definition mem_create_objects al w (size : Z) : res (oworld B * positive) :=
  match al_info al (oinf w) with
  | None => Fatal
  | Some i =>
      '(h1, s1) ← stk_create (al_stk al) (osh w);
      '(h2, s2) ← stk_create (al_stk al) h1;
      Ret (OW h2 (oblk w) (<[i := OInfo 0 0 0 size s1 s2]> (oinf w)), i)
  end.

(** xfree (xmalloc.c:61-65) of a block *)
Definition xfree_blk (bl : gmap positive B) (p : ptr) : res (gmap positive B) :=
  match p with None => Fatal | Some a => hfree bl a end.

(** memory.c:288-290: while (!stk_isempty(s)) xfree(stk_pop(s)) *)
Fixpoint free_all (fuel : nat) (h : sheap) (s : positive) (bl : gmap positive B)
  : res (sheap * gmap positive B) :=
  match fuel with
  | O => Diverge
  | S fuel' =>
      e ← stk_isempty h s;
      if e =? 0 then
        '(h', p) ← stk_pop h s; bl' ← xfree_blk bl p; free_all fuel' h' s bl'
      else Ret (h, bl)
  end.

(** mem_destroy_objects (memory.c:279-295) *)
Definition mem_destroy_objects w (ia : positive) : res (oworld B) :=
  i ← hget (oinf w) ia;
  '(h1, bl) ← free_all (S (size (nodes (osh w)))) (osh w) (oallocated i) (oblk w);
  h2 ← stk_destroy h1 (oallocated i);
  h3 ← stk_destroy h2 (ostack i);
  inf ← hfree (oinf w) ia;
  Ret (OW h3 bl inf).

(** mem_get_object (memory.c:303-321) *)
Definition mem_get_object al w (ia : positive) : res (oworld B * positive) :=
  i ← hget (oinf w) ia;
  '(h1, obj) ← stk_pop (osh w) (ostack i);
  match obj with
  | None =>
      match al_blk al (size_t (osize i)) (oblk w) with
      | None => Fatal
      | Some (a, junk) =>
          h2 ← stk_push (al_node al) h1 (oallocated i) (Some a);
          t ← sint (total i + 1);
          u ← sint (used i + 1);
          Ret (OW h2 (<[a := junk]> (oblk w))
                  (<[ia := OInfo t u (reused i) (osize i) (ostack i) (oallocated i)]> (oinf w)), a)
      end
  | Some a =>
      r ← sint (reused i + 1);
      u ← sint (used i + 1);
      Ret (OW h1 (oblk w) (<[ia := OInfo (total i) u r (osize i) (ostack i) (oallocated i)]> (oinf w)), a)
  end.

(** mem_free_object (memory.c:341-349) *)
Definition mem_free_object al w (ia : positive) (obj : ptr) : res (oworld B) :=
  i ← hget (oinf w) ia;
  h1 ← stk_push (al_node al) (osh w) (ostack i) obj;
  u ← sint (used i - 1);
  Ret (OW h1 (oblk w) (<[ia := OInfo (total i) u (reused i) (osize i) (ostack i) (oallocated i)]> (oinf w))).

(** mem_get_object_stats (memory.c:355-375), the four fields of the result;
    [None] is a NULL argument (memory.c:242-251: aborts, MAA_MAGIC is on);
    [mem]: did xmalloc succeed *)
Definition mem_get_object_stats (mem : bool) w (ia : ptr) : res (Z * Z * Z * Z) :=
  if mem then
    match ia with
    | None => Abort
    | Some a => i ← hget (oinf w) a; Ret (total i, used i, reused i, osize i)
    end
  else Fatal.

End Obj.

(** memset(obj, 0, n) *)
Definition c_memset0 (b : list N) (n : N) : res (list N) :=
  if (n <=? N.of_nat (length b))%N then Ret (replicate (N.to_nat n) 0%N ++ drop (N.to_nat n) b) else UB.

(** mem_get_empty_object (memory.c:326-334) *)
Definition mem_get_empty_object (al : oalloc (list N)) (w : oworld (list N)) (ia : positive)
  : res (oworld (list N) * positive) :=
  '(w', a) ← mem_get_object al w ia;
  i ← hget (oinf w') ia;
  b ← hget (oblk w') a;
  b' ← c_memset0 b (size_t (osize i));
  Ret (OW (osh w') (<[a := b']> (oblk w')) (oinf w'), a).
