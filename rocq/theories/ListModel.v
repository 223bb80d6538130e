(** Model of maa/list.c and of the list iteration macros of maa/maa.h.  List nodes
    come from one object pool shared by all lists (the static [mem]); the pool is the
    model of memory.c with list nodes as blocks.  A datum is a pointer and is never
    dereferenced. *)
From Verif Require Import Base StackModel ObjModel.
Local Open Scope Z_scope.

(** struct data (list.c:38-41) *)
Record cell := Cell { datum : ptr; next : ptr }.
Global Instance cell_eq_dec : EqDecision cell.
Proof. solve_decision. Defined.
(** struct list (list.c:43-50); magic is constant while the list lives *)
Record lhdr := LH { lhead : ptr; ltail : ptr; lcount : N }.
Global Instance lhdr_eq_dec : EqDecision lhdr.
Proof. solve_decision. Defined.

(** the statics mem and _lst_allocated (list.c:52-53) and the heap *)
Record lworld := LW { lmem : ptr; lobj : oworld cell; lhs : gmap positive lhdr; ltotal : Z }.
Definition lempty : lworld := LW None oempty ∅ 0.

(** malloc during one call *)
Record lalloc := LA { la_list : gmap positive lhdr -> option positive; la_obj : oalloc cell }.

(** sizeof (struct list), sizeof (struct data) under LP64 *)
Definition sizeof_list : Z := 32.
Definition sizeof_data : Z := 16.
(** result of a signed long operation *)
Definition slong (z : Z) : res Z := if (- 2 ^ 63 <=? z) && (z <=? 2 ^ 63 - 1) then Ret z else UB.

(** _lst_check (list.c:55-65) of a non-null argument: a live list passes *)
Definition lget (w : lworld) (l : ptr) : res (positive * lhdr) :=
  match l with None => Abort | Some a => x ← hget (lhs w) a; Ret (a, x) end.

(** lst_total_allocated (list.c:67-70) *)
Definition lst_total_allocated (w : lworld) : Z := ltotal w.

(** lst_create (list.c:74-89) *)
Definition lst_create (al : lalloc) (w : lworld) : res (lworld * positive) :=
  match la_list al (lhs w) with
  | None => Fatal
  | Some l =>
      t ← slong (ltotal w + sizeof_list);
      let hs := <[l := LH None None 0]> (lhs w) in
      match lmem w with
      | None => '(o, m) ← mem_create_objects (la_obj al) (lobj w) sizeof_data;
                Ret (LW (Some m) o hs t, l)
      | Some m => Ret (LW (Some m) (lobj w) hs t, l)
      end
  end.

(** _lst_shutdown (list.c:91-95) *)
Definition lst_shutdown (w : lworld) : res lworld :=
  match lmem w with
  | None => Ret w
  | Some m => o ← mem_destroy_objects (lobj w) m; Ret (LW None o (lhs w) (ltotal w))
  end.

(** mem_get_object / mem_free_object on the static mem; a NULL pool aborts
    (memory.c:242-251) *)
Definition get_node (al : lalloc) (w : lworld) : res (oworld cell * positive) :=
  match lmem w with None => Abort | Some m => mem_get_object (la_obj al) (lobj w) m end.
Definition free_node (al : lalloc) (m : ptr) (o : oworld cell) (d : positive) : res (oworld cell) :=
  match m with None => Abort | Some m => mem_free_object (la_obj al) o m (Some d) end.

(** node accesses *)
Definition nget (o : oworld cell) (d : positive) : res cell := hget (oblk o) d.
Definition nset (o : oworld cell) (d : positive) (c : cell) : res (oworld cell) :=
  b ← hset (oblk o) d c; Ret (OW (osh o) b (oinf o)).

(** the loops freeing a chain: list.c:108-112, 304-309, 341-346.  [cnt] is l->count,
    decremented per node in the last two and unused in the first. *)
Fixpoint free_nodes (al : lalloc) (m : ptr) (fuel : nat) (o : oworld cell) (d : ptr) (cnt : N)
  : res (oworld cell * N) :=
  match fuel with
  | O => Diverge
  | S fuel' =>
      match d with
      | None => Ret (o, cnt)
      | Some a => c ← nget o a; o1 ← free_node al m o a; free_nodes al m fuel' o1 (next c) (u32_dec cnt)
      end
  end.
Definition node_fuel (w : lworld) : nat := S (size (oblk (lobj w))).

(** lst_destroy (list.c:101-118) *)
Definition lst_destroy (al : lalloc) (w : lworld) (l : ptr) : res lworld :=
  '(a, x) ← lget w l;
  '(o, _) ← free_nodes al (lmem w) (node_fuel w) (lobj w) (lhead x) 0;
  hs ← hfree (lhs w) a;
  Ret (LW (lmem w) o hs (ltotal w)).

(** lst_append (list.c:122-145); NULL list: returns; assert: abort *)
Definition lst_append (al : lalloc) (w : lworld) (l : ptr) (dt : ptr) : res lworld :=
  match l with
  | None => Ret w
  | Some _ =>
      '(o, d) ← get_node al w;
      t ← slong (ltotal w + sizeof_data);
      '(a, x) ← lget w l;
      o1 ← nset o d (Cell dt None);
      o2 ← (match ltail x with
            | Some tl => c ← nget o1 tl;
                match next c with
                | None => nset o1 tl (Cell (datum c) (Some d))
                | Some _ => Abort
                end
            | None => Ret o1
            end);
      let hd := match lhead x with None => Some d | Some _ => lhead x end in
      Ret (LW (lmem w) o2 (<[a := LH hd (Some d) (u32 (lcount x + 1))]> (lhs w)) t)
  end.

(** lst_push (list.c:149-162) *)
Definition lst_push (al : lalloc) (w : lworld) (l : ptr) (dt : ptr) : res lworld :=
  '(o, d) ← get_node al w;
  t ← slong (ltotal w + sizeof_data);
  '(a, x) ← lget w l;
  o1 ← nset o d (Cell dt (lhead x));
  let tl := match ltail x with None => Some d | Some _ => ltail x end in
  Ret (LW (lmem w) o1 (<[a := LH (Some d) tl (u32 (lcount x + 1))]> (lhs w)) t).

(** lst_pop (list.c:167-185) *)
Definition lst_pop (al : lalloc) (w : lworld) (l : ptr) : res (lworld * ptr) :=
  '(a, x) ← lget w l;
  match lhead x with
  | Some old =>
      c ← nget (lobj w) old;
      let tl := match next c with None => None | Some _ => ltail x end in
      o ← free_node al (lmem w) (lobj w) old;
      Ret (LW (lmem w) o (<[a := LH (next c) tl (u32_dec (lcount x))]> (lhs w)) (ltotal w), datum c)
  | None => Ret (w, None)
  end.

(** lst_top (list.c:191-201) *)
Definition lst_top (w : lworld) (l : ptr) : res ptr :=
  '(a, x) ← lget w l;
  match lhead x with Some d => c ← nget (lobj w) d; Ret (datum c) | None => Ret None end.

(** for (i = 1, d = l->head; i < n && d; i++, d = d->next);  (list.c:215, 238, 431) *)
Fixpoint nth_loop (o : oworld cell) (fuel : nat) (i n : N) (d : ptr) : res (N * ptr) :=
  match fuel with
  | O => Diverge
  | S fuel' =>
      match d with
      | Some a => if (i <? n)%N then c ← nget o a; nth_loop o fuel' (u32 (i + 1)) n (next c) else Ret (i, d)
      | None => Ret (i, d)
      end
  end.

(** lst_nth_position (list.c:422-436); i != n: err_internal aborts *)
Definition lst_nth_position (w : lworld) (l : ptr) (n : N) : res ptr :=
  '(a, x) ← lget w l;
  if ((n <? 1) || (lcount x <? n))%N then Ret None
  else '(i, d) ← nth_loop (lobj w) (node_fuel w) 1 n (lhead x);
       if negb (i =? n)%N then Abort else Ret d.
(** lst_nth_get (list.c:206-220) *)
Definition lst_nth_get (w : lworld) (l : ptr) (n : N) : res ptr :=
  '(a, x) ← lget w l;
  if ((n <? 1) || (lcount x <? n))%N then Ret None
  else '(i, d) ← nth_loop (lobj w) (node_fuel w) 1 n (lhead x);
       if negb (i =? n)%N then Abort else
       match d with Some b => c ← nget (lobj w) b; Ret (datum c) | None => UB end.
(** lst_nth_set (list.c:227-244); out of range: err_fatal *)
Definition lst_nth_set (w : lworld) (l : ptr) (n : N) (dt : ptr) : res lworld :=
  '(a, x) ← lget w l;
  if ((n <? 1) || (lcount x <? n))%N then Fatal
  else '(i, d) ← nth_loop (lobj w) (node_fuel w) 1 n (lhead x);
       if negb (i =? n)%N then Abort else
       match d with
       | Some b => c ← nget (lobj w) b; o ← nset (lobj w) b (Cell dt (next c));
                   Ret (LW (lmem w) o (lhs w) (ltotal w))
       | None => UB
       end.

(** lst_member (list.c:251-262) *)
Fixpoint member_loop (o : oworld cell) (fuel : nat) (d : ptr) (dt : ptr) : res Z :=
  match fuel with
  | O => Diverge
  | S fuel' =>
      match d with
      | None => Ret 0
      | Some a => c ← nget o a; if decide (datum c = dt) then Ret 1 else member_loop o fuel' (next c) dt
      end
  end.
Definition lst_member (w : lworld) (l : ptr) (dt : ptr) : res Z :=
  '(a, x) ← lget w l; member_loop (lobj w) (node_fuel w) (lhead x) dt.

(** lst_length (list.c:266-272) *)
Definition lst_length (w : lworld) (l : ptr) : res N := '(a, x) ← lget w l; Ret (lcount x).

(** for (i = 1, d = l->head; i < length && d; d = d->next);  (list.c:293): i stays 1 *)
Fixpoint trunc_loop (o : oworld cell) (fuel : nat) (i n : N) (d : ptr) : res ptr :=
  match fuel with
  | O => Diverge
  | S fuel' =>
      match d with
      | Some a => if (i <? n)%N then c ← nget o a; trunc_loop o fuel' i n (next c) else Ret d
      | None => Ret d
      end
  end.

(** lst_truncate (list.c:277-312) *)
Definition lst_truncate (al : lalloc) (w : lworld) (l : ptr) (n : N) : res lworld :=
  '(a, x) ← lget w l;
  if (lcount x <=? n)%N then Ret w
  else
    '(o, hd, tl, nx) ←
      (if (n =? 0)%N then Ret (lobj w, None, None, lhead x)
       else
         d ← trunc_loop (lobj w) (node_fuel w) 1 n (lhead x);
         match d with
         | None => UB
         | Some b => c ← nget (lobj w) b; o ← nset (lobj w) b (Cell (datum c) None);
                     Ret (o, lhead x, Some b, next c)
         end);
    '(o', cnt) ← free_nodes al (lmem w) (node_fuel w) o nx (lcount x);
    if negb (cnt =? n)%N then Abort
    else Ret (LW (lmem w) o' (<[a := LH hd tl cnt]> (lhs w)) (ltotal w)).

(** lst_truncate_position (list.c:320-347) *)
Definition lst_truncate_position (al : lalloc) (w : lworld) (l : ptr) (pos : ptr) : res lworld :=
  '(a, x) ← lget w l;
  '(o, hd, tl, nx) ←
    (match pos with
     | None => Ret (lobj w, None, None, lhead x)
     | Some b => c ← nget (lobj w) b; o ← nset (lobj w) b (Cell (datum c) None);
                 Ret (o, lhead x, Some b, next c)
     end);
  '(o', cnt) ← free_nodes al (lmem w) (node_fuel w) o nx (lcount x);
  Ret (LW (lmem w) o' (<[a := LH hd tl cnt]> (lhs w)) (ltotal w)).

(** lst_init_position, lst_last_position (list.c:387-405) *)
Definition lst_init_position (w : lworld) (l : ptr) : res ptr := '(a, x) ← lget w l; Ret (lhead x).
Definition lst_last_position (w : lworld) (l : ptr) : res ptr := '(a, x) ← lget w l; Ret (ltail x).
(** lst_next_position (list.c:411-417) *)
Definition lst_next_position (w : lworld) (p : ptr) : res ptr :=
  match p with None => Ret None | Some d => c ← nget (lobj w) d; Ret (next c) end.
(** lst_get_position (list.c:441-447) *)
Definition lst_get_position (w : lworld) (p : ptr) : res ptr :=
  match p with None => Ret None | Some d => c ← nget (lobj w) d; Ret (datum c) end.
(** lst_set_position (list.c:452-457) *)
Definition lst_set_position (w : lworld) (p : ptr) (dt : ptr) : res lworld :=
  match p with
  | None => Ret w
  | Some d => c ← nget (lobj w) d; o ← nset (lobj w) d (Cell dt (next c));
              Ret (LW (lmem w) o (lhs w) (ltotal w))
  end.

(** lst_iterate, lst_iterate_arg (list.c:354-381): the callback has a state [X] of
    its own and may call the library. *)
Section iterate.
Context {X : Type} (it : X -> lworld -> ptr -> res (X * lworld * Z)).
Fixpoint iter_loop (fuel : nat) (s : X) (w : lworld) (d : ptr) : res (X * lworld * Z) :=
  match fuel with
  | O => Diverge
  | S fuel' =>
      match d with
      | None => Ret (s, w, 0)
      | Some a =>
          c ← nget (lobj w) a;
          '(s1, w1, r) ← it s w (datum c);
          if negb (r =? 0) then Ret (s1, w1, 1)
          else c1 ← nget (lobj w1) a; iter_loop fuel' s1 w1 (next c1)
      end
  end.
Definition lst_iterate (fuel : nat) (s : X) (w : lworld) (l : ptr) : res (X * lworld * Z) :=
  '(a, x) ← lget w l; iter_loop fuel s w (lhead x).

(** LST_ITERATE (maa.h:296-299) with body [it] (its result: non-zero is a break) *)
Fixpoint for_loop (fuel : nat) (s : X) (w : lworld) (p : ptr) : res (X * lworld) :=
  match fuel with
  | O => Diverge
  | S fuel' =>
      match p with
      | None => Ret (s, w)
      | Some _ =>
          e ← lst_get_position w p;
          '(s1, w1, r) ← it s w e;
          if negb (r =? 0) then Ret (s1, w1)
          else p1 ← lst_next_position w1 p; for_loop fuel' s1 w1 p1
      end
  end.
Definition LST_ITERATE (fuel : nat) (s : X) (w : lworld) (l : ptr) : res (X * lworld) :=
  p ← lst_init_position w l; for_loop fuel s w p.
End iterate.

(** LST_ITERATE2 (maa.h:302-306) *)
Section iterate2.
Context {X : Type} (it : X -> lworld -> ptr -> ptr -> res (X * lworld * Z)).
Fixpoint for_loop2 (fuel : nat) (s : X) (w : lworld) (p1 p2 : ptr) : res (X * lworld) :=
  match fuel with
  | O => Diverge
  | S fuel' =>
      match p1, p2 with
      | Some _, Some _ =>
          e1 ← lst_get_position w p1;
          e2 ← lst_get_position w p2;
          '(s1, w1, r) ← it s w e1 e2;
          if negb (r =? 0) then Ret (s1, w1)
          else q1 ← lst_next_position w1 p1; q2 ← lst_next_position w1 p2; for_loop2 fuel' s1 w1 q1 q2
      | _, _ => Ret (s, w)
      end
  end.
Definition LST_ITERATE2 (fuel : nat) (s : X) (w : lworld) (l1 l2 : ptr) : res (X * lworld) :=
  p1 ← lst_init_position w l1; p2 ← lst_init_position w l2; for_loop2 fuel s w p1 p2.
End iterate2.
