(** Model of the code of maa/sl.c that is compiled when SL_DEBUG is not 0: the
    consistency check and the calls that make it. *)
From Verif Require Import Base StackModel ObjModel SkipModel.
Local Open Scope Z_scope.

Section Check.
Context {K : Type}.
Implicit Types (w : sworld K) (al : salloc K) (h : gmap positive entry).

(** the inner loop of _sl_dump (sl.c:475-476) over the first [n] forward pointers *)
Fixpoint slots (f : list (option ptr)) (n : nat) : res (list ptr) :=
  match n with
  | O => Ret []
  | S n' =>
      match f with
      | Some p :: f' => r ← slots f' n'; Ret (p :: r)
      | _ => UB
      end
  end.
(** the lines printed by the loop of _sl_dump (sl.c:465-482): address, number, datum, key
    and forward pointers.  The field levels of an entry (sl.c:55, 155) is maxLevel + 1,
    one less than the number of slots its block has room for. *)
Fixpoint dump_loop_dbg (key : ptr -> K) h (fuel : nat) (pt : ptr) (count : Z)
  : res (list (positive * Z * ptr * option K * list ptr)) :=
  match fuel with
  | O => Diverge
  | S fuel' =>
      match pt with
      | None => Ret []
      | Some a =>
          e ← hget h a;
          c ← sint (count + 1);
          s ← slots (forward e) (length (forward e) - 1);
          n ← fget h a 0;
          r ← dump_loop_dbg key h fuel' n c;
          Ret ((a, count, edatum e, match edatum e with None => None | Some _ => Some (key (edatum e)) end, s) :: r)
      end
  end.
(** _sl_dump (sl.c:456-483) *)
Definition sl_dump_dbg w (l : ptr) : res (nat * Z * list (positive * Z * ptr * option K * list ptr)) :=
  '(_, x) ← slget w l;
  r ← dump_loop_dbg (skey x) (sent w) (entry_fuel (sent w)) (Some (shead x)) 0;
  Ret (slevel x, scount x, r).
(** the loop of _sl_check (sl.c:119-132): counts the entries and compares the keys of
    neighbours; dumps the list and stops at the first pair that is out of order.  The
    arguments of the message are key addresses and are left out. *)
Fixpoint check_loop (cmp : K -> K -> Z) (key : ptr -> K) w (l : ptr) (fuel : nat) (pt : ptr) (count : Z) : res Z :=
  match fuel with
  | O => Diverge
  | S fuel' =>
      match pt with
      | None => Ret count
      | Some a =>
          c ← sint (count + 1);
          n ← fget (sent w) a 0;
          match n with
          | None => Ret tt
          | Some q =>
              e ← hget (sent w) a; e' ← hget (sent w) q;
              if 0 <=? cmp (key (edatum e)) (key (edatum e')) then _ ← sl_dump_dbg w l; Abort else Ret tt
          end ;;
          check_loop cmp key w l fuel' n c
      end
  end.
(** _sl_check (sl.c:112-137) *)
Definition sl_check w (l : ptr) : res unit :=
  '(_, x) ← slget w l;
  p ← fget (sent w) (shead x) 0;
  c ← check_loop (scmp x) (skey x) w l (entry_fuel (sent w)) p 0;
  if c =? scount x then Ret tt else Abort.

(** sl_insert (sl.c:289-324): _sl_locate checks first (sl.c:275), and line 323 checks
    last.  Calling random() and the key function before the first check has no other effect. *)
Definition sl_insert_dbg al (rnd : nat -> N) w (l d : ptr) : res (sworld K) :=
  sl_check w l ;; w' ← sl_insert al rnd w l d; sl_check w' l ;; Ret w'.
(** sl_delete (sl.c:328-359), checks at 275 and 358.  Before it stops on a datum that is not
    in the list it dumps the list; [sl_delete] does that with the dump of the other build. *)
Definition sl_delete_dbg w (l d : ptr) : res (sworld K) :=
  sl_check w l ;; w' ← sl_delete w l d; sl_check w' l ;; Ret w'.
(** sl_find (sl.c:364-376), check at 275 *)
Definition sl_find_dbg w (l : ptr) (k : K) : res ptr := sl_check w l ;; sl_find w l k.
(** sl_iterate (sl.c:383-413) and sl_iterate_arg (sl.c:420-451): NULL is answered before
    anything is checked; the check at 410 and 448 is reached when no callback answered
    non-zero, that is when the answer is 0.  _sl_check_entry (sl.c:93-106, called at 441)
    only tests for NULL, which the loop excludes, and the magic number of a live entry. *)
Definition sl_iterate_dbg {X} (f : X -> sworld K -> ptr -> res (X * sworld K * Z)) (s : X) w (l : ptr)
  : res (X * sworld K * Z) :=
  '(s', w', r) ← sl_iterate f s w l;
  match l with
  | None => Ret (s', w', r)
  | Some _ => if r =? 0 then sl_check w' l ;; Ret (s', w', r) else Ret (s', w', r)
  end.

End Check.
