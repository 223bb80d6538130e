(** tests/list/listtest.c.  The pointer n + 1 stands for the string constant of
    the digit n.  The last loop of the test (10000 pushes that print nothing)
    does 500 here. *)
From Coq Require Import String.
From Verif Require Import Base CStr Replay ObjModel ListModel ListProps.
Notation length := List.length.
Local Open Scope Z_scope.
Definition str (n : Z) : ptr := Some (Z.to_pos (n + 1)).
Definition show (d : ptr) : bytes := match d with Some p => num (Z.pos p - 1) | None => text "?" end.
Definition print (o : bytes) (w : lworld) (d : ptr) : res (bytes * lworld * Z) := Ret (o ++ show d ++ sp, w, 0).
Definition all (w : lworld) (l : ptr) : res (bytes * lworld) := '(o, w', _) ← lst_iterate print 1000 [] w l; Ret (o ++ nl, w').
Definition len (w : lworld) (l : ptr) (e : string) : res bytes :=
  n ← lst_length w l; Ret (text "Length = " ++ num (Z.of_N n) ++ text " (expect " ++ text e ++ text ")" ++ nl).
Fixpoint pushes (n : nat) (w : lworld) (l : ptr) : res lworld :=
  match n with
  | O => Ret w
  | S n' => w' ← pushes n' w l; lst_push ex_lal w' l (match n' with O => None | _ => Some (Pos.of_nat n') end)
  end.
(** after lst_shutdown (called by maa_shutdown) nothing is left allocated *)
Definition listtest : res bytes :=
  '(w, a) ← lst_create ex_lal lempty; let l := Some a in
  w ← lst_append ex_lal w l (str 1);
  '(o1, w) ← all w l;
  w ← lst_append ex_lal w l (str 2); w ← lst_append ex_lal w l (str 3);
  '(o2, w) ← all w l;
  w ← lst_push ex_lal w l (str 0);
  '(o3, w) ← all w l; l1 ← len w l "4";
  '(o4, w) ← LST_ITERATE print 1000 [] w l;
  '(w, _) ← lst_pop ex_lal w l;
  '(o5, w) ← all w l; l2 ← len w l "3";
  w ← lst_truncate ex_lal w l 1;
  '(o6, w) ← all w l; l3 ← len w l "1";
  w ← pushes 500 w l;
  w ← lst_destroy ex_lal w l;
  w ← lst_shutdown w;
  if decide (oblk (lobj w) = ∅ /\ lhs w = ∅) then Ret (o1 ++ o2 ++ o3 ++ l1 ++ o4 ++ nl ++ o5 ++ l2 ++ o6 ++ l3) else UB.
Example listtest_expect : listtest = Ret (text "1 
1 2 3 
0 1 2 3 
Length = 4 (expect 4)
0 1 2 3 
1 2 3 
Length = 3 (expect 3)
1 
Length = 1 (expect 1)
").
Proof. vm_compute. reflexivity. Qed.
