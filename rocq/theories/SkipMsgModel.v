(** What the calls of maa/sl.c print when they refuse: the lists of SkipMagicModel.v with
    the field print, in a program whose output and log are those of LogModel.v.  malloc
    failures stay [Fatal] (xmalloc.c's own message is not spelled out here). *)
From Verif Require Import Base StackModel ObjModel SkipModel SkipMagicModel LogModel.
From Coq Require Import String Ascii.
Notation length := List.length.
Local Open Scope Z_scope.

(** what printf makes of %p and %d, and of a line of _sl_dump (sl.c:478-481) *)
Record fmt K := Fmt { f_p : ptr -> list N; f_d : Z -> list N; f_line : positive * Z * ptr * option K -> list N }.
Arguments Fmt {K}. Arguments f_p {K}. Arguments f_d {K}. Arguments f_line {K}.
Definition str (s : string) : list N := N_of_ascii <$> list_ascii_of_string s.
(** %08x of an unsigned int: eight digits *)
Definition hexdig (d : N) : N := (if d <? 10 then 48 + d else 87 + d)%N.
Fixpoint hex (n : nat) (x : N) : list N :=
  match n with O => [] | S n' => hex n' (x / 16)%N ++ [hexdig (x mod 16)%N] end.

(** the field print (sl.c:69) of the blocks of the pool; a print function is a total
    function of the datum, as compare and key are *)
Record pworld K := PW { pbase : mworld K; pprint : gmap positive (option (ptr -> list N)) }.
Arguments PW {K}. Arguments pbase {K}. Arguments pprint {K}.
Definition pempty {K} : pworld K := PW mempty ∅.

Definition lift {A} (r : res A) : M A := fun w => a ← r; Ret (w, Go a).

Section Msg.
Context {K : Type} (o : os) (T : fmt K).
Implicit Types (W : pworld K) (al : salloc K).

(** _sl_check_list (sl.c:78-88) *)
Definition pcheck W (l : ptr) (function : list N) : M positive :=
  match l with
  | None => err_internal o (Some function) (str "skip list is null")
  | Some a =>
      m <- lift (hget (mmagic (pbase W)) a) ;
      if (m =? SL_LIST_MAGIC)%N then ret a
      else err_internal o (Some function) (str "Bad magic: 0x" ++ hex 8 m ++ str " (should be 0x" ++ hex 8 SL_LIST_MAGIC ++ str ")")
  end.
(** PRINT (sl.c:76) and _sl_print (sl.c:261-268), whose buffer of 1024 bytes holds any %p *)
Definition print_datum W (a : positive) (d : ptr) : res (list N) :=
  p ← hget (pprint W) a; Ret (match p with Some f => f d | None => f_p T d end).
(** _sl_dump (sl.c:456-483) after its _sl_check_list; the lines are recorded as one output *)
Definition print_dump W (l : ptr) : M unit :=
  r <- lift (sl_dump (mbase (pbase W)) l) ;
  emit (EPrint Stdout (str "Level = " ++ f_d T (Z.of_nat r.1.1) ++ str ", count = " ++ f_d T r.1.2 ++ [10%N] ++
                       List.concat (f_line T <$> r.2))).

(** sl_create (sl.c:172-202); the tests follow the making of the pool *)
Definition psl_create al W (cmp : option (K -> K -> Z)) (key : option (ptr -> K)) (print : option (ptr -> list N))
  : M (pworld K * positive) :=
  lift (match smem (mbase (pbase W)) with
        | None => '(_, _) ← mem_create_objects (sa_obj al) (sobj (mbase (pbase W))) sizeof_sl; Ret tt
        | Some _ => Ret tt
        end) ;>
  match cmp, key with
  | None, _ => err_internal o (Some (str "sl_create")) (str "compare function is NULL")
  | _, None => err_internal o (Some (str "sl_create")) (str "key function is NULL")
  | Some cmp, Some key =>
      r <- lift (msl_create al (pbase W) (Some cmp) (Some key)) ;
      ret (PW r.1 (<[r.2 := print]> (pprint W)), r.2)
  end.

(** sl.c:302-307, 340-345: is there a datum with the key of [d]?  The calls below search
    again in SkipModel.v's sl_insert and sl_delete: same lists, same answer. *)
Definition looks W (l : ptr) (d : ptr) : res bool :=
  '(_, x) ← slget (mbase (pbase W)) l;
  '(pt, _) ← locate x (sent (mbase (pbase W))) (skey x d) update0;
  is_at x (sent (mbase (pbase W))) pt (skey x d).
(** sl_insert (sl.c:289-324) *)
Definition psl_insert al (rnd : nat -> N) W (l d : ptr) : M (pworld K) :=
  a <- pcheck W l (str "sl_insert") ;
  dup <- lift (looks W l d) ;
  if (dup : bool) then
    t <- lift (print_datum W a d) ;
    err_internal o (Some (str "sl_insert")) (str "Datum """ ++ t ++ str """ is already in list")
  else w' <- lift (msl_insert al rnd (pbase W) l d) ; ret (PW w' (pprint W)).
(** sl_delete (sl.c:328-359) *)
Definition psl_delete W (l d : ptr) : M (pworld K) :=
  a <- pcheck W l (str "sl_delete") ;
  here <- lift (looks W l d) ;
  if (here : bool) then w' <- lift (msl_delete (pbase W) l d) ; ret (PW w' (pprint W))
  else
    print_dump W l ;>
    t <- lift (print_datum W a d) ;
    err_internal o (Some (str "sl_delete")) (str "Datum """ ++ t ++ str """ is not in list").
(** sl_find (sl.c:364-376) *)
Definition psl_find W (l : ptr) (k : K) : M ptr :=
  pcheck W l (str "sl_find") ;> lift (msl_find (pbase W) l k).
(** sl_destroy (sl.c:209-227) *)
Definition psl_destroy al W (l : ptr) : M (pworld K) :=
  pcheck W l (str "sl_destroy") ;> (w' <- lift (msl_destroy al (pbase W) l) ; ret (PW w' (pprint W))).
(** _sl_dump (sl.c:456-483) *)
Definition psl_dump W (l : ptr) : M unit := pcheck W l (str "_sl_dump") ;> print_dump W l.
(** sl_iterate (sl.c:383-413); sl_iterate_arg (sl.c:420-451) when [arg]; the callback of
    this model changes nothing of the library's *)
Definition psl_iterate {X} (arg : bool) (f : X -> ptr -> X * Z) (s : X) W (l : ptr) : M (X * Z) :=
  match l with
  | None => ret (s, 0)
  | Some _ =>
      pcheck W l (str (if arg then "sl_iterate_arg" else "sl_iterate")) ;>
      (r <- lift (msl_iterate (fun s w d => Ret ((f s d).1, w, (f s d).2)) s (pbase W) l) ; ret (r.1.1, r.2))
  end.
(** _sl_shutdown (sl.c:233-237) *)
Definition psl_shutdown W : M (pworld K) :=
  w' <- lift (msl_shutdown (pbase W)) ;
  ret (PW w' (match smem (mbase (pbase W)) with Some _ => ∅ | None => pprint W end)).
End Msg.
