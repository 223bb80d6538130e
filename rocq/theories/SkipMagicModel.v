(** The magic number of a skip list (maa/sl.c with MAA_MAGIC).  The memory of a destroyed
    list stays in the pool of lists, so a call on it reads the field magic and is caught.
    The calls of SkipModel.v are made after the test of the field. *)
From Verif Require Import Base StackModel ObjModel SkipModel.
Local Open Scope Z_scope.

(** maa.h:61-62; the field is compared as an unsigned int *)
Definition SL_LIST_MAGIC : N := 0xabcdef01.
Definition SL_LIST_MAGIC_FREED : N := 0xbadcfe10.

(** a world of lists and the field magic (sl.c:62) of the blocks of the pool.  The magic
    number of an entry (sl.c:51) is tested only under SL_DEBUG, and never after the entry was freed. *)
Record mworld K := MW { mbase : sworld K; mmagic : gmap positive N }.
Arguments MW {K}. Arguments mbase {K}. Arguments mmagic {K}.
Definition mempty {K} : mworld K := MW sempty_world ∅.

Section Magic.
Context {K : Type}.
Implicit Types (w : mworld K) (al : salloc K).

(** _sl_check_list (sl.c:78-88) *)
Definition mcheck w (l : ptr) : res unit :=
  match l with
  | None => Abort
  | Some a => m ← hget (mmagic w) a; if (m =? SL_LIST_MAGIC)%N then Ret tt else Abort
  end.

(** sl_create (sl.c:172-202); the field is set at 190 *)
Definition msl_create al w (cmp : option (K -> K -> Z)) (key : option (ptr -> K)) : res (mworld K * positive) :=
  '(w', l) ← sl_create al (mbase w) cmp key; Ret (MW w' (<[l := SL_LIST_MAGIC]> (mmagic w)), l).
(** sl_destroy (sl.c:209-227); the field is set at 224 *)
Definition msl_destroy al w (l : ptr) : res (mworld K) :=
  mcheck w l ;;
  match l with
  | None => Abort
  | Some a => w' ← sl_destroy al (mbase w) l; Ret (MW w' (<[a := SL_LIST_MAGIC_FREED]> (mmagic w)))
  end.
(** _sl_shutdown (sl.c:233-237): the pool's memory is gone *)
Definition msl_shutdown w : res (mworld K) :=
  w' ← sl_shutdown (mbase w);
  Ret (MW w' (match smem (mbase w) with Some _ => ∅ | None => mmagic w end)).
(** sl_insert, sl_delete, sl_find, _sl_dump (sl.c:299, 336, 370, 462) *)
Definition msl_insert al rnd w (l d : ptr) : res (mworld K) :=
  mcheck w l ;; w' ← sl_insert al rnd (mbase w) l d; Ret (MW w' (mmagic w)).
Definition msl_delete w (l d : ptr) : res (mworld K) :=
  mcheck w l ;; w' ← sl_delete (mbase w) l d; Ret (MW w' (mmagic w)).
Definition msl_find w (l : ptr) (k : K) : res ptr := mcheck w l ;; sl_find (mbase w) l k.
Definition msl_dump w (l : ptr) := mcheck w l ;; sl_dump (mbase w) l.
(** sl_iterate, sl_iterate_arg (sl.c:393-394, 430-431); the callback works on this world *)
Definition msl_iterate {X} (f : X -> mworld K -> ptr -> res (X * mworld K * Z)) (s : X) w (l : ptr)
  : res (X * mworld K * Z) :=
  match l with
  | None => Ret (s, w, 0)
  | Some _ =>
      mcheck w l ;;
      '(s', m', v', r) ← sl_iterate (fun '(s, m) v d =>
          '(s', v', r) ← f s (MW v m) d; Ret ((s', mmagic v'), mbase v', r)) (s, mmagic w) (mbase w) l;
      Ret (s', MW v' m', r)
  end.
End Magic.
