(** Model of the rest of maa/xmalloc.c (xmalloc, xrealloc and xstrdup are in MemModel.v). *)
From Verif Require Import Base CStr StackModel ObjModel MemModel.
Local Open Scope N_scope.

(** calloc: a product of 2^64 or more cannot be had; the block is zeroed *)
Definition c_calloc (al : malloc) (bl : gmap positive (list N)) (num size : N) : option (positive * list N) :=
  if num * size <? 2 ^ 64 then
    match m_blk al (num * size) bl with
    | Some (a, _) => Some (a, replicate (N.to_nat (num * size)) 0)
    | None => None
    end
  else None.
(** xcalloc (xmalloc.c:40-48) *)
Definition xcalloc (al : malloc) (bl : gmap positive (list N)) (num size : N) : res (gmap positive (list N) * positive) :=
  match c_calloc al bl num size with None => Fatal | Some (a, b) => Ret (<[a := b]> bl, a) end.
(** xfree (xmalloc.c:62-66) *)
Definition xfree (bl : gmap positive (list N)) (p : ptr) : res (gmap positive (list N)) :=
  match p with None => Fatal | Some a => hfree bl a end.
