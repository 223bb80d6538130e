(** Model of maa/arg.c: argument vectors on top of the string memory (MemModel).
    The table is maa/arggram.txt as compiled by maa/arggram2c. *)
From Verif Require Import Base CStr StackModel ObjModel MemModel.
Local Open Scope Z_scope.

(** struct Arg (arg.c:35-43).  The array argv is kept inside the struct (it is owned by
    it); an element is [None] until written. *)
Record arg := Arg { argc : Z; argm : Z; argv : list (option ptr); aobj : positive }.
Record aworld := AW { amem : mworld; args : gmap positive arg }.
Definition aempty : aworld := AW mempty ∅.

(** malloc during one call; [aa_vec n]: does the vector of n bytes get its memory *)
Record aalloc := AA {
  aa_arg : gmap positive arg -> option positive;
  aa_vec : N -> bool;
  aa_mem : malloc }.

(** _arg_check (arg.c:45-57) *)
Definition arg_check (w : aworld) (p : ptr) : res (positive * arg) :=
  match p with None => Abort | Some a => x ← hget (args w) a; Ret (a, x) end.

(** arg_create (arg.c:61-75) *)
Definition arg_create (al : aalloc) (w : aworld) : res (aworld * positive) :=
  match aa_arg al (args w) with
  | None => Fatal
  | Some a =>
      if aa_vec al 16 then
        v ← aset (replicate 2 None) 0 (Some None);
        '(m, i) ← mem_create_strings (aa_mem al) (amem w);
        Ret (AW m (<[a := Arg 0 2 v i]> (args w)), a)
      else Fatal
  end.

(** arg_destroy (arg.c:80-91) *)
Definition arg_destroy (w : aworld) (p : ptr) : res aworld :=
  '(a, x) ← arg_check w p;
  m ← mem_destroy_strings (amem w) (aobj x);
  ps ← hfree (args w) a;
  Ret (AW m ps).

(** the common end of arg_add, arg_addn and arg_finish (arg.c:102-108, 121-127,
    153-159): make room, store the pointer and the NULL after it *)
Definition arg_append (al : aalloc) (x : arg) (new : ptr) : res arg :=
  c2 ← sint (argc x + 2);
  '(m, v) ← (if argm x <=? c2 then
               m2 ← sint (argm x * 2);
               if aa_vec al (Z.to_N (8 * m2))
               then Ret (m2, take (Z.to_nat m2) (argv x) ++ replicate (Z.to_nat m2 - length (argv x)) None)
               else Fatal
             else Ret (argm x, argv x));
  v1 ← aset v (Z.to_nat (argc x)) (Some new);
  c ← sint (argc x + 1);
  v2 ← aset v1 (Z.to_nat c) (Some None);
  Ret (Arg c m v2 (aobj x)).

(** arg_add (arg.c:95-109) *)
Definition arg_add (al : aalloc) (w : aworld) (p : ptr) (string : list N) : res aworld :=
  '(a, x) ← arg_check w p;
  '(m, new) ← mem_strcpy (aa_mem al) (amem w) (aobj x) string;
  x' ← arg_append al x (Some new);
  Ret (AW m (<[a := x']> (args w))).
(** arg_addn (arg.c:114-128) *)
Definition arg_addn (al : aalloc) (w : aworld) (p : ptr) (string : list N) (len : Z) : res aworld :=
  '(a, x) ← arg_check w p;
  '(m, new) ← mem_strncpy (aa_mem al) (amem w) (aobj x) string len;
  x' ← arg_append al x (Some new);
  Ret (AW m (<[a := x']> (args w))).
(** arg_grow (arg.c:135-141) *)
Definition arg_grow (al : aalloc) (w : aworld) (p : ptr) (string : list N) (len : Z) : res aworld :=
  '(a, x) ← arg_check w p;
  m ← mem_grow (aa_mem al) (amem w) (aobj x) string len;
  Ret (AW m (args w)).
(** arg_finish (arg.c:146-160) *)
Definition arg_finish (al : aalloc) (w : aworld) (p : ptr) : res aworld :=
  '(a, x) ← arg_check w p;
  '(m, new) ← mem_finish (aa_mem al) (amem w) (aobj x);
  x' ← arg_append al x new;
  Ret (AW m (<[a := x']> (args w))).

(** arg_get (arg.c:164-175); reading an element never written is undefined *)
Definition arg_get (w : aworld) (p : ptr) (item : Z) : res ptr :=
  '(a, x) ← arg_check w p;
  if (item <? 0) || (item >=? argc x) then Abort else
  e ← aget (argv x) (Z.to_nat item);
  match e with Some q => Ret q | None => UB end.
(** arg_count (arg.c:179-183) *)
Definition arg_count (w : aworld) (p : ptr) : res Z := '(a, x) ← arg_check w p; Ret (argc x).
(** arg_get_vector (arg.c:188-195): argc and the array *)
Definition arg_get_vector (w : aworld) (p : ptr) : res (Z * list (option ptr)) :=
  '(a, x) ← arg_check w p; Ret (argc x, argv x).

(** maa/arggram.txt through maa/arggram2c: states SPACES 0, IN_DQ 1, IN_SQ 2, IN_TOK 3,
    IN_TOK_BS 4, EXIT -1, ERROR -2; character types DQ 0, SQ 1, OTHER 2, BS 3, NULL 4,
    SPACE 5; actions SKIP 0, INCLUDE 1, FINISH 2 *)
Definition action_table : list (list Z) :=
  [[0; 0; 1; 0; 2; 2];     (* ST_SPACES, arggram.txt:3-8 *)
   [0; 1; 1; 1; 2; 1];     (* ST_IN_DQ, arggram.txt:24-29 *)
   [1; 0; 1; 1; 2; 1];     (* ST_IN_SQ, arggram.txt:31-36 *)
   [0; 0; 1; 0; 2; 2];     (* ST_IN_TOK, arggram.txt:10-15 *)
   [1; 1; 1; 1; 2; 1]].    (* ST_IN_TOK_BS, arggram.txt:17-22 *)
Definition transition_table : list (list Z) :=
  [[1; 2; 3; 4; -1; 0];
   [0; 1; 1; 1; -2; 1];
   [2; 0; 2; 2; -2; 2];
   [1; 2; 3; 4; -1; 0];
   [3; 3; 3; 3; -2; 3]].
Definition table2 (t : list (list Z)) (i j : Z) : res Z :=
  r ← aget t (Z.to_nat i); aget r (Z.to_nat j).

(** maa.h:470-471 *)
Definition ARG_NO_ESCAPE : Z := 1.
Definition ARG_NO_QUOTE : Z := 2.
(** char2char_type (arg.c:213-242) *)
Definition char2char_type (quoteStyle : Z) (ch : N) : Z :=
  if (ch =? 34)%N then (if negb (Z.land ARG_NO_QUOTE quoteStyle =? 0) then 2 else 0)
  else if (ch =? 39)%N then (if negb (Z.land ARG_NO_QUOTE quoteStyle =? 0) then 2 else 1)
  else if (ch =? 92)%N then (if negb (Z.land ARG_NO_ESCAPE quoteStyle =? 0) then 2 else 3)
  else if (ch =? 32)%N || (ch =? 9)%N || (ch =? 13)%N || (ch =? 11)%N || (ch =? 10)%N then 5
  else if (ch =? 0)%N then 4
  else 2.

(** arg_argify (arg.c:245-308): [pt] and [last] are offsets into the string.  The loop ends
    at the NUL at the latest, so its length is enough fuel. *)
Section argify.
Context (al : aalloc) (quoteStyle : Z) (string : list N) (p : positive).
Fixpoint argify_loop (fuel : nat) (w : aworld) (last : option nat) (pt : nat) (state : Z) : res (aworld * Z) :=
  match fuel with
  | O => Diverge
  | S fuel' =>
      ch ← aget string pt;
      let ch_type := char2char_type quoteStyle ch in
      curr_act ← table2 action_table state ch_type;
      state' ← table2 transition_table state ch_type;
      '(w', last') ←
        (if curr_act =? 1 then
           Ret (w, match last with None => Some pt | Some l => Some l end)
         else if curr_act =? 0 then
           w1 ← match last with
                | Some l => arg_grow al w (Some p) (drop l string) (Z.of_nat pt - Z.of_nat l)
                | None => Ret w
                end;
           Ret (w1, Some (S pt))
         else if curr_act =? 2 then
           match last with
           | Some l =>
               w1 ← arg_grow al w (Some p) (drop l string) (Z.of_nat pt - Z.of_nat l);
               w2 ← arg_finish al w1 (Some p);
               Ret (w2, None)
           | None => Ret (w, last)
           end
         else Abort);
      if negb (ch =? 0)%N && (state' >=? 0) then argify_loop fuel' w' last' (S pt) state'
      else Ret (w', state')
  end.
End argify.
Definition arg_argify (al : aalloc) (w : aworld) (string : list N) (quoteStyle : Z) : res (aworld * positive) :=
  '(w0, p) ← arg_create al w;
  '(w1, state) ← argify_loop al quoteStyle string p (length string) w0 None 0 0;
  if (state =? -1) || (state =? -2) then Ret (w1, p) else Abort.
