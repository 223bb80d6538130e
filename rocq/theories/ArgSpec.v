(** The quoting grammar of arg_argify, as documented at arg.c:197-201 and maa.h:470-471 (independent of the
    model): blanks separate words; '..' and ".." group literally; outside quotes a backslash
    takes the next character literally; adjacent pieces form one word. *)
From Verif Require Import Base.
Local Open Scope N_scope.

Section grammar.
Context (esc quo : bool).   (* are backslash escapes / quotes recognised? *)

Definition blank (c : N) : Prop := c = 32 \/ c = 9 \/ c = 13 \/ c = 11 \/ c = 10.
Definition special (c : N) : Prop := (quo = true /\ (c = 34 \/ c = 39)) \/ (esc = true /\ c = 92).

(** [piece t v]: the text [t] contributes the characters [v] to a word *)
Inductive piece : list N -> list N -> Prop :=
| p_plain c : ~ blank c -> ~ special c -> piece [c] [c]
| p_esc c : esc = true -> piece [92; c] [c]
| p_dquote s : quo = true -> 34 ∉ s -> piece (34 :: s ++ [34]) s
| p_squote s : quo = true -> 39 ∉ s -> piece (39 :: s ++ [39]) s.

(** what may stand at the very end: a lone backslash, a quote never closed *)
Inductive open_piece : list N -> list N -> Prop :=
| o_esc : esc = true -> open_piece [92] []
| o_dquote s : quo = true -> 34 ∉ s -> open_piece (34 :: s) s
| o_squote s : quo = true -> 39 ∉ s -> open_piece (39 :: s) s.

(** a word is one or more pieces *)
Inductive word : list N -> list N -> Prop :=
| w_one t v : piece t v -> word t v
| w_more t v t' v' : piece t v -> word t' v' -> word (t ++ t') (v ++ v').
(** the last word may end with an open piece *)
Inductive last_word : list N -> list N -> Prop :=
| lw_word t v : word t v -> last_word t v
| lw_open t v : open_piece t v -> last_word t v
| lw_more t v t' v' : piece t v -> last_word t' v' -> last_word (t ++ t') (v ++ v').

(** [line s ws]: the command line [s] has the words [ws] *)
Inductive line : list N -> list (list N) -> Prop :=
| l_nil : line [] []
| l_blank c s ws : blank c -> line s ws -> line (c :: s) ws
| l_last t v : last_word t v -> line t [v]
| l_word t v c s ws : word t v -> blank c -> line s ws -> line (t ++ c :: s) (v :: ws).
End grammar.

(** the styles of maa.h:470-471: bit 0 disables escapes, bit 1 disables quotes *)
Definition escapes (style : Z) : bool := negb (Z.testbit style 0).
Definition quotes (style : Z) : bool := negb (Z.testbit style 1).

(** ** Ways to quote a word (default style) *)
Definition escape_word (v : list N) : list N := concat ((fun c => [92; c]) <$> v).
Inductive quoting : list N -> list N -> Prop :=
| q_escape v : v <> [] -> quoting v (escape_word v)
| q_dquote v : 34 ∉ v -> quoting v (34 :: v ++ [34])
| q_squote v : 39 ∉ v -> quoting v (39 :: v ++ [39])
| q_plain v : v <> [] -> Forall (fun c => ~ blank c /\ c <> 34 /\ c <> 39 /\ c <> 92) v -> quoting v v.
(** texts joined by at least one blank each *)
Inductive joined : list (list N) -> list N -> Prop :=
| j_nil : joined [] []
| j_one t : joined [t] t
| j_more t b bs l s : blank b -> Forall blank bs -> joined l s -> joined (t :: l) (t ++ b :: bs ++ s).
