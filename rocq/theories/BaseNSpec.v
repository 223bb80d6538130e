(** Numerals: what b26/b64 strings mean, independently of the tables. *)
From Verif Require Import Base.
Local Open Scope N_scope.

(** 'a'..'z' *)
Definition d26 (c : N) : option N := if (97 <=? c) && (c <=? 122) then Some (c - 97) else None.
(** 'A'..'Z' 'a'..'z' '0'..'9' '+' '/' *)
Definition d64 (c : N) : option N :=
  if (65 <=? c) && (c <=? 90) then Some (c - 65)
  else if (97 <=? c) && (c <=? 122) then Some (c - 71)
  else if (48 <=? c) && (c <=? 57) then Some (c + 4)
  else if c =? 43 then Some 62 else if c =? 47 then Some 63 else None.

(** [means d b s v]: all characters of [s] are digits, and it is [v] in base [b],
    most significant digit first *)
Fixpoint value (d : N -> option N) (b : N) (acc : N) (s : list N) : option N :=
  match s with
  | [] => Some acc
  | c :: s' => match d c with Some x => value d b (acc * b + x) s' | None => None end
  end.
Definition means (d : N -> option N) (b : N) (s : list N) (v : N) : Prop := value d b 0 s = Some v.
(** the shortest numeral: no leading zero, except for 0 itself *)
Definition shortest (d : N -> option N) (s : list N) : Prop :=
  s <> [] /\ (forall c c' s', s = c :: c' :: s' -> d c <> Some 0).
