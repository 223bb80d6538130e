(** The Soundex code (Knuth, TAOCP 3, 1973, pp. 391-392, as text.c documents it; a letter
    that is not coded separates equal codes). *)
From Verif Require Import Base.
Local Open Scope N_scope.

(** the letters of a string, as numbers 0..25 *)
Definition letter (c : N) : option N :=
  if decide (65 <= c <= 90) then Some (c - 65) else if decide (97 <= c <= 122) then Some (c - 97) else None.
Definition letters (s : list N) : list N := omap letter s.
(** b f p v: 1; c g j k q s x z: 2; d t: 3; l: 4; m n: 5; r: 6; others: none *)
Definition groups : list (N * list N) :=
  [(1, [1; 5; 15; 21]); (2, [2; 6; 9; 10; 16; 18; 23; 25]); (3, [3; 19]); (4, [11]); (5, [12; 13]); (6, [17])].
Definition code (l : N) : N :=
  match list_find (fun g : N * list N => l ∈ g.2) groups with Some (_, g) => g.1 | None => 0 end.
(** the digits: codes of the letters after the first that differ from the code before *)
Fixpoint digits_after (previous : N) (cs : list N) : list N :=
  match cs with
  | [] => []
  | c :: cs' => (if decide (c <> 0 /\ c <> previous) then [c] else []) ++ digits_after c cs'
  end.
Definition soundex (s : list N) : list N :=
  match letters s with
  | [] => [90; 48; 48; 48]
  | l :: ls =>
      (65 + l) :: take 3 (((fun d => 48 + d) <$> digits_after (code l) (code <$> ls)) ++ [48; 48; 48])
  end.
