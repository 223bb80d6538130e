(** What the test programs may expect of rnd.c. *)
From Verif Require Import Base RndTable RndModel.
Local Open Scope Z_scope.

(** an int *)
Definition is_int (z : Z) : Prop := - 2 ^ 31 <= z < 2 ^ 31.
(** [x / 2^200] is a double: 53 significant bits *)
Definition is_double (x : Z) : Prop := exists m e, 0 <= e /\ Z.abs m < 2 ^ 53 /\ x = m * 2 ^ e.
(** the real number ll + (k / 10^6) (ul - ll), times 10^6 *)
Definition point (k ll ul : Z) : Z := 1000000 * ll + k * (ul - ll).
(** [v] is the point rounded down; rounding errors of the doubles may only turn a point
    that is an integer into the integer before it *)
Definition drawn (k ll ul v : Z) : Prop :=
  v = point k ll ul / 1000000 \/
  ((1000000 | point k ll ul) /\ v = point k ll ul / 1000000 - 1).
(** a program: init_rand, then get_rand with these bounds; the values *)
Fixpoint draws (randpt : Z) (bounds : list (Z * Z)) : res (list Z) :=
  match bounds with
  | [] => Ret []
  | (ll, ul) :: l => '(i, v) ← get_rand randpt ll ul; r ← draws i l; Ret (v :: r)
  end.
(** proper bounds: the width is an int *)
Definition bounds_ok (b : Z * Z) : Prop := is_int b.1 /\ is_int b.2 /\ b.1 <= b.2 /\ is_int (b.2 - b.1).
