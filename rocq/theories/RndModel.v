(** Model of maa/rnd.c, a generator of repeatable numbers for test programs (in the source
    tree, not in the library).  A double is given by the integer [x] of its value
    x / 2^200: every double met here is such a value (0, or of magnitude above 2^-20), and
    the operations on them round to 53 significant bits, to nearest, ties to even. *)
From Verif Require Import Base RndTable.
Local Open Scope Z_scope.

Definition MAXRND : Z := 5000.
Definition scale : Z := 2 ^ 200.
(** n / d to the nearest integer, ties to even; d > 0 *)
Definition nearest_even (n d : Z) : Z :=
  let q := n / d in let r := n mod d in
  if 2 * r <? d then q else if d <? 2 * r then q + 1 else if Z.even q then q else q + 1.
(** rounding to a double (IEEE 754 binary64; no overflow or underflow here) *)
Definition rd (x : Z) : Z :=
  if Z.abs x <? 2 ^ 53 then x
  else let s := Z.log2 (Z.abs x) - 52 in Z.sgn x * (nearest_even (Z.abs x) (2 ^ s) * 2 ^ s).
(** the double that the compiler makes of the decimal k / 10^6 *)
Definition decimal (k : Z) : Z := rd (k * scale / 1000000).

(** static int randpt (rnd.c:752); init_rand (757-760) *)
Definition randpt0 : Z := 0.
Definition init_rand (randpt : Z) : Z := 1.
(** get_rand (rnd.c:762-778): the new randpt, and the value.  ul - ll is an int; the
    conversion of a double out of the range of int is undefined. *)
Definition get_rand (randpt ll ul : Z) : res (Z * Z) :=
  k ← aget rnd (Z.to_nat randpt);
  let randpt' := randpt + 1 in
  if randpt' >=? MAXRND then Abort else
  d ← sint (ul - ll);
  let product := rd (decimal k * d) in
  let sum := rd (ll * scale + product) in
  val ← sint (sum / scale);
  if val >? ul then Abort else
  if val <? ll then Abort else
  Ret (randpt', val).
