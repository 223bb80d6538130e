(** Model of maa/prime.c.  [unsigned int] is 32 bits and wraps. *)
From Verif Require Import Base.
Local Open Scope N_scope.

(** prime.c:52-58.  One test of the loop condition
    [square < value && value % divisor], with the loop body on success and the
    final [return value % divisor != 0] on failure. *)
Definition is_prime_step (value : N) (st : N * N) : (N * N) + res bool :=
  let '(divisor, square) := st in
  match umod value divisor with
  | Ret r =>
      if (square <? value) && negb (r =? 0) then
        let divisor1 := u32 (divisor + 1) in              (* ++divisor *)
        let square1 := u32 (square + u32 (4 * divisor1)) in (* square += 4*divisor *)
        let divisor2 := u32 (divisor1 + 1) in             (* ++divisor *)
        inl (divisor2, square1)
      else inr (Ret (negb (r =? 0)))
  | _ => inr UB
  end.

(** Iterations allowed to the loops below.  Running out is reported as
    [Diverge]; [prm_is_prime_total] and [prm_next_prime_total] show that it
    never happens. *)
Definition prime_fuel : positive := (2 ^ 33)%positive.

(** prime.c:43-59.  The result 1/0 is a boolean. *)
Definition prm_is_prime (value : N) : res bool :=
  let divisor := 3 in
  let square := u32 (divisor * divisor) in
  if value =? 2 then Ret true else
  if value =? 3 then Ret true else
  if N.land value 1 =? 0 then Ret false else
  match iter_pos prime_fuel (is_prime_step value) (divisor, square) with
  | inl _ => Diverge
  | inr r => r
  end.

(** prime.c:68, one round of the [for]. *)
Definition next_prime_step (next : N) : N + res N :=
  match prm_is_prime next with
  | Ret true => inr (Ret next)
  | Ret false => inl (u32 (next + 2))
  | Fatal => inr Fatal | Abort => inr Abort | UB => inr UB | Diverge => inr Diverge
  end.

(** prime.c:64-70.  The argument is an [unsigned int]: callers passing an
    [unsigned long] convert with [u32] first. *)
Definition prm_next_prime (start : N) : res N :=
  match iter_pos prime_fuel next_prime_step (N.lor start 1) with
  | inl _ => Diverge
  | inr r => r
  end.
