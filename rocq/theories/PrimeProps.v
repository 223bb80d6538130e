(** C16, C17: prm_is_prime and prm_next_prime on all 2^32 arguments.
    [prime] is the standard library's (Coq.ZArith.Znumtheory). *)
From Verif Require Import Base PrimeModel PrimeProofs.
From Coq Require Import Znumtheory.
Local Open Scope N_scope.

(** C16.  On every 32-bit argument prm_is_prime returns (it neither loops nor
    divides by zero), and says "prime" exactly for the primes other than
    4294967291, and for 1. *)
Theorem C16_prm_is_prime : forall v, v < 2 ^ 32 ->
  exists b, prm_is_prime v = Ret b /\
    (b = true <-> (prime (Z.of_N v) /\ v <> 4294967291) \/ v = 1).
Proof. exact prm_is_prime_correct. Qed.
Print Assumptions C16_prm_is_prime.

(** The excluded value really is a prime that the code rejects. *)
Theorem C16_prm_is_prime_wrong_at_4294967291 :
  prime 4294967291 /\ prm_is_prime 4294967291 = Ret false.
Proof. exact (conj prime_4294967291 prm_is_prime_big). Qed.
Print Assumptions C16_prm_is_prime_wrong_at_4294967291.

Theorem C16_prm_is_prime_wrong_at_1 : ~ prime 1 /\ prm_is_prime 1 = Ret true.
Proof. exact (conj not_prime_1 eq_refl). Qed.
Print Assumptions C16_prm_is_prime_wrong_at_1.

(** C17.  The smallest odd prime >= start, for 2 <= start <= 4294967279. *)
Theorem C17_prm_next_prime : forall s, 2 <= s <= 4294967279 ->
  exists p, prm_next_prime s = Ret p /\
    s <= p <= 4294967279 /\ (exists k, p = 2 * k + 1) /\ prime (Z.of_N p) /\
    forall q, s <= q < p -> (exists k, q = 2 * k + 1) -> ~ prime (Z.of_N q).
Proof. exact prm_next_prime_correct. Qed.
Print Assumptions C17_prm_next_prime.

(** Outside that range the answer is 1. *)
Theorem C17_prm_next_prime_outside : forall s, s < 2 ^ 32 ->
  4294967279 < s \/ s <= 1 -> prm_next_prime s = Ret 1.
Proof. exact prm_next_prime_wrap. Qed.
Print Assumptions C17_prm_next_prime_outside.

(** Non-vacuity: concrete values in range. *)
Example C16_ex1 : prm_is_prime 91 = Ret false. Proof. vm_compute. reflexivity. Qed.
Example C16_ex2 : prm_is_prime 65537 = Ret true. Proof. vm_compute. reflexivity. Qed.
Example C17_ex1 : prm_next_prime 24 = Ret 29. Proof. vm_compute. reflexivity. Qed.
Example C17_ex2 : prm_next_prime 2 = Ret 3. Proof. vm_compute. reflexivity. Qed.
