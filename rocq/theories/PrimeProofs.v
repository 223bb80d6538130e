From Verif Require Import Base PrimeModel.
From Coq Require Import Znumtheory.
Local Open Scope N_scope.
Local Ltac Zify.zify_post_hook ::= Z.div_mod_to_equations.

(** Generic loop rule: an invariant indexed by a decreasing measure. *)
Lemma iter_nat_inv {T R} (step : T -> T + R) (I : T -> Prop) (m : T -> nat) (Q : R -> Prop) :
  (forall s, I s -> match step s with inl s' => I s' /\ (m s' < m s)%nat | inr r => Q r end) ->
  forall n s, I s -> (m s < n)%nat -> exists r, iter_nat n step s = inr r /\ Q r.
Proof.
  intros Hstep n. induction n as [|n IH]; intros s HI Hm; [lia|].
  cbn [iter_nat]. specialize (Hstep s HI). destruct (step s) as [s'|r].
  - destruct Hstep as [HI' Hlt]. apply IH; [done|lia].
  - eauto.
Qed.

Lemma iter_pos_inv {T R} (step : T -> T + R) (I : T -> Prop) (m : T -> N) (Q : R -> Prop) n s :
  (forall s, I s -> match step s with inl s' => I s' /\ m s' < m s | inr r => Q r end) ->
  I s -> m s < N.pos n -> exists r, iter_pos n step s = inr r /\ Q r.
Proof.
  intros Hstep HI Hm. rewrite iter_pos_nat.
  apply (iter_nat_inv step I (fun s => N.to_nat (m s)) Q); [|done|lia].
  intros s1 H1. specialize (Hstep s1 H1). destruct (step s1) as [s2|r]; [|done].
  destruct Hstep; split; [done|lia].
Qed.

Definition oddN (d : N) : Prop := exists k, d = 2 * k + 1.

Lemma land1_even v : N.land v 1 =? 0 = true <-> exists k, v = 2 * k.
Proof.
  change 1 with (N.ones 1). rewrite N.land_ones. change (2 ^ 1) with 2.
  rewrite N.eqb_eq. split.
  - intros H. exists (v / 2). pose proof (N.div_mod v 2 ltac:(lia)). lia.
  - intros [k ->]. rewrite N.mul_comm, N.mod_mul; lia.
Qed.
Lemma land1_odd v : N.land v 1 =? 0 = false <-> oddN v.
Proof.
  change 1 with (N.ones 1). rewrite N.land_ones. change (2 ^ 1) with 2.
  rewrite N.eqb_neq. unfold oddN. split.
  - intros H. exists (v / 2). pose proof (N.div_mod v 2 ltac:(lia)).
    pose proof (N.mod_lt v 2 ltac:(lia)). lia.
  - intros [k ->]. rewrite N.add_comm, N.mul_comm, N.mod_add by lia. rewrite N.mod_small; lia.
Qed.

(** The stopping divisor: the loop for an odd [v] ends at the least odd [d >= 3]
    with [d^2 mod 2^32 >= v] or [d | v]. *)
Definition stops (v d : N) : bool :=
  negb ((u32 (d * d) <? v) && negb (v mod d =? 0)).

Lemma stops_divides v d : v mod d = 0 -> stops v d = true.
Proof. intros H. unfold stops. rewrite H. simpl. by rewrite andb_false_r. Qed.

Lemma u32_small x : x < 2 ^ 32 -> u32 x = x.
Proof. intros. unfold u32. by apply N.mod_small. Qed.

Lemma u32_lt x : u32 x < 2 ^ 32.
Proof. unfold u32. apply N.mod_lt. done. Qed.

Lemma step_square d :
  u32 (u32 (d * d) + u32 (4 * (d + 1))) = u32 ((d + 2) * (d + 2)).
Proof.
  unfold u32. rewrite <- N.add_mod by done. f_equal. lia.
Qed.

Lemma is_prime_loop v :
  oddN v -> 3 <= v -> v < 2 ^ 32 ->
  exists d, oddN d /\ 3 <= d <= v /\ stops v d = true /\
    (forall d', oddN d' -> 3 <= d' < d -> stops v d' = false) /\
    iter_pos prime_fuel (is_prime_step v) (3, u32 (3 * 3)) = inr (Ret (negb (v mod d =? 0))).
Proof.
  intros Hodd Hv Hv2.
  pose (I := fun s : N * N => oddN s.1 /\ 3 <= s.1 <= v /\ s.2 = u32 (s.1 * s.1) /\
         forall d', oddN d' -> 3 <= d' < s.1 -> stops v d' = false).
  pose (Q := fun r : res bool => exists d, oddN d /\ 3 <= d <= v /\ stops v d = true /\
    (forall d', oddN d' -> 3 <= d' < d -> stops v d' = false) /\
    r = Ret (negb (v mod d =? 0))).
  destruct (iter_pos_inv (is_prime_step v) I (fun s => v - s.1) Q prime_fuel (3, u32 (3*3)))
    as (r & Hr & d & H1 & H2 & H3 & H4 & ->).
  - intros [d sq] (Ho & Hb & Hsq & Hns). simpl in *. unfold is_prime_step, umod.
    replace (d =? 0) with false by (symmetry; apply N.eqb_neq; lia).
    destruct ((sq <? v) && negb (v mod d =? 0)) eqn:Hc.
    + apply andb_true_iff in Hc as [Hc1 Hc2].
      assert (Hdv : d <> v).
      { intros ->. rewrite N.mod_same in Hc2 by lia. done. }
      destruct Ho as [k ->]. destruct Hodd as [kv ->].
      assert (Hlt : 2 * k + 1 + 2 <= 2 * kv + 1) by lia.
      rewrite (u32_small (2 * k + 1 + 1)) by lia.
      rewrite (u32_small (2 * k + 1 + 1 + 1)) by lia.
      split; [|simpl; lia]. unfold I. simpl. repeat split.
      * exists (k + 1). lia.
      * lia.
      * lia.
      * rewrite Hsq. rewrite step_square. f_equal. lia.
      * intros d' [k' ->] Hd'. destruct (N.eq_dec (2 * k' + 1) (2 * k + 1)) as [->|Hne].
        -- unfold stops. rewrite <- Hsq, Hc1, Hc2. done.
        -- apply Hns; [by exists k'|lia].
    + exists d. repeat split; try done; try lia. unfold stops. rewrite <- Hsq, Hc. done.
  - unfold I; simpl. repeat split; try lia; by exists 1.
  - simpl. unfold prime_fuel. lia.
  - exists d. rewrite Hr. repeat split; try done; lia.
Qed.

Lemma prm_is_prime_total v : v < 2 ^ 32 -> exists b, prm_is_prime v = Ret b.
Proof.
  intros Hv. unfold prm_is_prime.
  destruct (v =? 2); [eauto|]. destruct (v =? 3) eqn:E3; [eauto|].
  destruct (N.land v 1 =? 0) eqn:E1; [eauto|].
  apply land1_odd in E1.
  destruct (N.lt_ge_cases v 3) as [Hlt|Hge].
  - assert (v = 1) as -> by (destruct E1; lia). vm_compute. eauto.
  - destruct (is_prime_loop v E1 Hge Hv) as (d & _ & _ & _ & _ & ->). eauto.
Qed.

(** ** Primality *)
Local Notation zprime v := (prime (Z.of_N v)).

Lemma divide_mod v d : d <> 0 -> (v mod d = 0 <-> (Z.of_N d | Z.of_N v)%Z).
Proof.
  intros Hd. rewrite N.mod_divide by done. split.
  - intros [q ->]. exists (Z.of_N q). lia.
  - intros [q Hq]. exists (Z.to_N q).
    assert (0 <= q)%Z by nia. nia.
Qed.

Lemma prime_mod v d : zprime v -> 1 < d -> d < v -> v mod d <> 0.
Proof.
  intros Hp H1 H2 Hm. apply divide_mod in Hm; [|lia].
  destruct (prime_divisors _ Hp _ Hm) as [H|[H|[H|H]]]; lia.
Qed.

(** An odd number with no odd divisor d, 3 <= d, d*d <= v is prime. *)
Lemma prime_of_no_small v :
  oddN v -> 3 <= v ->
  (forall d, oddN d -> 3 <= d -> d * d <= v -> v mod d <> 0) -> zprime v.
Proof.
  intros Hodd Hv Hno.
  destruct (prime_dec (Z.of_N v)) as [|Hnp]; [done|exfalso].
  apply not_prime_divide in Hnp as (n & Hn & Hdiv); [|lia].
  destruct Hdiv as [q Hq].
  assert (Hq1 : (1 < q)%Z) by nia.
  (* the smaller of n and q *)
  assert (Hex : exists a b : Z, (1 < a)%Z /\ (a <= b)%Z /\ Z.of_N v = (a * b)%Z).
  { destruct (Z.le_gt_cases n q); [exists n, q | exists q, n]; nia. }
  destruct Hex as (a & b & Ha & Hab & Hvab).
  destruct Hodd as [k Hk].
  assert (Hoa : oddN (Z.to_N a)).
  { destruct (Z.Even_or_Odd a) as [[j Hj]|[j Hj]].
    - exfalso. assert (Z.of_N v = 2 * (j * b))%Z by nia. lia.
    - exists (Z.to_N j). lia. }
  apply (Hno (Z.to_N a)).
  - done.
  - destruct Hoa as [j Hj]. lia.
  - nia.
  - apply divide_mod; [lia|]. exists b. rewrite Z2N.id by lia. lia.
Qed.

(** A square root of -7 modulo 2^32. *)
Definition root7 : N := 479772853.
Lemma root7_sq : u32 (root7 * root7) = 2 ^ 32 - 7.
Proof. vm_compute. reflexivity. Qed.

(** Odd squares are 1 mod 8, so never exceed 2^32-7. *)
Lemma odd_square_max d : oddN d -> u32 (d * d) <= 2 ^ 32 - 7.
Proof.
  intros [k ->].
  assert (Hev : exists j, k * (k + 1) = 2 * j).
  { destruct (N.Even_or_Odd k) as [[j ->]|[j ->]].
    - exists (j * (2 * j + 1)). lia.
    - exists ((2 * j + 1) * (j + 1)). lia. }
  destruct Hev as [j Hj].
  replace ((2 * k + 1) * (2 * k + 1)) with (8 * j + 1) by lia.
  unfold u32. pose proof (N.div_mod (8 * j + 1) (2 ^ 32) ltac:(lia)) as Hdm.
  pose proof (N.mod_lt (8 * j + 1) (2 ^ 32) ltac:(lia)) as Hlt.
  change (2 ^ 32) with 4294967296 in *.
  set (r := (8 * j + 1) mod 4294967296) in *.
  set (q := (8 * j + 1) / 4294967296) in *. clearbody r q.
  lia.
Qed.

Lemma stops_square v d : v <= u32 (d * d) -> stops v d = true.
Proof.
  intros H. unfold stops. replace (u32 (d * d) <? v) with false; [done|].
  symmetry. apply N.ltb_ge. done.
Qed.

Lemma prm_is_prime_big : prm_is_prime 4294967291 = Ret false.
Proof.
  unfold prm_is_prime. change (4294967291 =? 2) with false. change (4294967291 =? 3) with false.
  change (N.land 4294967291 1 =? 0) with false. cbv iota zeta.
  destruct (is_prime_loop 4294967291) as (d & Ho & Hb & Hs & _ & ->); try done.
  { exists 2147483645. done. }
  unfold stops in Hs. pose proof (odd_square_max d Ho) as Hm.
  replace (u32 (d * d) <? 4294967291) with true in Hs.
  2:{ symmetry. apply N.ltb_lt. change (2 ^ 32) with 4294967296 in Hm. lia. }
  simpl in Hs. rewrite negb_involutive in Hs. rewrite Hs. done.
Qed.

(** For odd 3 <= v <= 2^32-7 and the two composites above, the answer is right. *)
Lemma prm_is_prime_odd v :
  oddN v -> 3 < v -> v < 2 ^ 32 -> v <> 4294967291 ->
  exists b, prm_is_prime v = Ret b /\ (b = true <-> zprime v).
Proof.
  intros Hodd Hv Hv2 Hne. unfold prm_is_prime.
  replace (v =? 2) with false by (symmetry; apply N.eqb_neq; lia).
  replace (v =? 3) with false by (symmetry; apply N.eqb_neq; lia).
  assert (Hl := proj2 (land1_odd v) Hodd). rewrite Hl. cbv zeta.
  destruct (is_prime_loop v Hodd) as (d & Ho & Hb & Hs & Hmin & ->); [lia|done|].
  exists (negb (v mod d =? 0)). split; [done|].
  rewrite negb_true_iff, N.eqb_neq. split.
  - intros Hnd. apply prime_of_no_small; [done|lia|].
    intros e Hoe He Hee Hme.
    destruct (N.lt_ge_cases e d) as [Hed|Hed].
    + specialize (Hmin e Hoe ltac:(lia)). rewrite stops_divides in Hmin; done.
    + (* d <= e, d*d <= v < 2^32, so square did not wrap: d*d >= v or d | v *)
      assert (Hdd : d * d <= e * e) by nia.
      unfold stops in Hs. rewrite u32_small in Hs by lia.
      apply negb_true_iff, andb_false_iff in Hs. destruct Hs as [Hs|Hs].
      * apply N.ltb_ge in Hs. assert (d * d = e * e) by lia.
        assert (d = e) as -> by nia. done.
      * apply negb_false_iff, N.eqb_eq in Hs. done.
  - intros Hp. apply prime_mod; [done|lia|].
    (* d < v : find an odd e < v where the loop must stop *)
    assert (Hex : exists e, oddN e /\ 3 <= e < v /\ stops v e = true \/ v = 4294967293 \/ v = 4294967295).
    { destruct (N.le_gt_cases v (65535 * 65535)) as [Hsm|Hbig].
      - destruct (N.lt_ge_cases v 65536) as [H16|H16].
        + (* v small: v-2 works, (v-2)^2 >= v *)
          exists (v - 2). left. destruct Hodd as [k Hk].
          assert (5 <= v) by lia. repeat split; [exists (k - 1); lia|lia|lia|].
          apply stops_square. rewrite u32_small by nia. nia.
        + exists 65535. left. repeat split; [by exists 32767|lia|lia|].
          apply stops_square. rewrite u32_small by lia. done.
      - destruct (N.le_gt_cases v (2 ^ 32 - 7)) as [Hle|Hgt].
        + exists root7. left. repeat split; [exists 239886426; done|done| |].
          * unfold root7. lia.
          * apply stops_square. by rewrite root7_sq.
        + exists 0. right. destruct Hodd as [k Hk]. lia. }
    destruct Hex as (e & [(Hoe & Hle & Hst)|[-> | ->]]).
    + destruct (N.lt_ge_cases e d) as [Hed|Hed]; [|lia].
      rewrite (Hmin e Hoe) in Hst; [done|lia].
    + exfalso. apply (prime_mod _ 9241 Hp); done.
    + exfalso. apply (prime_mod _ 3 Hp); done.
Qed.

(** ** The full statement for [prm_is_prime]. *)
Lemma prm_is_prime_correct v :
  v < 2 ^ 32 ->
  exists b, prm_is_prime v = Ret b /\
    (b = true <-> (zprime v /\ v <> 4294967291) \/ v = 1).
Proof.
  intros Hv.
  destruct (N.eq_dec v 0) as [->|H0].
  { exists false. split; [done|]. split; [done|]. intros [[H _]|H]; [|done]. destruct H; lia. }
  destruct (N.eq_dec v 1) as [->|H1].
  { exists true. split; [done|]. split; [by right|done]. }
  destruct (N.eq_dec v 2) as [->|H2].
  { exists true. split; [done|]. split; [|done]. intros _. left. split; [apply prime_2|done]. }
  destruct (N.eq_dec v 3) as [->|H3].
  { exists true. split; [done|]. split; [|done]. intros _. left. split; [apply prime_3|done]. }
  destruct (N.eq_dec v 4294967291) as [->|Hb].
  { exists false. split; [apply prm_is_prime_big|]. split; [done|]. intros [[_ H]|H]; done. }
  destruct (N.land v 1 =? 0) eqn:El.
  - exists false. split.
    + unfold prm_is_prime. rewrite El.
      replace (v =? 2) with false by (symmetry; apply N.eqb_neq; lia).
      replace (v =? 3) with false by (symmetry; apply N.eqb_neq; lia). done.
    + split; [done|]. apply land1_even in El as [k ->]. intros [[Hp _]|H]; [|lia].
      exfalso. apply (prime_mod _ 2 Hp); [lia|lia|]. rewrite N.mul_comm. apply N.mod_mul. lia.
  - apply land1_odd in El. destruct (prm_is_prime_odd v El) as (b & Hb1 & Hb2); [lia|done|done|].
    exists b. split; [done|]. rewrite Hb2. split; [by left|]. intros [[H _]|H]; [done|lia].
Qed.

(** 4294967291 is prime: shown by trial division over the odd numbers below
    65536, evaluated by the kernel. *)
Fixpoint no_div (v d : N) (n : nat) : bool :=
  match n with
  | O => true
  | S n' => if v mod d =? 0 then false else no_div v (d + 2) n'
  end.
Lemma no_div_sound v n d :
  no_div v d n = true ->
  forall k, (k < n)%nat -> v mod (d + 2 * N.of_nat k) <> 0.
Proof.
  revert d. induction n as [|n IH]; intros d H k Hk; [lia|].
  cbn [no_div] in H. destruct (v mod d =? 0) eqn:E; [done|].
  destruct k as [|k].
  - replace (d + 2 * N.of_nat 0) with d by lia. by apply N.eqb_neq.
  - replace (d + 2 * N.of_nat (S k)) with (d + 2 + 2 * N.of_nat k) by lia.
    apply IH; [done|lia].
Qed.

Lemma prime_by_trial v :
  oddN v -> 3 <= v -> v < 2 ^ 32 -> no_div v 3 (N.to_nat 32767) = true -> zprime v.
Proof.
  intros Ho H3 Hlt Hnd. apply prime_of_no_small; [done|done|].
  intros d [k ->] Hd Hsq.
  assert (Hk : k <= 32767) by nia.
  assert (H : v mod (3 + 2 * N.of_nat (N.to_nat (k - 1))) <> 0).
  { apply (no_div_sound _ (N.to_nat 32767)); [done|clear Hnd; lia]. }
  clear Hnd Hsq. assert (E : 3 + 2 * N.of_nat (N.to_nat (k - 1)) = 2 * k + 1) by lia.
  rewrite E in H. exact H.
Qed.

Lemma prime_4294967291 : zprime 4294967291.
Proof.
  apply prime_by_trial; [by exists 2147483645|done|done|vm_compute; reflexivity].
Qed.

(** ** prm_next_prime *)
Definition top_prime : N := 4294967279.
Lemma top_prime_prime : zprime top_prime.
Proof.
  apply prime_by_trial; [by exists 2147483639|done|done|vm_compute; reflexivity].
Qed.
Lemma top_prime_ok : prm_is_prime top_prime = Ret true.
Proof.
  destruct (prm_is_prime_odd top_prime) as (b & Hb & Hiff); [by exists 2147483639|done|done|done|].
  rewrite Hb. f_equal. apply Hiff. apply top_prime_prime.
Qed.

Lemma lor1 s : s < 2 ^ 32 -> exists k, N.lor s 1 = 2 * k + 1 /\ 2 * k + 1 < 2 ^ 32 /\ (s = 2 * k \/ s = 2 * k + 1).
Proof.
  intros Hs. destruct (N.Even_or_Odd s) as [[k ->]|[k ->]]; exists k.
  - split; [|lia]. destruct k; done.
  - split; [|lia]. destruct k; done.
Qed.

Lemma next_loop n0 :
  oddN n0 -> n0 < 2 ^ 32 ->
  exists r, iter_pos prime_fuel next_prime_step n0 = inr (Ret r) /\
    ((n0 <= r /\ r < 2 ^ 32 /\ prm_is_prime r = Ret true /\ oddN r /\
      forall m, oddN m -> n0 <= m < r -> prm_is_prime m = Ret false) \/
     (r = 1 /\ forall m, oddN m -> n0 <= m < 2 ^ 32 -> prm_is_prime m = Ret false)).
Proof.
  intros Ho Hlt.
  pose (I := fun n => oddN n /\ n < 2 ^ 32 /\
    ((n0 <= n /\ forall m, oddN m -> n0 <= m < n -> prm_is_prime m = Ret false) \/
     (n = 1 /\ forall m, oddN m -> n0 <= m < 2 ^ 32 -> prm_is_prime m = Ret false))).
  pose (Q := fun x : res N => exists r, x = Ret r /\
    ((n0 <= r /\ r < 2 ^ 32 /\ prm_is_prime r = Ret true /\ oddN r /\
      forall m, oddN m -> n0 <= m < r -> prm_is_prime m = Ret false) \/
     (r = 1 /\ forall m, oddN m -> n0 <= m < 2 ^ 32 -> prm_is_prime m = Ret false))).
  pose (msr := fun n => if n =? 1 then 0 else 2 ^ 32 - n).
  destruct (iter_pos_inv next_prime_step I msr Q prime_fuel n0) as (x & Hx & r & -> & HQ).
  - intros n (Hon & Hn & Hcase). unfold next_prime_step.
    destruct (prm_is_prime_total n Hn) as [b Hb]. rewrite Hb.
    destruct b.
    + exists n. split; [done|]. destruct Hcase as [[H1 H2]|[-> H2]].
      * left. repeat split; auto.
      * right. split; [done|]. auto.
    + assert (Hn1 : n <> 1) by (intros ->; vm_compute in Hb; done).
      destruct Hcase as [[H1 H2]|[-> _]]; [|done].
      destruct Hon as [k Hk].
      assert (Hall : forall m, oddN m -> n0 <= m < n + 2 -> prm_is_prime m = Ret false).
      { intros m [km Hm] Hr. destruct (N.eq_dec m n) as [->|Hne]; [done|].
        apply H2; [by exists km|lia]. }
      destruct (N.lt_ge_cases (n + 2) (2 ^ 32)) as [Hsm|Hbig].
      * rewrite u32_small by done. split.
        -- split; [exists (k + 1); lia|]. split; [done|]. left. split; [lia|done].
        -- unfold msr. replace (n =? 1) with false by (symmetry; by apply N.eqb_neq).
           destruct (n + 2 =? 1) eqn:E; lia.
      * assert (Hn' : n = 4294967295) by (change (2 ^ 32) with 4294967296 in *; lia).
        rewrite Hn' in *. change (u32 (4294967295 + 2)) with 1. split.
        -- split; [by exists 0|]. split; [done|]. right. split; [done|].
           intros m Hm Hr. apply Hall; [done|]. lia.
        -- vm_compute. reflexivity.
  - unfold I. split; [done|]. split; [done|]. left. split; [lia|]. intros; lia.
  - unfold msr, prime_fuel. destruct (n0 =? 1); lia.
  - eauto.
Qed.

Lemma prm_next_prime_total s :
  s < 2 ^ 32 -> exists p, prm_next_prime s = Ret p /\ 1 <= p < 2 ^ 32 /\ oddN p.
Proof.
  intros Hs. unfold prm_next_prime. destruct (lor1 s Hs) as (k & -> & Hk & _).
  destruct (next_loop (2 * k + 1)) as (r & -> & Hr); [by exists k|done|].
  exists r. split; [done|].
  destruct Hr as [(H1 & H2 & _ & H3 & _)|[-> _]]; [split; [lia|done]|].
  split; [lia|by exists 0].
Qed.

Lemma prm_is_prime_true_prime v : 2 <= v -> v < 2 ^ 32 -> prm_is_prime v = Ret true -> zprime v.
Proof.
  intros H2 Hv Ht. destruct (prm_is_prime_correct v Hv) as (b & Hb & Hiff).
  rewrite Ht in Hb. injection Hb as <-. destruct (proj1 Hiff eq_refl) as [[H _]|H]; [done|lia].
Qed.

Lemma prm_next_prime_correct s :
  2 <= s <= top_prime ->
  exists p, prm_next_prime s = Ret p /\
    s <= p <= top_prime /\ oddN p /\ zprime p /\
    forall q, s <= q < p -> oddN q -> ~ zprime q.
Proof.
  intros Hs. unfold top_prime in Hs. assert (Hlt : s < 2 ^ 32) by lia.
  unfold prm_next_prime. destruct (lor1 s Hlt) as (k & -> & Hk & Hsk).
  destruct (next_loop (2 * k + 1)) as (r & -> & Hr); [by exists k|done|].
  exists r. split; [done|].
  destruct Hr as [(H1 & H2 & H3 & H4 & H5)|[-> H5]].
  - assert (Hrt : r <= top_prime).
    { destruct (N.le_gt_cases r top_prime) as [|Hgt]; [done|exfalso].
      unfold top_prime in *.
      pose proof top_prime_ok as Ht. unfold top_prime in Ht.
      rewrite (H5 4294967279) in Ht; [discriminate Ht|by exists 2147483639|lia]. }
    split; [lia|]. split; [done|]. split.
    + apply prm_is_prime_true_prime; [lia|done|done].
    + intros q Hq Hoq Hp. destruct Hoq as [j Hj].
      specialize (H5 q ltac:(by exists j) ltac:(lia)).
      unfold top_prime in Hrt.
      destruct (prm_is_prime_correct q ltac:(lia)) as (b & Hb & Hiff).
      rewrite H5 in Hb. injection Hb as <-.
      assert (false = true); [|done]. apply Hiff. left. split; [done|lia].
  - exfalso. unfold top_prime in *.
    specialize (H5 4294967279 ltac:(by exists 2147483639) ltac:(lia)).
    pose proof top_prime_ok as Ht. unfold top_prime in Ht. rewrite Ht in H5. discriminate H5.
Qed.

Lemma prm_next_prime_wrap s :
  s < 2 ^ 32 -> top_prime < s \/ s <= 1 -> prm_next_prime s = Ret 1.
Proof.
  intros Hlt [Hs|Hs].
  - unfold prm_next_prime. destruct (lor1 s Hlt) as (k & -> & Hk & Hsk).
    destruct (next_loop (2 * k + 1)) as (r & -> & Hr); [by exists k|done|].
    destruct Hr as [(H1 & H2 & H3 & _ & _)|[-> H5]]; [|done].
    exfalso. unfold top_prime in Hs.
    (* the fifteen candidates above top_prime are all rejected *)
    assert (Hall : forall j, j < 8 -> prm_is_prime (4294967281 + 2 * j) = Ret false).
    { intros j Hj.
      assert (j = 0 \/ j = 1 \/ j = 2 \/ j = 3 \/ j = 4 \/ j = 5 \/ j = 6 \/ j = 7) as Hc by lia.
      destruct Hc as [->|[->|[->|[->|[->|[->|[->| ->]]]]]]];
        [vm_compute; reflexivity|vm_compute; reflexivity|vm_compute; reflexivity
        |vm_compute; reflexivity|vm_compute; reflexivity|exact prm_is_prime_big
        |vm_compute; reflexivity|vm_compute; reflexivity]. }
    destruct (prm_is_prime_total r H2) as [b Hb].
    assert (Hr : exists j, j < 8 /\ r = 4294967281 + 2 * j).
    { assert (Hor : oddN r).
      { destruct (N.land r 1 =? 0) eqn:E; [|by apply land1_odd].
        exfalso. unfold prm_is_prime in H3. rewrite E in H3.
        destruct (r =? 2) eqn:E2; [apply N.eqb_eq in E2; lia|].
        destruct (r =? 3) eqn:E3; [apply N.eqb_eq in E3; lia|]. done. }
      destruct Hor as [j Hj]. exists (j - 2147483640). change (2 ^ 32) with 4294967296 in *. lia. }
    destruct Hr as (j & Hj & ->). rewrite Hall in H3 by done. discriminate H3.
  - assert (s = 0 \/ s = 1) as [-> | ->] by lia; vm_compute; reflexivity.
Qed.
