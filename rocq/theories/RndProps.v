(** C100 -- the test programs' numbers (rnd.c). *)
From Verif Require Import Base RndTable RndModel RndSpec RndProofs.
Local Open Scope Z_scope.

(** The arithmetic of the model is that of IEEE doubles: [rd] gives a double, and none is
    nearer. *)
Theorem C100_doubles : forall x, is_double (rd x) /\ forall c, is_double c -> Z.abs (rd x - x) <= Z.abs (c - x).
Proof. intros x. split; [apply rd_double|]. intros c. apply rd_nearest. Qed.
Print Assumptions C100_doubles.
(** If two doubles are equally near, the one with the even significand is taken. *)
Theorem C100_ties : forall x c, is_double c -> c <> rd x -> Z.abs (rd x - x) = Z.abs (c - x) ->
  exists m e, 0 <= e /\ Z.even m = true /\ rd x = m * 2 ^ e /\ Z.abs (c - rd x) = 2 ^ e.
Proof. exact rd_tie. Qed.
Print Assumptions C100_ties.
Example C100_doubles_ex : rd (2 ^ 53 + 1) = 2 ^ 53 /\ rd (2 ^ 53 + 3) = 2 ^ 53 + 4 /\ rd (- (2 ^ 60) - 129) = - (2 ^ 60) - 256
  /\ is_double (2 ^ 53 + 2).
Proof. split; [vm_compute; reflexivity|]. split; [vm_compute; reflexivity|]. split; [vm_compute; reflexivity|].
  exists (2 ^ 52 + 1), 1. lia. Qed.

Lemma sint_ok z : is_int z -> sint z = Ret z.
Proof. unfold is_int, sint, int_range, INT_MIN, INT_MAX. intros H. destruct (_ && _) eqn:E; [reflexivity|lia]. Qed.
Lemma aget_rnd i : 0 <= i < 5000 -> exists k, rnd !! Z.to_nat i = Some k /\ aget rnd (Z.to_nat i) = Ret k /\ 0 < k < 1000000.
Proof.
  intros Hi. destruct table_ok as [L F].
  destruct (lookup_lt_is_Some_2 rnd (Z.to_nat i)) as [k Hk]; [lia|].
  exists k. split; [exact Hk|]. split; [by apply aget_Some|]. rewrite Forall_lookup in F. exact (F _ _ Hk).
Qed.

(** A number drawn with proper bounds: it is the table's decimal moved into the interval
    and rounded down, it is at least ll, and below ul unless the interval has one point. *)
Theorem C100_get_rand : forall randpt ll ul, 0 <= randpt < 4999 -> bounds_ok (ll, ul) ->
  exists k v, rnd !! Z.to_nat randpt = Some k /\ get_rand randpt ll ul = Ret (randpt + 1, v) /\
    drawn k ll ul v /\ ll <= v <= ul /\ (ll < ul -> v < ul).
Proof.
  intros i ll ul Hi (Hll & Hul & Hle & Hd). simpl in *. unfold is_int in *.
  destruct (aget_rnd i) as (k & Ek & Ak & Hk); [lia|].
  unfold get_rand. rewrite Ak. cbn [mbind res_bind].
  assert (i + 1 >=? MAXRND = false) as -> by (unfold MAXRND; lia).
  assert (sint (ul - ll) = Ret (ul - ll)) as -> by (apply sint_ok; unfold is_int; lia).
  cbn [mbind res_bind].
  pose proof (get_rand_val k ll ul Hk Hll Hd) as V.
  assert (ll = ul -> rd (ll * scale + rd (decimal k * (ul - ll))) / scale = ll) as Z0.
  { intros <-. rewrite Z.sub_diag. by apply get_rand_zero. }
  set (v := rd _ / scale) in *. clearbody v.
  assert (ll <= v /\ (ll < ul -> v < ul)) as [G1 G2].
  { destruct (decide (ll = ul)) as [->|N]; [rewrite (Z0 eq_refl); lia|].
    assert (ll < ul) as Hlt by lia. clear Z0 Hle N Hi i Ek Ak Hul.
    unfold drawn, point in V.
    assert (0 < k * (ul - ll) < 1000000 * (ul - ll)) as W by nia.
    pose proof (Z.div_mod (1000000 * ll + k * (ul - ll)) 1000000 ltac:(lia)) as M.
    pose proof (Z.mod_pos_bound (1000000 * ll + k * (ul - ll)) 1000000 ltac:(lia)) as B.
    set (w := k * (ul - ll)) in *. clearbody w.
    destruct V as [-> | [D ->]]; [split; intros; lia|].
    apply Z.mod_divide in D; [|lia]. rewrite D in *. split; intros; lia. }
  assert (sint v = Ret v) as -> by (apply sint_ok; unfold is_int; lia).
  cbn [mbind res_bind].
  exists k, v. assert (v <= ul) by (destruct (decide (ll = ul)) as [e|]; [rewrite Z0 by exact e; lia|lia]).
  assert (v >? ul = false) as -> by lia. assert (v <? ll = false) as -> by lia.
  split; [exact Ek|]. split; [reflexivity|]. split; [exact V|]. split; [lia|exact G2].
Qed.
Print Assumptions C100_get_rand.
Example C100_get_rand_ex : bounds_ok (0, 1000) /\ get_rand 1 0 1000 = Ret (2, 544) /\
  get_rand 1 (-2147483648) (-1) = Ret (2, -977955464) /\ get_rand 4998 7 7 = Ret (4999, 7).
Proof. split; [unfold bounds_ok, is_int; simpl; lia|]. split; [vm_compute; reflexivity|]. split; vm_compute; reflexivity. Qed.

(** Bounds the wrong way round abort the program (if their difference is an int). *)
Theorem C100_backwards : forall randpt ll ul, 0 <= randpt < 5000 -> is_int ll -> is_int ul -> ul < ll ->
  is_int (ul - ll) -> get_rand randpt ll ul = Abort.
Proof.
  intros i ll ul Hi Hll Hul Hlt Hd.
  destruct (aget_rnd i) as (k & Ek & Ak & Hk); [lia|].
  unfold get_rand. rewrite Ak. cbn [mbind res_bind].
  destruct (i + 1 >=? MAXRND); [reflexivity|].
  assert (sint (ul - ll) = Ret (ul - ll)) as -> by (apply sint_ok; exact Hd).
  cbn [mbind res_bind].
  pose proof (get_rand_val k ll ul Hk Hll Hd) as V. unfold is_int in *.
  set (v := rd _ / scale) in *. clearbody v.
  assert (is_int v) as Hv.
  { unfold is_int, drawn, point in *.
    assert (1000000 * (ul - ll) < k * (ul - ll) < 0) as W by nia.
    pose proof (Z.div_mod (1000000 * ll + k * (ul - ll)) 1000000 ltac:(lia)) as M.
    pose proof (Z.mod_pos_bound (1000000 * ll + k * (ul - ll)) 1000000 ltac:(lia)) as B.
    set (w := k * (ul - ll)) in *. clearbody w.
    destruct V as [-> | [D ->]]; [lia|].
    apply Z.mod_divide in D; [|lia]. rewrite D in *. lia. }
  unfold is_int in Hv. assert (sint v = Ret v) as -> by (apply sint_ok; unfold is_int; lia).
  cbn [mbind res_bind]. destruct (v >? ul) eqn:E1; [reflexivity|]. assert (v <? ll = true) as -> by lia. reflexivity.
Qed.
Print Assumptions C100_backwards.
Example C100_backwards_ex : get_rand 1 10 0 = Abort.
Proof. vm_compute. reflexivity. Qed.

(** Whatever the bounds, a value that is returned lies between them. *)
Theorem C100_never_outside : forall randpt ll ul i v, get_rand randpt ll ul = Ret (i, v) -> ll <= v <= ul /\ i = randpt + 1.
Proof.
  intros r ll ul i v. unfold get_rand. destruct (aget rnd (Z.to_nat r)) as [k| | | |]; cbn [mbind res_bind]; try discriminate.
  destruct (_ >=? _); [discriminate|].
  destruct (sint (ul - ll)) as [d| | | |]; cbn [mbind res_bind]; try discriminate.
  destruct (sint _) as [x| | | |]; cbn [mbind res_bind]; try discriminate.
  destruct (x >? ul) eqn:E1; [discriminate|]. destruct (x <? ll) eqn:E2; [discriminate|].
  intros [= <- <-]. lia.
Qed.
Print Assumptions C100_never_outside.

(** A program that starts with init_rand gets 4998 numbers, whatever came before; the
    n-th is made of the n-th decimal of the table and of its own bounds only. *)
Lemma draws_ok : forall bs i, 0 <= i -> i + Z.of_nat (length bs) <= 4999 -> Forall bounds_ok bs ->
  exists vs, draws i bs = Ret vs /\ length vs = length bs /\
    forall n ll ul, bs !! n = Some (ll, ul) -> exists k v, rnd !! (Z.to_nat i + n)%nat = Some k /\ vs !! n = Some v /\
      drawn k ll ul v /\ ll <= v <= ul /\ (ll < ul -> v < ul).
Proof.
  induction bs as [|[l u] bs IH]; intros i Hi Hlen Hall.
  { exists []. split; [reflexivity|]. split; [reflexivity|]. intros n ll ul. rewrite lookup_nil. discriminate. }
  cbn [length] in Hlen. apply Forall_cons in Hall as [Hb Hall].
  destruct (C100_get_rand i l u ltac:(lia) Hb) as (k & v & Ek & Eg & Hdr & Hr & Hlt).
  destruct (IH (i + 1)) as (vs & Ev & Lv & Hvs); [lia|lia|exact Hall|].
  exists (v :: vs). cbn [draws]. rewrite Eg. cbn [mbind res_bind]. rewrite Ev. cbn [mbind res_bind].
  split; [reflexivity|]. split; [cbn; lia|]. intros [|n] ll ul.
  - intros [= <- <-]. exists k, v. rewrite Nat.add_0_r. done.
  - intros Hn. destruct (Hvs n ll ul Hn) as (k' & v' & ? & ?). exists k', v'.
    replace (Z.to_nat i + S n)%nat with (Z.to_nat (i + 1) + n)%nat by lia. done.
Qed.
Theorem C100_session : forall randpt bounds, Forall bounds_ok bounds -> (length bounds <= 4998)%nat ->
  exists vs, draws (init_rand randpt) bounds = Ret vs /\ length vs = length bounds /\
    forall n ll ul, bounds !! n = Some (ll, ul) ->
      exists k v, rnd !! S n = Some k /\ vs !! n = Some v /\ drawn k ll ul v /\ ll <= v <= ul /\ (ll < ul -> v < ul).
Proof.
  intros r bs Hall Hlen. destruct (draws_ok bs 1 ltac:(lia) ltac:(lia) Hall) as (vs & E & L & H).
  exists vs. split; [exact E|]. split; [exact L|]. exact H.
Qed.
Print Assumptions C100_session.
(** The next call aborts. *)
Lemma draws_abort : forall bs i, 0 <= i <= 4999 -> 4999 < i + Z.of_nat (length bs) -> Forall bounds_ok bs -> draws i bs = Abort.
Proof.
  induction bs as [|[l u] bs IH]; intros i Hi Hlen Hall; cbn [length] in Hlen; [lia|].
  apply Forall_cons in Hall as [Hb Hall]. cbn [draws].
  destruct (decide (i = 4999)) as [->|N].
  - destruct (aget_rnd 4999 ltac:(lia)) as (k & _ & A & _).
    unfold get_rand. rewrite A. cbn [mbind res_bind]. reflexivity.
  - destruct (C100_get_rand i l u ltac:(lia) Hb) as (k & v & _ & -> & _). cbn [mbind res_bind].
    rewrite IH; [reflexivity|lia|lia|exact Hall].
Qed.
Theorem C100_exhausted : forall randpt bounds, Forall bounds_ok bounds -> (4998 < length bounds)%nat ->
  draws (init_rand randpt) bounds = Abort.
Proof. intros r bs Hall Hlen. apply draws_abort; [unfold init_rand; lia|unfold init_rand; lia|exact Hall]. Qed.
Print Assumptions C100_exhausted.
(** both have instances: a session of 4998 calls, and of one more *)
Example C100_session_ex : draws (init_rand 17) [(0, 10); (5, 5); (-3, 3)] = Ret [5; 5; 0].
Proof. vm_compute. reflexivity. Qed.
Example C100_exhausted_ex : Forall bounds_ok (replicate (N.to_nat 4999) (0, 9)) /\ get_rand 4999 0 9 = Abort.
Proof. split; [|vm_compute; reflexivity]. apply Forall_replicate. unfold bounds_ok, is_int. simpl. lia. Qed.

(** The second case of [drawn] happens: 0.292579 * 3000000 is 877737. *)
Theorem C100_rounded_down : rnd !! 7%nat = Some 292579 /\ 292579 * 3000000 = 877737 * 1000000 /\
  get_rand 7 0 3000000 = Ret (8, 877736).
Proof. split; [vm_compute; reflexivity|]. split; vm_compute; reflexivity. Qed.
Print Assumptions C100_rounded_down.
