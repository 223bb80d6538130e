From Verif Require Import Base RndTable RndModel RndSpec.
Local Open Scope Z_scope.

Lemma nearest_even_close n d : 0 < d -> 0 <= n -> 2 * Z.abs (nearest_even n d * d - n) <= d.
Proof.
  intros Hd Hn. unfold nearest_even.
  pose proof (Z.div_mod n d ltac:(lia)) as E. pose proof (Z.mod_pos_bound n d Hd) as B.
  set (q := n / d) in *. set (r := n mod d) in *.
  destruct (2 * r <? d) eqn:E1; [|destruct (d <? 2 * r) eqn:E2; [|destruct (Z.even q)]]; nia.
Qed.
Lemma nearest_even_best n d c : 0 < d -> 0 <= n -> Z.abs (nearest_even n d * d - n) <= Z.abs (c * d - n).
Proof.
  intros Hd Hn. unfold nearest_even.
  pose proof (Z.div_mod n d ltac:(lia)) as E. pose proof (Z.mod_pos_bound n d Hd) as B.
  set (q := n / d) in *. set (r := n mod d) in *.
  assert (c <= q \/ q + 1 <= c) as [Hc|Hc] by lia.
  - assert (c * d <= q * d) by nia.
    destruct (2 * r <? d) eqn:E1; [|destruct (d <? 2 * r) eqn:E2; [|destruct (Z.even q)]]; nia.
  - assert ((q + 1) * d <= c * d) by nia.
    destruct (2 * r <? d) eqn:E1; [|destruct (d <? 2 * r) eqn:E2; [|destruct (Z.even q)]]; nia.
Qed.

Lemma log2_bounds x : 2 ^ 53 <= x ->
  exists s, s = Z.log2 x - 52 /\ 1 <= s /\ 2 ^ 52 * 2 ^ s <= x /\ x < 2 ^ 53 * 2 ^ s.
Proof.
  intros Hx. exists (Z.log2 x - 52). pose proof (Z.log2_spec x ltac:(lia)) as [A B].
  assert (53 <= Z.log2 x) by (apply Z.log2_le_pow2; lia).
  rewrite <- !Z.pow_add_r by lia.
  replace (52 + (Z.log2 x - 52)) with (Z.log2 x) by lia.
  replace (53 + (Z.log2 x - 52)) with (Z.succ (Z.log2 x)) by lia. lia.
Qed.

(** relative error *)
Lemma rd_error x : 2 ^ 53 * Z.abs (rd x - x) <= Z.abs x.
Proof.
  unfold rd. destruct (Z.abs x <? 2 ^ 53) eqn:E; [rewrite Z.sub_diag; lia|].
  apply Z.ltb_ge in E. destruct (log2_bounds _ E) as (s & -> & Hs & A & B).
  set (u := Z.abs x) in *. set (w := 2 ^ (Z.log2 u - 52)) in *.
  assert (0 < w) by (apply Z.pow_pos_nonneg; lia).
  pose proof (nearest_even_close u w ltac:(lia) ltac:(lia)) as C.
  set (y := nearest_even u w * w) in *. clearbody y w.
  assert (Z.abs (Z.sgn x * y - x) = Z.abs (y - u)) as -> by (subst u; destruct x; simpl; lia).
  lia.
Qed.
Lemma nearest_even_nonneg n d : 0 < d -> 0 <= n -> 0 <= nearest_even n d.
Proof.
  intros Hd Hn. unfold nearest_even. assert (0 <= n / d) by (apply Z.div_pos; lia).
  destruct (_ <? _); [|destruct (_ <? _); [|destruct (Z.even _)]]; lia.
Qed.
Lemma rd_double x : is_double (rd x).
Proof.
  unfold rd. destruct (Z.abs x <? 2 ^ 53) eqn:E; [exists x, 0; lia|].
  apply Z.ltb_ge in E. destruct (log2_bounds _ E) as (s & -> & Hs & A & B).
  set (u := Z.abs x) in *. set (s := Z.log2 u - 52) in *.
  assert (0 < 2 ^ s) by (apply Z.pow_pos_nonneg; lia).
  assert (0 <= nearest_even u (2 ^ s) <= 2 ^ 53) as C.
  { split; [apply nearest_even_nonneg; lia|].
    pose proof (nearest_even_best u (2 ^ s) (2 ^ 53) ltac:(lia) ltac:(lia)).
    pose proof (nearest_even_close u (2 ^ s) ltac:(lia) ltac:(lia)).
    set (q := nearest_even u (2 ^ s)) in *. clearbody q s u. nia. }
  set (q := nearest_even u (2 ^ s)) in *. clearbody q.
  destruct (decide (q = 2 ^ 53)) as [->|N].
  - exists (Z.sgn x * 2 ^ 52), (s + 1). rewrite Z.pow_add_r by lia.
    split; [lia|]. split; [destruct x; simpl; lia|]. change (2 ^ 53) with (2 ^ 52 * 2). ring.
  - exists (Z.sgn x * q), s. split; [lia|]. split; [|ring]. destruct x; simpl; lia.
Qed.
(** no double is nearer *)
Lemma rd_nearest x c : is_double c -> Z.abs (rd x - x) <= Z.abs (c - x).
Proof.
  intros (m & e & He & Hm & ->). unfold rd.
  destruct (Z.abs x <? 2 ^ 53) eqn:E; [rewrite Z.sub_diag; lia|].
  apply Z.ltb_ge in E. destruct (log2_bounds _ E) as (s & -> & Hs & A & B).
  set (u := Z.abs x) in *. set (s := Z.log2 u - 52) in *.
  assert (0 < 2 ^ s) by (apply Z.pow_pos_nonneg; lia).
  assert (Z.abs (Z.sgn x * (nearest_even u (2 ^ s) * 2 ^ s) - x) = Z.abs (nearest_even u (2 ^ s) * 2 ^ s - u)) as ->
    by (subst u; destruct x; simpl; lia).
  assert (exists m', Z.abs m' < 2 ^ 53 /\ Z.abs (m * 2 ^ e - x) = Z.abs (m' * 2 ^ e - u)) as (m' & Hm' & ->).
  { exists (if decide (x < 0) then - m else m). subst u. destruct (decide _); split; lia. }
  destruct (decide (s <= e)) as [Hse|Hse].
  - replace (2 ^ e) with (2 ^ (e - s) * 2 ^ s) by (rewrite <- Z.pow_add_r by lia; f_equal; lia).
    rewrite Z.mul_assoc. apply nearest_even_best; lia.
  - etransitivity; [apply (nearest_even_best u (2 ^ s) (2 ^ 52)); lia|].
    assert (2 ^ s = 2 ^ (s - e - 1) * 2 * 2 ^ e) as F.
    { change 2 with (2 ^ 1) at 3. rewrite <- !Z.pow_add_r by lia. f_equal. lia. }
    assert (m' * 2 ^ e <= 2 ^ 52 * 2 ^ s).
    { rewrite F. assert (0 < 2 ^ e) by (apply Z.pow_pos_nonneg; lia).
      assert (0 < 2 ^ (s - e - 1)) by (apply Z.pow_pos_nonneg; lia).
      assert (m' * 2 ^ e <= 2 ^ 53 * 2 ^ e) by nia.
      assert (2 ^ 53 * 2 ^ e <= 2 ^ 52 * (2 ^ (s - e - 1) * 2 * 2 ^ e)); [|lia].
      change (2 ^ 53) with (2 ^ 52 * 2). nia. }
    lia.
Qed.
(** ties go to the even significand *)
Lemma nearest_even_tie n d j : 0 < d -> 0 <= n -> j <> nearest_even n d ->
  Z.abs (nearest_even n d * d - n) = Z.abs (j * d - n) ->
  Z.even (nearest_even n d) = true /\ Z.abs (j - nearest_even n d) = 1.
Proof.
  intros Hd Hn Hj Heq. pose proof (nearest_even_close n d Hd Hn) as C.
  assert (Z.abs (j - nearest_even n d) = 1) as J.
  { set (y := nearest_even n d) in *. clearbody y. assert (Z.abs ((j - y) * d) <= d) as K by lia.
    rewrite Z.abs_mul, (Z.abs_eq d) in K by lia. assert (1 <= Z.abs (j - y)) by lia. nia. }
  split; [|exact J]. revert C Heq J Hj. unfold nearest_even.
  pose proof (Z.div_mod n d ltac:(lia)) as E. pose proof (Z.mod_pos_bound n d Hd) as B.
  set (q := n / d) in *. set (r := n mod d) in *. clearbody q r.
  destruct (2 * r <? d) eqn:E1; [|destruct (d <? 2 * r) eqn:E2; [|destruct (Z.even q) eqn:E3]]; intros C Heq J Hj.
  - exfalso. apply Z.ltb_lt in E1. assert (j = q + 1 \/ j = q - 1) as [-> | ->] by lia; lia.
  - exfalso. apply Z.ltb_lt in E2. assert (j = q + 2 \/ j = q) as [-> | ->] by lia; lia.
  - exact E3.
  - rewrite Z.even_add, E3. reflexivity.
Qed.
Lemma rd_tie x c : is_double c -> c <> rd x -> Z.abs (rd x - x) = Z.abs (c - x) ->
  exists m e, 0 <= e /\ Z.even m = true /\ rd x = m * 2 ^ e /\ Z.abs (c - rd x) = 2 ^ e.
Proof.
  intros (m & e & He & Hm & ->). unfold rd.
  destruct (Z.abs x <? 2 ^ 53) eqn:E; [rewrite Z.sub_diag; lia|].
  apply Z.ltb_ge in E. destruct (log2_bounds _ E) as (s & -> & Hs & A & B).
  set (u := Z.abs x) in *. set (s := Z.log2 u - 52) in *.
  assert (0 < 2 ^ s) by (apply Z.pow_pos_nonneg; lia).
  set (y := nearest_even u (2 ^ s)).
  assert (exists m', Z.abs m' < 2 ^ 53 /\ m * 2 ^ e = Z.sgn x * (m' * 2 ^ e)) as (m' & Hm' & Em).
  { exists (Z.sgn x * m). destruct x; cbn [Z.sgn] in *; [subst u; cbn in E; lia|split; [lia|ring]|split; [lia|ring]]. }
  rewrite Em. clear m Em Hm. intros N Heq.
  assert (x = Z.sgn x * u) as Ex by (subst u; destruct x; simpl; lia).
  assert (Z.sgn x = 1 \/ Z.sgn x = -1) as Hsg by (destruct x; simpl in *; [subst u; simpl in E; lia|lia|lia]).
  assert (Z.abs (y * 2 ^ s - u) = Z.abs (m' * 2 ^ e - u)) as Heq' by (destruct Hsg as [G|G]; rewrite G in *; lia).
  assert (m' * 2 ^ e <> y * 2 ^ s) as N' by (intros F; rewrite F in N; lia).
  assert (exists j, m' * 2 ^ e = j * 2 ^ s) as [j Ej].
  { destruct (decide (s <= e)) as [Hse|Hse].
    - exists (m' * 2 ^ (e - s)). rewrite <- Z.mul_assoc, <- Z.pow_add_r by lia. do 2 f_equal. lia.
    - exfalso. pose proof (nearest_even_best u (2 ^ s) (2 ^ 52) ltac:(lia) ltac:(lia)) as K. fold y in K.
      assert (2 ^ s = 2 ^ (s - e - 1) * 2 * 2 ^ e) as F.
      { change 2 with (2 ^ 1) at 3. rewrite <- !Z.pow_add_r by lia. f_equal. lia. }
      assert (m' * 2 ^ e < 2 ^ 52 * 2 ^ s).
      { rewrite F. assert (0 < 2 ^ e) by (apply Z.pow_pos_nonneg; lia).
        assert (0 < 2 ^ (s - e - 1)) by (apply Z.pow_pos_nonneg; lia).
        assert (m' * 2 ^ e < 2 ^ 53 * 2 ^ e) by (apply Z.mul_lt_mono_pos_r; lia).
        assert (2 ^ 53 * 2 ^ e <= 2 ^ 52 * (2 ^ (s - e - 1) * 2 * 2 ^ e)); [|lia].
        change (2 ^ 53) with (2 ^ 52 * 2). nia. }
      lia. }
  rewrite Ej in *.
  assert (j <> y) as Nj by (intros ->; apply N'; reflexivity).
  destruct (nearest_even_tie u (2 ^ s) j ltac:(lia) ltac:(lia) Nj Heq') as [Ev J]. fold y in Ev, J.
  exists (Z.sgn x * y), s. split; [lia|]. split; [destruct Hsg as [-> | ->]; rewrite Z.even_mul, Ev, ?orb_true_r; reflexivity|].
  split; [ring|].
  replace (Z.sgn x * (j * 2 ^ s) - Z.sgn x * (y * 2 ^ s)) with (Z.sgn x * ((j - y) * 2 ^ s)) by ring.
  rewrite !Z.abs_mul, J, (Z.abs_eq (2 ^ s)) by lia. destruct Hsg as [-> | ->]; simpl; lia.
Qed.
Lemma rd_exact x : is_double x -> rd x = x.
Proof. intros H. pose proof (rd_nearest x x H). lia. Qed.

Lemma table_ok : length rnd = 5000%nat /\ Forall (fun k => 0 < k < 1000000) rnd.
Proof.
  split; [vm_compute; reflexivity|].
  apply Forall_forall. intros k Hk.
  assert (forallb (fun k => (0 <? k) && (k <? 1000000)) rnd = true) as F by (vm_compute; reflexivity).
  rewrite forallb_forall in F. specialize (F k ltac:(by apply elem_of_list_In)). lia.
Qed.

Lemma scale_big : 2 ^ 199 < scale.
Proof. unfold scale. lia. Qed.
Lemma error_sum S m u1 u2 u3 x l D : 2 ^ 199 < S -> 0 <= m -> 0 <= u1 -> 0 <= u2 ->
  2 ^ 53 * u1 <= l + x + u2 -> 2 ^ 53 * u2 <= x -> u3 <= 2 ^ 31 * m ->
  2 ^ 53 * m <= 1000000 * S + 2 ^ 53 * 1000000 -> x <= 2 ^ 31 * D -> 1000000 * D <= 1000000 * S + m ->
  l <= 2 ^ 31 * S -> 1000000 * u1 + 1000000 * u2 + u3 < S.
Proof. intros. lia. Qed.
(** the whole of the arithmetic is off by less than 10^-6 *)
Lemma value_error k ll d : 0 < k < 1000000 -> is_int ll -> is_int d ->
  let t := rd (ll * scale + rd (decimal k * d)) in
  Z.abs (1000000 * t - (1000000 * ll + k * d) * scale) < scale.
Proof.
  intros Hk Hll Hd. cbv zeta. unfold is_int in *. pose proof scale_big as HS.
  remember scale as S eqn:ES.
  set (m := Z.abs (1000000 * decimal k - k * S)).
  assert (2 ^ 53 * m <= 1000000 * S + 2 ^ 53 * 1000000 /\ 0 <= decimal k /\ 1000000 * decimal k <= 1000000 * S + m) as (A3 & D0 & D1).
  { subst m. unfold decimal. rewrite <- ES. clear ES Hll Hd ll d. pose proof (Z.div_mod (k * S) 1000000 ltac:(lia)) as E.
    pose proof (Z.mod_pos_bound (k * S) 1000000 ltac:(lia)) as B.
    pose proof (rd_error (k * S / 1000000)) as R.
    assert (0 <= k * S <= 1000000 * S) as K.
    { split; [apply Z.mul_nonneg_nonneg; lia|apply Z.mul_le_mono_nonneg_r; lia]. }
    set (q := k * S / 1000000) in *. set (r := (k * S) mod 1000000) in *. set (kS := k * S) in *.
    assert (0 <= q <= S) by lia. generalize dependent (rd q). intros. clearbody q r kS. lia. }
  clear ES. set (D := decimal k) in *. clearbody D.
  pose proof (rd_error (D * d)) as A2. set (P := rd (D * d)) in *. clearbody P.
  pose proof (rd_error (ll * S + P)) as A1. set (T := rd (ll * S + P)) in *. clearbody T.
  assert (Z.abs (1000000 * (D * d) - k * d * S) <= 2 ^ 31 * m) as B3.
  { replace (1000000 * (D * d) - k * d * S) with ((1000000 * D - k * S) * d) by ring.
    rewrite Z.abs_mul, Z.mul_comm. fold m. apply Z.mul_le_mono_nonneg_r; subst m; lia. }
  assert (Z.abs (D * d) <= 2 ^ 31 * D) as B2.
  { rewrite Z.abs_mul, Z.mul_comm, (Z.abs_eq D) by lia. apply Z.mul_le_mono_nonneg_r; lia. }
  assert (Z.abs (ll * S) <= 2 ^ 31 * S) as B1.
  { rewrite Z.abs_mul, (Z.abs_eq S) by lia. apply Z.mul_le_mono_nonneg_r; lia. }
  replace (1000000 * T - (1000000 * ll + k * d) * S)
    with (1000000 * (T - (ll * S + P)) + (1000000 * (P - D * d) + (1000000 * (D * d) - k * d * S))) by ring.
  assert (0 <= m) by (subst m; lia). clearbody m.
  set (X := D * d) in *. set (L := ll * S) in *. set (Y := k * d * S) in *. clearbody X Y L.
  pose proof (error_sum S m (Z.abs (T - (L + P))) (Z.abs (P - X)) (Z.abs (1000000 * X - Y)) (Z.abs X) (Z.abs L) D HS) as F.
  assert (Z.abs (L + P) <= Z.abs L + Z.abs X + Z.abs (P - X)) by (clear; lia).
  specialize (F ltac:(assumption) (Z.abs_nonneg _) (Z.abs_nonneg _) ltac:(clear -A1 H0; lia) A2 B3 A3 B2 D1 B1).
  clear -F. lia.
Qed.

Lemma get_rand_val k ll ul : 0 < k < 1000000 -> is_int ll -> is_int (ul - ll) ->
  drawn k ll ul (rd (ll * scale + rd (decimal k * (ul - ll))) / scale).
Proof.
  intros Hk Hll Hd. pose proof (value_error k ll (ul - ll) Hk Hll Hd) as E. cbv zeta in E.
  pose proof scale_big as HS. unfold drawn, point.
  set (t := rd _) in *. set (e := 1000000 * ll + k * (ul - ll)) in *. clearbody t e.
  set (S := scale) in *. clearbody S.
  pose proof (Z.div_mod t S ltac:(lia)) as M. pose proof (Z.mod_pos_bound t S ltac:(lia)) as B.
  set (v := t / S) in *. set (r := t mod S) in *. clearbody v r.
  assert (1000000 * v <= e) by nia. assert (e <= 1000000 * (v + 1)) by nia.
  destruct (decide (e = 1000000 * (v + 1))) as [->|N].
  - right. split; [exists (v + 1); ring|]. rewrite (Z.mul_comm 1000000), Z.div_mul by lia. lia.
  - left. apply (Z.div_unique_pos _ _ _ (e - 1000000 * v)); lia.
Qed.
Lemma get_rand_zero k ll : is_int ll -> rd (ll * scale + rd (decimal k * 0)) / scale = ll.
Proof.
  intros Hll. rewrite Z.mul_0_r. rewrite (rd_exact 0) by (exists 0, 0; lia).
  rewrite Z.add_0_r, rd_exact; [apply Z.div_mul; pose proof scale_big; lia|].
  exists ll, 200. unfold is_int in Hll. split; [lia|]. split; [lia|reflexivity].
Qed.
