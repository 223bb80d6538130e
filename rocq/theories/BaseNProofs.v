(** Proofs about base26.c and base64.c. *)
From Verif Require Import Base CStr BaseNModel BaseNSpec.
Local Open Scope N_scope.

(** ** numerals *)
  (** the last [n] digits of [v] *)
  Fixpoint bigend (b : N) (chr : N -> N) (n : nat) (v : N) : list N :=
    match n with O => [] | S n' => bigend b chr n' (v / b) ++ [chr (v mod b)] end.
  Lemma bigend_length b chr n v : length (bigend b chr n v) = n.
  Proof. revert v. induction n; intros v; simpl; [done|]. rewrite app_length, IHn. simpl. lia. Qed.
  Lemma strip_spec zero n : forall i r, (i + n < length r)%nat ->
    exists j, strip n i zero r = Ret (drop j r) /\ (i <= j <= i + n)%nat /\
      (forall k, (i <= k < j)%nat -> r !! k = Some zero) /\
      ((j < i + n)%nat -> r !! j <> Some zero).
  Proof.
    induction n as [|n IH]; intros i r Hl; cbn [strip].
    - exists i. repeat split; try lia.
    - destruct (lookup_lt_is_Some_2 r i) as [c Hc]; [lia|].
      rewrite (aget_Some _ _ _ Hc). rb. destruct (N.eqb_spec c zero) as [->|Hne]; simpl.
      + destruct (IH (S i) r) as (j & E & Hj & Hz & Hn); [lia|].
        exists j. split; [done|]. split; [lia|]. split; [|intros ?; apply Hn; lia].
        intros k Hk. destruct (decide (k = i)) as [->|]; [done|]. apply Hz. lia.
      + exists i. repeat split; try lia. intros _. congruence.
  Qed.

Section num.
  Context (d : N -> option N) (b : N).
  Lemma value_app s1 s2 acc : value d b acc (s1 ++ s2) =
    match value d b acc s1 with Some v => value d b v s2 | None => None end.
  Proof.
    revert acc. induction s1 as [|c s1 IH]; intros acc; simpl; [done|].
    destruct (d c); [apply IH|done].
  Qed.
  Lemma value_acc s : forall acc, value d b acc s =
    match value d b 0 s with Some v => Some (acc * b ^ N.of_nat (length s) + v) | None => None end.
  Proof.
    induction s as [|c s IH]; intros acc.
    - simpl. f_equal. change (b ^ 0) with 1. lia.
    - cbn [value length]. destruct (d c) as [x|]; [|done].
      rewrite (IH (acc * b + x)), (IH (0 * b + x)).
      destruct (value d b 0 s) as [v|]; [|done]. f_equal.
      rewrite Nat2N.inj_succ, N.pow_succ_r'. lia.
  Qed.
  Lemma value_cons c s : value d b 0 (c :: s) =
    match d c, value d b 0 s with
    | Some x, Some v => Some (x * b ^ N.of_nat (length s) + v) | _, _ => None end.
  Proof. cbn [value]. destruct (d c) as [x|]; [|done]. rewrite value_acc. by replace (0 * b + x) with x by lia. Qed.
  Lemma value_lt s v : (forall c x, d c = Some x -> x < b) -> value d b 0 s = Some v ->
    v < b ^ N.of_nat (length s).
  Proof.
    intros Hd. revert v. induction s as [|c s IH]; intros v.
    - intros [= <-]. done.
    - rewrite value_cons. destruct (d c) as [x|] eqn:E; [|done].
      destruct (value d b 0 s) as [w|]; [|done]. intros [= <-].
      specialize (IH w eq_refl). apply Hd in E. cbn [length].
      rewrite Nat2N.inj_succ, N.pow_succ_r'.
      assert (x * b ^ N.of_nat (length s) + b ^ N.of_nat (length s) <= b * b ^ N.of_nat (length s)) by nia. lia.
  Qed.

  Context (chr : N -> N) (Hb : 1 < b) (Hchr : forall x, x < b -> d (chr x) = Some x).
  Lemma bigend_value n v : value d b 0 (bigend b chr n v) = Some (v mod b ^ N.of_nat n).
  Proof.
    revert v. induction n as [|n IH]; intros v.
    - simpl. rewrite N.mod_1_r. done.
    - cbn [bigend]. rewrite value_app, IH. cbn [value].
      rewrite Hchr by (apply N.mod_lt; lia). f_equal.
      rewrite Nat2N.inj_succ, N.pow_succ_r'. rewrite N.mod_mul_r by (try apply N.pow_nonzero; lia). lia.
  Qed.
  Lemma bigend_digit n v i c : bigend b chr n v !! i = Some c -> exists x, x < b /\ c = chr x.
  Proof.
    revert v i. induction n as [|n IH]; intros v i; [done|]. cbn [bigend].
    intros [H|[_ H]]%lookup_app_Some; [by apply IH in H|].
    destruct (i - length (bigend b chr n (v / b)))%nat; simpl in H; [|done]. simplify_eq.
    eexists. split; [|done]. apply N.mod_lt. lia.
  Qed.

  Lemma value_drop_zeros s j v : d (chr 0) = Some 0 -> (forall k, (k < j)%nat -> s !! k = Some (chr 0)) ->
    value d b 0 s = Some v -> value d b 0 (drop j s) = Some v.
  Proof.
    intros H0. revert s. induction j as [|j IH]; intros s Hz Hv; [by rewrite drop_0|].
    destruct s as [|c s]; [done|]. simpl.
    assert (c = chr 0) as -> by (specialize (Hz 0%nat ltac:(lia)); simpl in Hz; congruence).
    apply IH.
    - intros k Hk. by apply (Hz (S k)); lia.
    - revert Hv. cbn [value]. rewrite H0. done.
  Qed.

  Lemma strip_bigend n v : exists s, strip n 0 (chr 0) (bigend b chr (S n) v ++ [0]) = Ret (s ++ [0]) /\
    means d b s (v mod b ^ N.of_nat (S n)) /\ shortest d s /\ (length s <= S n)%nat /\
    Forall (fun c => exists x, x < b /\ c = chr x) s.
  Proof.
    set (L := bigend b chr (S n) v). assert (HL : length L = S n) by apply bigend_length.
    destruct (strip_spec (chr 0) n 0 (L ++ [0])) as (j & E & Hj & Hz & Hn).
    { rewrite app_length, HL. simpl. lia. }
    exists (drop j L). rewrite E. rewrite drop_app_le by lia. split; [done|].
    assert (Hlk : forall k, (k < S n)%nat -> (L ++ [0]) !! k = L !! k).
    { intros k Hk. apply lookup_app_l. lia. }
    split; [|split; [split|split]].
    - apply value_drop_zeros; [apply Hchr; lia| |apply bigend_value].
      intros k Hk. rewrite <- Hlk by lia. apply Hz. lia.
    - intros Hnil. apply (f_equal length) in Hnil. rewrite drop_length in Hnil. simpl in Hnil. lia.
    - intros c c' s' Hs Hc0.
      assert (Hc : L !! j = Some c) by (rewrite <- (Nat.add_0_r j), <- lookup_drop, Hs; done).
      assert (length (drop j L) >= 2)%nat by (rewrite Hs; simpl; lia). rewrite drop_length in *.
      apply Hn; [lia|]. rewrite Hlk by lia. rewrite Hc.
      destruct (bigend_digit _ _ _ _ Hc) as (x & Hx & ->). rewrite Hchr in Hc0 by done. congruence.
    - rewrite drop_length. lia.
    - apply Forall_drop, Forall_lookup. intros i c Hc. by apply bigend_digit in Hc.
  Qed.
End num.

(** ** base 26 *)
Definition chr26 (x : N) : N := x + 97.
Lemma chr26_ok x : x < 26 -> d26 (chr26 x) = Some x.
Proof. unfold d26, chr26. intros H. replace ((97 <=? x + 97) && (x + 97 <=? 122)) with true by lia. f_equal; lia. Qed.
Lemma d26_lt c x : d26 c = Some x -> x < 26.
Proof. unfold d26. destruct (_ && _) eqn:E; [|done]. intros [= <-]. lia. Qed.
Lemma b26_list_get x : x < 26 -> aget b26_list (N.to_nat x) = Ret (chr26 x).
Proof.
  intros H. apply aget_Some. unfold b26_list. rewrite lookup_app_l by (rewrite fmap_length, seq_length; lia).
  rewrite list_lookup_fmap, lookup_seq_lt by lia. unfold chr26. unfold fmap, option_fmap, option_map. f_equal. lia.
Qed.
Lemma bytes_forall (P : N -> bool) : forallb P (N.of_nat <$> seq 0 256) = true -> forall c, c < 256 -> P c = true.
Proof.
  intros H c Hc. rewrite forallb_forall in H. apply H. apply elem_of_list_In, elem_of_list_fmap.
  exists (N.to_nat c). split; [lia|]. apply elem_of_seq. lia.
Qed.
Lemma b26_index_get c : c < 256 -> aget b26_index (N.to_nat c) =
  Ret (match d26 c with Some x => Z.of_N x | None => XX end).
Proof.
  intros Hc. apply (bool_decide_eq_true_1 (aget b26_index (N.to_nat c) =
    Ret (match d26 c with Some x => Z.of_N x | None => XX end))).
  refine (bytes_forall (fun c => bool_decide (aget b26_index (N.to_nat c) =
    Ret (match d26 c with Some x => Z.of_N x | None => XX end))) _ c Hc). vm_compute. reflexivity.
Qed.

Lemma b26_digits_spec n : forall r v, (n <= length r)%nat ->
  b26_digits n r v = Ret (bigend 26 chr26 n v ++ drop n r).
Proof.
  induction n as [|n IH]; intros r v Hl; cbn [b26_digits bigend]; [done|].
  rewrite b26_list_get by (apply N.mod_lt; lia). rb.
  destruct (lookup_lt_is_Some_2 r n) as [c Hc]; [lia|].
  rewrite (aset_Some _ _ _ _ Hc). rb. rewrite IH by (rewrite insert_length; lia).
  f_equal. rewrite <- app_assoc. f_equal.
  rewrite (drop_S _ (chr26 (v mod 26))) by (apply list_lookup_insert; lia). simpl. f_equal.
  rewrite drop_insert_gt by lia. done.
Qed.

(** the static state of b26_encode after any sequence of calls *)
Inductive b26_reach : b26 -> Prop :=
| b26_start : b26_reach b26_init
| b26_called st val st' p : b26_reach st -> b26_encode st val = Ret (st', p) -> b26_reach st'.
Definition b26_inv (st : b26) : Prop := result st = bigend 26 chr26 7 (previous st) ++ [0].

Lemma b26_encode_ok st val : b26_inv st -> exists st' s, b26_encode st val = Ret (st', s ++ [0]) /\
  b26_inv st' /\ means d26 26 s (val mod 26 ^ 7) /\ shortest d26 s /\ str_ok s /\ (length s <= 7)%nat.
Proof.
  intros Hi. unfold b26_encode.
  assert (exists st', (if negb (previous st =? val) then
           r ← b26_digits 7 (result st) val; r' ← aset r 7 0; Ret (B26 r' val)
         else Ret st) = Ret st' /\ b26_inv st' /\ previous st' = val) as (st' & -> & Hi' & <-).
  { destruct (N.eqb_spec (previous st) val) as [<-|Hne]; cbn [negb]; [eauto|].
    exists (B26 (bigend 26 chr26 7 val ++ [0]) val). split; [|done].
    rewrite Hi. rewrite b26_digits_spec by (rewrite app_length, bigend_length; simpl; lia). rb.
    rewrite drop_app_alt by (by rewrite bigend_length).
    rewrite (aset_Some _ _ 0) by (rewrite lookup_app_r; rewrite bigend_length; [done|lia]). rb.
    reflexivity. }
  rb. change (aget b26_list 0) with (@Ret N (chr26 0)). rb. rewrite Hi'.
  destruct (strip_bigend d26 26 chr26 ltac:(lia) chr26_ok 6 (previous st')) as (s & -> & Hm & Hs & Hl & Hc). rb.
  exists st', s. repeat split; try done. { apply Hs. } { apply Hs. }
  eapply Forall_impl; [exact Hc|]. intros c (x & Hx & ->). unfold chr26. lia.
Qed.
Lemma b26_reach_inv st : b26_reach st -> b26_inv st.
Proof.
  induction 1 as [|st val st' p H IH E]; [reflexivity|].
  destruct (b26_encode_ok st val IH) as (st2 & s & E' & Hi & _). rewrite E' in E. by simplify_eq.
Qed.

Lemma b26_loop_legal s : forall a t v0 k v, str_ok s ->
  value d26 26 0 s = Some v -> (k + length s <= 6)%nat -> v0 < 26 ^ N.of_nat k ->
  v0 + v * 26 ^ N.of_nat k < 26 ^ N.of_nat (k + length s) /\
  b26_loop (length a + length s) (a ++ s ++ t) v0 (26 ^ Z.of_nat k) =
  b26_loop (length a) (a ++ s ++ t) (v0 + v * 26 ^ N.of_nat k) (26 ^ Z.of_nat (k + length s)).
Proof.
  induction s as [|c s IH] using rev_ind; intros a t v0 k v Hs Hv Hl H0.
  - simpl in *. simplify_eq. rewrite !Nat.add_0_r. replace (v0 + 0 * 26 ^ N.of_nat k) with v0 by lia. done.
  - rewrite app_length in *. simpl in Hl. simpl length.
    replace (length a + (length s + 1))%nat with (S (length a + length s)) by lia.
    replace (k + (length s + 1))%nat with (S k + length s)%nat by lia.
    cbn [b26_loop]. apply Forall_app in Hs as [Hs Hc]. apply Forall_cons in Hc as [Hc _].
    rewrite <- app_assoc in *. cbn [app] in *.
    rewrite (aget_Some _ _ c)
      by (rewrite app_assoc; apply list_lookup_middle; by rewrite app_length). rb.
    rewrite b26_index_get by lia. rb.
    rewrite value_app in Hv. destruct (value d26 26 0 s) as [w|] eqn:Ew; [|done]. cbn [value] in Hv.
    destruct (d26 c) as [x|] eqn:Ex; [|done]. simplify_eq.
    assert (Hx := d26_lt _ _ Ex).
    destruct (Z.eqb_spec (Z.of_N x) XX) as [E|_]; [unfold XX in E; lia|].
    assert (Hk : (k <= 5)%nat) by lia.
    assert (Hp : (26 ^ Z.of_nat k <= 26 ^ 5)%Z) by (apply Z.pow_le_mono_r; lia).
    change (26 ^ 5)%Z with 11881376%Z in Hp.
    assert (0 < 26 ^ Z.of_nat k)%Z by (apply Z.pow_pos_nonneg; lia).
    assert (HNZ : Z.of_N (26 ^ N.of_nat k) = (26 ^ Z.of_nat k)%Z) by (rewrite N2Z.inj_pow; f_equal; lia).
    unfold sint, int_range, INT_MIN, INT_MAX.
    rewrite (proj2 (Bool.andb_true_iff (- 2 ^ 31 <=? Z.of_N x * 26 ^ Z.of_nat k)%Z _)) by (split; apply Z.leb_le; nia). rb.
    rewrite (proj2 (Bool.andb_true_iff (- 2 ^ 31 <=? 26 ^ Z.of_nat k * 26)%Z _)) by (split; apply Z.leb_le; lia). rb.
    replace (26 ^ Z.of_nat k * 26)%Z with (26 ^ Z.of_nat (S k))%Z
      by (rewrite Nat2Z.inj_succ, Z.pow_succ_r by lia; lia).
    rewrite Z.mod_small by nia.
    replace (Z.to_N (Z.of_N x * 26 ^ Z.of_nat k)) with (x * 26 ^ N.of_nat k) by nia.
    set (q := 26 ^ N.of_nat k) in *.
    unfold u64. rewrite N.mod_small by nia.
    assert (HS : 26 ^ N.of_nat (S k) = 26 * q) by (unfold q; rewrite Nat2N.inj_succ, N.pow_succ_r'; done).
    destruct (IH a (c :: t) (v0 + x * q) (S k) w) as [Hb ->]; try done; try lia; [rewrite HS; nia|].
    replace (v0 + x * q + w * 26 ^ N.of_nat (S k)) with (v0 + (w * 26 + x) * q) in * by (rewrite HS; lia). done.
Qed.

(** one step on a character [c] with [k] digits after it *)
Lemma b26_step a c t v k : c < 256 -> (k <= 6)%nat ->
  b26_loop (S (length a)) (a ++ c :: t) v (26 ^ Z.of_nat k) =
  match d26 c with
  | None => Abort
  | Some x => if (k =? 6)%nat then UB else b26_loop (length a) (a ++ c :: t)
                 (u64 (v + Z.to_N ((Z.of_N x * 26 ^ Z.of_nat k) mod 2 ^ 64))) (26 ^ Z.of_nat (S k))
  end.
Proof.
  intros Hc Hk. cbn [b26_loop]. rewrite (aget_Some _ _ c) by (by apply list_lookup_middle). rb.
  rewrite b26_index_get by lia. rb. destruct (d26 c) as [x|] eqn:Ex; [|done].
  assert (Hx := d26_lt _ _ Ex). destruct (Z.eqb_spec (Z.of_N x) XX) as [E|_]; [unfold XX in E; lia|].
  unfold sint, int_range, INT_MIN, INT_MAX. destruct (Nat.eqb_spec k 6) as [->|Hne].
  - match goal with |- context [if ?b then Ret (Z.of_N x * _)%Z else UB] => destruct b end; rb; reflexivity.
  - assert (Hp : (26 ^ Z.of_nat k <= 26 ^ 5)%Z) by (apply Z.pow_le_mono_r; lia).
    change (26 ^ 5)%Z with 11881376%Z in Hp.
    assert (0 < 26 ^ Z.of_nat k)%Z by (apply Z.pow_pos_nonneg; lia).
    rewrite (proj2 (Bool.andb_true_iff (- 2 ^ 31 <=? Z.of_N x * 26 ^ Z.of_nat k)%Z _)) by (split; apply Z.leb_le; nia). rb.
    rewrite (proj2 (Bool.andb_true_iff (- 2 ^ 31 <=? 26 ^ Z.of_nat k * 26)%Z _)) by (split; apply Z.leb_le; lia). rb.
    replace (26 ^ Z.of_nat k * 26)%Z with (26 ^ Z.of_nat (S k))%Z
      by (rewrite Nat2Z.inj_succ, Z.pow_succ_r by lia; lia). done.
Qed.

Lemma b26_decode_start s t : str_ok s -> (Z.of_nat (length s) < 2 ^ 31)%Z ->
  b26_decode (s ++ 0 :: t) = b26_loop (length s) (s ++ 0 :: t) 0 1.
Proof.
  intros Hs Hl. unfold b26_decode. rewrite c_string_spec by done. rb.
  unfold to_int. rewrite Z.mod_small by lia. f_equal. lia.
Qed.

Lemma b26_decode_legal s t v : str_ok s -> (length s <= 6)%nat -> means d26 26 s v ->
  b26_decode (s ++ 0 :: t) = Ret v.
Proof.
  intros Hs Hl Hv. rewrite b26_decode_start by (done || lia).
  destruct (b26_loop_legal s [] (0 :: t) 0 0 v) as [_ E]; try done; try lia.
  cbn [length app Nat.add] in E. change (26 ^ Z.of_nat 0)%Z with 1%Z in E. rewrite E. cbn [b26_loop].
  f_equal. change (26 ^ N.of_nat 0) with 1. lia.
Qed.
Lemma b26_decode_long a c s t : str_ok (a ++ c :: s) -> (Z.of_nat (length (a ++ c :: s)) < 2 ^ 31)%Z ->
  length s = 6%nat -> is_Some (value d26 26 0 (c :: s)) ->
  b26_decode ((a ++ c :: s) ++ 0 :: t) = UB.
Proof.
  intros Hs Hl H6 [v Hv]. rewrite b26_decode_start by done.
  rewrite value_cons in Hv. destruct (d26 c) as [x|] eqn:Ec; [|done].
  destruct (value d26 26 0 s) as [w|] eqn:Ew; [|done].
  assert (Hs' := Hs). apply Forall_app in Hs' as [_ Hs']. apply Forall_cons in Hs' as [Hc Hs'].
  destruct (b26_loop_legal s (a ++ [c]) (0 :: t) 0 0 w) as [_ E]; try done; try lia.
  rewrite app_length in *. cbn [length] in *. rewrite <- !app_assoc in *. cbn [app] in *.
  change (26 ^ Z.of_nat 0)%Z with 1%Z in E.
  replace (length a + S (length s))%nat with (length a + 1 + length s)%nat by lia. rewrite E.
  replace (length a + 1)%nat with (S (length a)) by lia. rewrite b26_step by lia.
  by rewrite Ec, H6.
Qed.
Lemma b26_decode_illegal a c s t : str_ok (a ++ c :: s) -> (Z.of_nat (length (a ++ c :: s)) < 2 ^ 31)%Z ->
  d26 c = None -> (length s <= 6)%nat -> is_Some (value d26 26 0 s) ->
  b26_decode ((a ++ c :: s) ++ 0 :: t) = Abort.
Proof.
  intros Hs Hl Ec H6 [w Ew]. rewrite b26_decode_start by done.
  assert (Hs' := Hs). apply Forall_app in Hs' as [_ Hs']. apply Forall_cons in Hs' as [Hc Hs'].
  destruct (b26_loop_legal s (a ++ [c]) (0 :: t) 0 0 w) as [_ E]; try done; try lia.
  rewrite app_length in *. cbn [length] in *. rewrite <- !app_assoc in *. cbn [app] in *.
  change (26 ^ Z.of_nat 0)%Z with 1%Z in E.
  replace (length a + S (length s))%nat with (length a + 1 + length s)%nat by lia. rewrite E.
  replace (length a + 1)%nat with (S (length a)) by lia. rewrite b26_step by lia. by rewrite Ec.
Qed.

Lemma b26_roundtrip st val t : b26_reach st -> val < 26 ^ 6 ->
  exists st' s, b26_encode st val = Ret (st', s ++ [0]) /\ b26_decode (s ++ 0 :: t) = Ret val.
Proof.
  intros Hr Hv. destruct (b26_encode_ok st val (b26_reach_inv _ Hr)) as (st' & s & E & _ & Hm & Hsh & Hs & Hl).
  exists st', s. split; [done|]. rewrite N.mod_small in Hm by (change (26 ^ 7) with (26 * 26 ^ 6); lia).
  apply b26_decode_legal; try done.
  destruct s as [|c [|c' s]]; simpl in *; [lia|lia|].
  assert (Hc0 : d26 c <> Some 0) by (apply Hsh with (1 := eq_refl)).
  unfold means in Hm. rewrite value_cons in Hm. destruct (d26 c) as [x|]; [|done].
  destruct (value d26 26 0 (c' :: s)) as [w|]; [|done].
  destruct (decide (length s <= 4)%nat); [lia|].
  assert (length s = 5)%nat as H5 by lia. simpl in Hm. rewrite H5 in Hm.
  change (26 ^ N.of_nat 6) with (26 ^ 6) in Hm. assert (x <> 0) by congruence.
  simplify_eq. nia.
Qed.

(** ** base 64 *)
Definition chr64 (x : N) : N :=
  if x <? 26 then x + 65 else if x <? 52 then x + 71 else if x <? 62 then x - 4
  else if x =? 62 then 43 else 47.
Lemma chr64_ok x : x < 64 -> d64 (chr64 x) = Some x.
Proof.
  intros H. apply (bool_decide_eq_true_1 (d64 (chr64 x) = Some x)).
  assert (Hf : forall y, y < 256 -> (fun y => (64 <=? y) || bool_decide (d64 (chr64 y) = Some y)) y = true).
  { apply bytes_forall. vm_compute. reflexivity. }
  specialize (Hf x ltac:(lia)). cbv beta in Hf. apply orb_true_iff in Hf as [Hf|Hf]; [lia|done].
Qed.
Lemma d64_lt c x : d64 c = Some x -> x < 64.
Proof.
  unfold d64. destruct (_ && _) eqn:E1; [intros [= <-]; lia|].
  destruct ((97 <=? c) && (c <=? 122)) eqn:E2; [intros [= <-]; lia|].
  destruct ((48 <=? c) && (c <=? 57)) eqn:E3; [intros [= <-]; lia|].
  destruct (c =? 43); [intros [= <-]; lia|]. destruct (c =? 47); [intros [= <-]; lia|done].
Qed.
Lemma b64_list_get x : x < 64 -> aget b64_list (N.to_nat x) = Ret (chr64 x).
Proof.
  intros H. apply (bool_decide_eq_true_1 (aget b64_list (N.to_nat x) = Ret (chr64 x))).
  assert (Hf : forall y, y < 256 -> (fun y => (64 <=? y) || bool_decide (aget b64_list (N.to_nat y) = Ret (chr64 y))) y = true).
  { apply bytes_forall. vm_compute. reflexivity. }
  specialize (Hf x ltac:(lia)). cbv beta in Hf. apply orb_true_iff in Hf as [Hf|Hf]; [lia|done].
Qed.
Lemma b64_index_get c : c < 256 -> aget b64_index (N.to_nat c) =
  Ret (match d64 c with Some x => Z.of_N x | None => XX end).
Proof.
  intros Hc. apply (bool_decide_eq_true_1 (aget b64_index (N.to_nat c) =
    Ret (match d64 c with Some x => Z.of_N x | None => XX end))).
  refine (bytes_forall (fun c => bool_decide (aget b64_index (N.to_nat c) =
    Ret (match d64 c with Some x => Z.of_N x | None => XX end))) _ c Hc). vm_compute. reflexivity.
Qed.

Lemma field val k m w : N.shiftr m k = N.ones w -> N.shiftr (N.land val m) k = (val / 2 ^ k) mod 2 ^ w.
Proof. intros H. rewrite N.shiftr_land, H, N.land_ones, N.shiftr_div_pow2. done. Qed.

Lemma b64_encode_ok val : exists s, b64_encode val = Ret (s ++ [0]) /\
  means d64 64 s (val mod 2 ^ 32) /\ shortest d64 s /\ str_ok s /\ (length s <= 6)%nat.
Proof.
  set (w := val mod 2 ^ 32).
  assert (Hw : w < 2 ^ 32) by (apply N.mod_lt; lia).
  destruct (strip_bigend d64 64 chr64 ltac:(lia) chr64_ok 5 w) as (s & E & Hm & Hs & Hl & Hc).
  exists s. split; [|split; [|split; [done|split; [|lia]]]].
  - unfold b64_encode.
    rewrite (field val 30 0xc0000000 2), (field val 24 0x3f000000 6), (field val 18 0x00fc0000 6),
      (field val 12 0x0003f000 6), (field val 6 0x00000fc0 6) by reflexivity.
    change 0x0000003f with (N.ones 6). rewrite N.land_ones.
    change (2 ^ 6) with 64. change (2 ^ 2) with 4.
    rewrite !b64_list_get by
      first [apply N.mod_lt; lia | eapply N.lt_trans; [apply N.mod_lt; lia|lia]].
    rb. change (aget b64_list 0) with (@Ret N (chr64 0)). rb. rewrite <- E.
    f_equal. cbn [bigend app]. rewrite !N.div_div by lia.
    f_equal.
    + f_equal. assert (w < 2 ^ 32) by done. change (2 ^ 30) with 1073741824.
      change (64 * (64 * (64 * (64 * 64)))) with 1073741824. unfold w. change (2 ^ 32) with 4294967296 in *. lia.
    + f_equal; [f_equal; unfold w; change (2 ^ 24) with 16777216; change (64 * (64 * (64 * 64))) with 16777216;
        change (2 ^ 32) with 4294967296 in *; lia|].
      f_equal; [f_equal; unfold w; change (2 ^ 18) with 262144; change (64 * (64 * 64)) with 262144;
        change (2 ^ 32) with 4294967296 in *; lia|].
      f_equal; [f_equal; unfold w; change (2 ^ 12) with 4096; change (64 * 64) with 4096;
        change (2 ^ 32) with 4294967296 in *; lia|].
      f_equal; [f_equal; unfold w; change (2 ^ 32) with 4294967296 in *; lia|].
      f_equal; f_equal; unfold w; change (2 ^ 32) with 4294967296 in *; lia.
  - rewrite N.mod_small in Hm; [done|]. change (64 ^ N.of_nat 6) with (2 ^ 36). lia.
  - eapply Forall_impl; [exact Hc|]. intros c (x & Hx & ->). unfold chr64. 
    repeat (case_match; [lia|]). lia.
Qed.

Lemma lor_disjoint v x m : v < 2 ^ m -> N.lor v (x * 2 ^ m) = v + x * 2 ^ m.
Proof.
  intros H. assert (Hl : N.land v (x * 2 ^ m) = 0).
  { apply N.bits_inj. intros i. rewrite N.land_spec, N.bits_0. apply andb_false_iff.
    destruct (N.lt_ge_cases i m) as [Hi|Hi]; [right; by apply N.mul_pow2_bits_low|left].
    destruct (N.eq_dec v 0) as [->|Hv]; [apply N.bits_0|]. apply N.bits_above_log2.
    apply N.lt_le_trans with m; [|done]. apply N.log2_lt_pow2; lia. }
  rewrite <- N.lxor_lor, N.add_nocarry_lxor by done. done.
Qed.

Lemma pow64 k : 64 ^ k = 2 ^ (6 * k).
Proof. change 64 with (2 ^ 6). by rewrite <- N.pow_mul_r. Qed.

Lemma b64_step a c t v k : c < 256 -> (k <= 6)%nat -> v < 64 ^ N.of_nat k ->
  b64_loop (S (length a)) (a ++ c :: t) v (6 * Z.of_nat k) =
  match d64 c with
  | None => Abort
  | Some x => if (k =? 6)%nat || (2 ^ 31 <=? x * 64 ^ N.of_nat k) then UB else
     b64_loop (length a) (a ++ c :: t) (v + x * 64 ^ N.of_nat k) (6 * Z.of_nat (S k))
  end.
Proof.
  intros Hc Hk Hv. cbn [b64_loop]. rewrite (aget_Some _ _ c) by (by apply list_lookup_middle). rb.
  rewrite b64_index_get by lia. rb. destruct (d64 c) as [x|] eqn:Ex; [|done].
  assert (Hx := d64_lt _ _ Ex). destruct (Z.eqb_spec (Z.of_N x) XX) as [E|_]; [unfold XX in E; lia|].
  unfold shl_int. destruct (Nat.eqb_spec k 6) as [->|Hne]; simpl orb.
  { change (6 * Z.of_nat 6)%Z with 36%Z. change (36 <? 32)%Z with false. rewrite andb_false_r. done. }
  rewrite (proj2 (Bool.andb_true_iff ((0 <=? Z.of_N x) && (0 <=? 6 * Z.of_nat k))%Z _)) by lia.
  assert (HP : (Z.of_N (64 ^ N.of_nat k) = 2 ^ (6 * Z.of_nat k))%Z).
  { rewrite pow64, N2Z.inj_pow. f_equal; lia. }
  rewrite <- HP. set (q := 64 ^ N.of_nat k) in *.
  unfold sint, int_range, INT_MIN, INT_MAX.
  destruct (N.leb_spec (2 ^ 31) (x * q)) as [Hb|Hb].
  - rewrite (proj2 (Bool.andb_false_iff (- 2 ^ 31 <=? Z.of_N x * Z.of_N q)%Z _)); [done|].
    right. apply Z.leb_gt. lia.
  - rewrite (proj2 (Bool.andb_true_iff (- 2 ^ 31 <=? Z.of_N x * Z.of_N q)%Z _)) by (split; apply Z.leb_le; lia). rb.
    rewrite (proj2 (Bool.andb_true_iff (- 2 ^ 31 <=? 6 * Z.of_nat k + 6)%Z _)) by (split; apply Z.leb_le; lia). rb.
    rewrite Z.mod_small by lia. replace (Z.to_N (Z.of_N x * Z.of_N q)) with (x * q) by lia.
    unfold q in *. rewrite pow64 in *. rewrite lor_disjoint by done. f_equal. lia.
Qed.

Lemma b64_loop_legal s : forall a t v0 k v, str_ok s -> value d64 64 0 s = Some v ->
  (k + length s <= 6)%nat -> v0 < 64 ^ N.of_nat k -> v0 + v * 64 ^ N.of_nat k < 2 ^ 31 ->
  v0 + v * 64 ^ N.of_nat k < 64 ^ N.of_nat (k + length s) /\
  b64_loop (length a + length s) (a ++ s ++ t) v0 (6 * Z.of_nat k) =
  b64_loop (length a) (a ++ s ++ t) (v0 + v * 64 ^ N.of_nat k) (6 * Z.of_nat (k + length s)).
Proof.
  induction s as [|c s IH] using rev_ind; intros a t v0 k v Hs Hv Hl H0 Hb.
  - simpl in *. simplify_eq. rewrite !Nat.add_0_r. replace (v0 + 0 * 64 ^ N.of_nat k) with v0 by lia. done.
  - rewrite app_length in *. simpl in Hl. simpl length.
    replace (length a + (length s + 1))%nat with (S (length (a ++ s))) by (rewrite app_length; lia).
    replace (k + (length s + 1))%nat with (S k + length s)%nat by lia.
    apply Forall_app in Hs as [Hs Hc]. apply Forall_cons in Hc as [Hc _].
    rewrite <- (app_assoc s). cbn [app] in *.
    rewrite (app_assoc a s). rewrite b64_step by (done || lia).
    rewrite value_app in Hv. destruct (value d64 64 0 s) as [w|] eqn:Ew; [|done]. cbn [value] in Hv.
    destruct (d64 c) as [x|] eqn:Ex; [|done]. simplify_eq.
    assert (Hx := d64_lt _ _ Ex).
    assert (HS : 64 ^ N.of_nat (S k) = 64 * 64 ^ N.of_nat k) by (rewrite Nat2N.inj_succ, N.pow_succ_r'; done).
    set (q := 64 ^ N.of_nat k) in *.
    destruct (Nat.eqb_spec k 6); [lia|]. simpl orb.
    destruct (N.leb_spec (2 ^ 31) (x * q)); [nia|].
    rewrite app_length, <- app_assoc.
    destruct (IH a (c :: t) (v0 + x * q) (S k) w) as [Hb' E]; [done|done|lia|rewrite HS; nia|rewrite HS; lia|].
    rewrite E. replace (v0 + x * q + w * 64 ^ N.of_nat (S k)) with (v0 + (w * 64 + x) * q) in * by (rewrite HS; lia).
    done.
Qed.

Lemma b64_decode_buf_start (n : nat) buf : (Z.of_nat n < 2 ^ 31)%Z -> b64_decode_buf buf (N.of_nat n) = b64_loop n buf 0 0.
Proof.
  intros Hl. unfold b64_decode_buf, u64_dec, u64, to_int. destruct n as [|n]; [reflexivity|].
  replace (N.of_nat (S n) + (2 ^ 64 - 1)) with (N.of_nat n + 1 * 2 ^ 64) by lia.
  rewrite N.mod_add by lia. rewrite N.mod_small by lia. rewrite Z.mod_small by lia. f_equal. lia.
Qed.

Lemma b64_buf_legal s t v : str_ok s -> (length s <= 6)%nat -> means d64 64 s v -> v < 2 ^ 31 ->
  b64_decode_buf (s ++ t) (N.of_nat (length s)) = Ret v.
Proof.
  intros Hs Hl Hv Hb. rewrite b64_decode_buf_start by lia.
  destruct (b64_loop_legal s [] t 0 0 v) as [_ E]; [done|done|lia|done|change (64 ^ N.of_nat 0) with 1; lia|].
  cbn [length app Nat.add] in E. change (6 * Z.of_nat 0)%Z with 0%Z in E. rewrite E. cbn [b64_loop].
  f_equal. change (64 ^ N.of_nat 0) with 1. lia.
Qed.

(** the last digits of a long string *)
Lemma b64_tail a c s t w : str_ok (a ++ c :: s) -> (Z.of_nat (length (a ++ c :: s)) < 2 ^ 31)%Z ->
  (length s <= 6)%nat -> means d64 64 s w -> w < 2 ^ 31 ->
  b64_decode_buf ((a ++ c :: s) ++ t) (N.of_nat (length (a ++ c :: s))) =
  match d64 c with
  | None => Abort
  | Some x => if (length s =? 6)%nat || (2 ^ 31 <=? x * 64 ^ N.of_nat (length s)) then UB else
     b64_loop (length a) (a ++ c :: s ++ t) (w + x * 64 ^ N.of_nat (length s)) (6 * Z.of_nat (S (length s)))
  end.
Proof.
  intros Hs Hl H6 Ew Hw. rewrite b64_decode_buf_start by done.
  assert (Hs' := Hs). apply Forall_app in Hs' as [_ Hs']. apply Forall_cons in Hs' as [Hc Hs'].
  destruct (b64_loop_legal s (a ++ [c]) t 0 0 w) as [Hb E]; [done|done|lia|done|change (64 ^ N.of_nat 0) with 1; lia|].
  rewrite app_length in *. cbn [length] in *. rewrite <- !app_assoc in *. cbn [app] in *.
  change (6 * Z.of_nat 0)%Z with 0%Z in E. cbn [Nat.add] in *.
  replace (0 + w * 64 ^ N.of_nat 0) with w in * by (change (64 ^ N.of_nat 0) with 1; lia).
  replace (length a + S (length s))%nat with (length a + 1 + length s)%nat by lia. rewrite E.
  replace (length a + 1)%nat with (S (length a)) by lia. rewrite b64_step by (done || lia). done.
Qed.

Lemma b64_value_six c s x w : length s = 5%nat -> d64 c = Some x -> means d64 64 s w ->
  means d64 64 (c :: s) (x * 64 ^ 5 + w) /\ w < 64 ^ 5.
Proof.
  intros H5 Hx Hw. unfold means in *. rewrite value_cons, Hx, Hw, H5. split; [done|].
  apply (value_lt d64 64) in Hw; [|apply d64_lt]. by rewrite H5 in Hw.
Qed.

(** a six digit numeral of 2^31 or more *)
Lemma b64_buf_over a s t v : str_ok (a ++ s) -> (Z.of_nat (length (a ++ s)) < 2 ^ 31)%Z ->
  length s = 6%nat -> means d64 64 s v -> 2 ^ 31 <= v ->
  b64_decode_buf ((a ++ s) ++ t) (N.of_nat (length (a ++ s))) = UB.
Proof.
  intros Hs Hl H6 Hv Hb. destruct s as [|c s]; [done|]. injection H6 as H6.
  unfold means in Hv. rewrite value_cons in Hv. destruct (d64 c) as [x|] eqn:Ec; [|done].
  destruct (value d64 64 0 s) as [w|] eqn:Ew; [|done]. injection Hv as <-.
  assert (Hw := value_lt d64 64 s w d64_lt Ew). rewrite H6 in *.
  change (64 ^ N.of_nat 5) with 1073741824 in *.
  rewrite (b64_tail _ _ _ _ w) by (done || lia). rewrite Ec, H6.
  change (64 ^ N.of_nat 5) with 1073741824 in *.
  destruct (N.leb_spec (2 ^ 31) (x * 1073741824)); [by rewrite orb_true_r|].
  change (2 ^ 31) with 2147483648 in *. lia.
Qed.
(** seven legal digits *)
Lemma b64_buf_long a s t : str_ok (a ++ s) -> (Z.of_nat (length (a ++ s)) < 2 ^ 31)%Z ->
  length s = 7%nat -> is_Some (value d64 64 0 s) ->
  b64_decode_buf ((a ++ s) ++ t) (N.of_nat (length (a ++ s))) = UB.
Proof.
  intros Hs Hl H7 [v Hv]. destruct s as [|c s]; [done|]. injection H7 as H7.
  rewrite value_cons in Hv. destruct (d64 c) as [x|] eqn:Ec; [|done].
  destruct (value d64 64 0 s) as [w|] eqn:Ew; [|done]. 
  destruct (N.lt_ge_cases w (2 ^ 31)) as [Hw|Hw].
  - rewrite (b64_tail _ _ _ _ w) by (done || lia). by rewrite Ec, H7.
  - change (a ++ c :: s) with (a ++ [c] ++ s) in *. rewrite (app_assoc a [c] s) in *.
    eapply b64_buf_over; done.
Qed.
Lemma b64_buf_illegal a c s t w : str_ok (a ++ c :: s) -> (Z.of_nat (length (a ++ c :: s)) < 2 ^ 31)%Z ->
  d64 c = None -> (length s <= 6)%nat -> means d64 64 s w -> w < 2 ^ 31 ->
  b64_decode_buf ((a ++ c :: s) ++ t) (N.of_nat (length (a ++ c :: s))) = Abort.
Proof. intros Hs Hl Ec H6 Ew Hw. rewrite (b64_tail _ _ _ _ w) by done. by rewrite Ec. Qed.

Lemma b64_decode_start s t : str_ok s -> b64_decode (s ++ 0 :: t) = b64_decode_buf (s ++ 0 :: t) (N.of_nat (length s)).
Proof. intros Hs. unfold b64_decode. rewrite c_string_spec by done. rb. done. Qed.

Lemma b64_roundtrip val t : exists s, b64_encode val = Ret (s ++ [0]) /\
  b64_decode (s ++ 0 :: t) = if val mod 2 ^ 32 <? 2 ^ 31 then Ret (val mod 2 ^ 32) else UB.
Proof.
  destruct (b64_encode_ok val) as (s & E & Hm & Hsh & Hs & Hl). exists s. split; [done|].
  rewrite b64_decode_start by done. destruct (N.ltb_spec (val mod 2 ^ 32) (2 ^ 31)) as [Hlt|Hge].
  - by apply b64_buf_legal.
  - assert (length s = 6)%nat.
    { assert (Hb := value_lt d64 64 s _ d64_lt Hm).
      destruct (decide (length s <= 5)%nat); [|lia].
      assert (64 ^ N.of_nat (length s) <= 64 ^ 5) by (apply N.pow_le_mono_r; lia).
      change (64 ^ 5) with 1073741824 in *. change (2 ^ 31) with 2147483648 in *. lia. }
    rewrite <- (app_nil_l s) at 1. change s with ([] ++ s). rewrite app_nil_l at 1.
    eapply (b64_buf_over [] s (0 :: t)); simpl; try done; lia.
Qed.
