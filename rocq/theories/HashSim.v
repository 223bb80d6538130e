(** Relating iterations over a hash table with different iterators. *)
From Verif Require Import Base HashModel HashSpec HashProofs HashOps HashOps2 HashIter HashHist.
Local Open Scope Z_scope.

Section sim.
Context {K D : Type}.
Notation hst := (hst K D).

(** if [cb2] can follow every step of [cb1], the iteration with [cb2] follows that with
    [cb1].  [Q] is a property of the end that holds at every step before. *)
Section follow.
Context {U1 U2 : Type} (Q : U1 -> Prop) (R : hst -> U1 -> U2 -> Prop) (cb1 : iterator K D U1) (cb2 : iterator K D U2).
Context (Hback : forall k d t u1 t' u1' r, cb1 k d (t, u1) = Ret (t', u1', r) -> Q u1' -> Q u1).
Context (Hstep : forall k d t u1 u2 t' u1' r, R t u1 u2 -> cb1 k d (t, u1) = Ret (t', u1', r) -> Q u1' ->
  exists u2', cb2 k d (t, u2) = Ret (t', u2', r) /\ R t' u1' u2').
Lemma chain_back n : forall p t u1 t' u1' b, iter_chain n cb1 p (t, u1) = Ret (t', u1', b) -> Q u1' -> Q u1.
Proof.
  induction n as [|n IH]; intros p t u1 t' u1' b E HQ; destruct p as [a|]; cbn [iter_chain] in *; try discriminate E;
    try (injection E as <- <- <-; done).
  cbn [fst] in *. destruct (hget (heap t) a) as [bk| | | |]; try discriminate E. cbn [mbind res_bind] in *.
  destruct (cb1 (bkey bk) (bdatum bk) (t, u1)) as [[[t1 v1] r]| | | |] eqn:E1; try discriminate E. cbn [mbind res_bind] in *.
  eapply Hback; [exact E1|]. destruct (negb (r =? 0)); [by injection E as <- <- <-|]. by eapply IH.
Qed.
Lemma chain_follow n : forall p t u1 u2 t' u1' b, R t u1 u2 -> iter_chain n cb1 p (t, u1) = Ret (t', u1', b) -> Q u1' ->
  exists u2', iter_chain n cb2 p (t, u2) = Ret (t', u2', b) /\ R t' u1' u2'.
Proof.
  induction n as [|n IH]; intros p t u1 u2 t' u1' b HR E HQ; destruct p as [a|]; cbn [iter_chain] in *; try discriminate E;
    try (injection E as <- <- <-; eauto; fail).
  cbn [fst] in *. destruct (hget (heap t) a) as [bk| | | |]; try discriminate E. cbn [mbind res_bind] in *.
  destruct (cb1 (bkey bk) (bdatum bk) (t, u1)) as [[[t1 v1] r]| | | |] eqn:E1; try discriminate E. cbn [mbind res_bind] in *.
  assert (HQ1 : Q v1) by (destruct (negb (r =? 0)); [by injection E as <- <- <-|by eapply chain_back]).
  destruct (Hstep _ _ _ _ _ _ _ _ HR E1 HQ1) as (v2 & E2 & HR2). rewrite E2. cbn [mbind res_bind].
  destruct (negb (r =? 0)); [injection E as <- <- <-; eauto|]. by eapply IH.
Qed.
Lemma rows_back n fuel : forall i t u1 t' u1' r, iter_rows n fuel cb1 i (t, u1) = Ret (t', u1', r) -> Q u1' -> Q u1.
Proof.
  induction n as [|n IH]; intros i t u1 t' u1' r E HQ; cbn [iter_rows] in *; [discriminate E|]. cbn [fst] in *.
  destruct (i <? prime (tab t))%N; [|by injection E as <- <- <-].
  destruct (aget _ _) as [p| | | |]; try discriminate E. cbn [mbind res_bind] in *.
  destruct (iter_chain fuel cb1 p (t, u1)) as [[[t1 v1] b]| | | |] eqn:E1; try discriminate E. cbn [mbind res_bind] in *.
  eapply chain_back; [exact E1|]. destruct b; [by injection E as <- <- <-|]. by eapply IH.
Qed.
Lemma rows_follow n fuel : forall i t u1 u2 t' u1' r, R t u1 u2 -> iter_rows n fuel cb1 i (t, u1) = Ret (t', u1', r) -> Q u1' ->
  exists u2', iter_rows n fuel cb2 i (t, u2) = Ret (t', u2', r) /\ R t' u1' u2'.
Proof.
  induction n as [|n IH]; intros i t u1 u2 t' u1' r HR E HQ; cbn [iter_rows] in *; [discriminate E|]. cbn [fst] in *.
  destruct (i <? prime (tab t))%N; [|injection E as <- <- <-; eauto].
  destruct (aget _ _) as [p| | | |]; try discriminate E. cbn [mbind res_bind] in *.
  destruct (iter_chain fuel cb1 p (t, u1)) as [[[t1 v1] b]| | | |] eqn:E1; try discriminate E. cbn [mbind res_bind] in *.
  assert (HQ1 : Q v1) by (destruct b; [by injection E as <- <- <-|by eapply rows_back]).
  destruct (chain_follow _ _ _ _ _ _ _ _ HR E1 HQ1) as (v2 & E2 & HR2). rewrite E2. cbn [mbind res_bind].
  destruct b; [injection E as <- <- <-; eauto|]. by eapply IH.
Qed.
Lemma iterate_follow fuel t u1 u2 t' u1' r : R t u1 u2 -> hsh_iterate fuel cb1 t u1 = Ret (t', u1', r) -> Q u1' ->
  exists u2', hsh_iterate fuel cb2 t u2 = Ret (t', u2', r) /\ R t' u1' u2'.
Proof.
  unfold hsh_iterate. intros HR E HQ. destruct (hsh_check (tab t)); try discriminate E. cbn [mbind res_bind] in *.
  by eapply rows_follow.
Qed.
End follow.

(** an iterator that can fail, as a pure one whose state is the result so far *)
Context {U : Type} (f : K -> D -> U -> res U).
Definition fail_cb : iterator K D U := fun k d '(t, u) => u' ← f k d u; Ret (t, u', 0).
Definition try_cb (k : K) (d : D) (u : res U) : res U * Z := (u ≫= f k d, 0).
Lemma chain_try n : forall p t u t' u' b, iter_chain n (pure_cb try_cb) p (t, u) = Ret (t', Ret u', b) ->
  exists u0, u = Ret u0 /\ iter_chain n fail_cb p (t, u0) = Ret (t', u', b).
Proof.
  induction n as [|n IH]; intros p t u t' u' b E; destruct p as [a|]; cbn [iter_chain] in *; try discriminate E;
    try (injection E as <- -> <-; eauto; fail).
  cbn [fst] in *. destruct (hget (heap t) a) as [bk| | | |]; try discriminate E. cbn [mbind res_bind pure_cb try_cb] in E.
  change (negb (0 =? 0)) with false in E. cbv iota in E. destruct (IH _ _ _ _ _ _ E) as (u1 & Eu & E1).
  destruct u as [u0| | | |]; try discriminate Eu. exists u0. split; [done|]. cbn [mbind res_bind fail_cb] in *. rewrite Eu. exact E1.
Qed.
Lemma rows_try n fuel : forall i t u t' u' r, iter_rows n fuel (pure_cb try_cb) i (t, u) = Ret (t', Ret u', r) ->
  exists u0, u = Ret u0 /\ iter_rows n fuel fail_cb i (t, u0) = Ret (t', u', r).
Proof.
  induction n as [|n IH]; intros i t u t' u' r E; cbn [iter_rows] in *; [discriminate E|]. cbn [fst] in *.
  destruct (i <? prime (tab t))%N; [|injection E as <- -> <-; eauto].
  destruct (aget _ _) as [p| | | |]; try discriminate E. cbn [mbind res_bind] in *.
  destruct (iter_chain fuel (pure_cb try_cb) p (t, u)) as [[[t1 v1] b]| | | |] eqn:E1; try discriminate E. cbn [mbind res_bind] in *.
  destruct b.
  - injection E as <- -> <-. destruct (chain_try _ _ _ _ _ _ _ E1) as (u0 & -> & E2). exists u0. split; [done|]. by rewrite E2.
  - destruct (IH _ _ _ _ _ _ E) as (v & -> & E3). destruct (chain_try _ _ _ _ _ _ _ E1) as (u0 & -> & E2). exists u0. split; [done|]. by rewrite E2.
Qed.
Lemma iterate_try fuel t u0 t' u' r : hsh_iterate fuel (pure_cb try_cb) t (Ret u0) = Ret (t', Ret u', r) ->
  hsh_iterate fuel fail_cb t u0 = Ret (t', u', r).
Proof.
  unfold hsh_iterate. intros E. destruct (hsh_check (tab t)); try discriminate E. cbn [mbind res_bind] in *.
  destruct (rows_try _ _ _ _ _ _ _ _ E) as (u & [= <-] & E1). done.
Qed.
(** the pairs [m], one after the other *)
Fixpoint fold_res (m : list (K * D)) (u : U) : res U :=
  match m with [] => Ret u | (k, d) :: m' => u' ← f k d u; fold_res m' u' end.
Lemma visit_try m : forall u, visit try_cb m u = (u ≫= fold_res m, false).
Proof.
  induction m as [|[k d] m IH]; intros u; cbn [visit try_cb fold_res]; [by destruct u|].
  change (0 =? 0) with true. cbv iota. rewrite IH. by destruct u.
Qed.
Lemma iterate_fail t m u u' fuel : enumerates t m -> (N.to_nat (prime (tab t)) + length m < fuel)%nat -> fold_res m u = Ret u' ->
  hsh_iterate fuel fail_cb t u = Ret (t, u', 0).
Proof.
  intros He Hf E. apply iterate_try. rewrite (He _ try_cb (Ret u) fuel Hf). rewrite visit_try. cbn [mbind res_bind]. by rewrite E.
Qed.
End sim.
