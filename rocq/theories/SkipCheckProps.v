(** C101: the consistency check that sl.c makes when it is compiled with SL_DEBUG.
    [chain], [in_order] and [filled] are in SkipCheckSpec.v; [sl_history] is in SkipHist.v:
    every history of calls that obey the rules of C33. *)
From Verif Require Import Base Alloc StackModel ObjModel SkipModel SkipSpec SkipProofs SkipWorld SkipHist SkipProps
  SkipCheckModel SkipCheckSpec SkipCheckProofs.
Local Open Scope Z_scope.

(** the check passes on every live list of every history ... *)
Theorem C101_check_passes : forall K (w : sworld K) G n l g, sl_history w G n -> G !! l = Some g -> sl_check w (Some l) = Ret tt.
Proof. exact @history_check. Qed.
Print Assumptions C101_check_passes.

(** ... so the calls of the checking build answer what the calls of the plain build answer *)
Theorem C101_insert_same : forall K (w : sworld K) G n l g al rnd d, sl_history w G n -> G !! l = Some g -> sal_ok al ->
  Z.of_nat (length (g_data g)) < 2 ^ 31 - 2 -> sl_insert_dbg al rnd w (Some l) d = sl_insert al rnd w (Some l) d.
Proof.
  intros K w G n l g al rnd d h Hl Hal Hlen. unfold sl_insert_dbg. rewrite (history_check w G n l g h Hl). rb.
  destruct (decide (Exists (fun x => g_cmp g (g_key g x) (g_key g d) = 0) (g_data g))) as [He|He].
  - apply Exists_exists in He as (x & Hx & Hz). rewrite (C33_insert_duplicate K w G n l g al rnd d x h Hl (conj Hx Hz)). done.
  - assert (Ha : absent g (g_key g d)). { intros x Hx Hz. apply He, Exists_exists. eauto. }
    pose proof (C33_insert K w G n l g al rnd d h Hl Hal Ha Hlen) as Hok.
    destruct (sl_insert al rnd w (Some l) d) as [w'| | | |]; cbn [mbind res_bind]; try done. cbn [ok] in Hok.
    rewrite (history_check w' _ n l (g_insert d g) Hok) by apply lookup_insert. done.
Qed.
Print Assumptions C101_insert_same.
Theorem C101_delete_same : forall K (w : sworld K) G n l g d, sl_history w G n -> G !! l = Some g ->
  sl_delete_dbg w (Some l) d = sl_delete w (Some l) d.
Proof.
  intros K w G n l g d h Hl. unfold sl_delete_dbg. rewrite (history_check w G n l g h Hl). rb.
  destruct (decide (Exists (fun x => g_cmp g (g_key g x) (g_key g d) = 0) (g_data g))) as [He|He].
  - apply Exists_exists in He as (x & Hx & Hz).
    destruct (C33_delete K w G n l g d x h Hl (conj Hx Hz)) as (w' & E & h'). rewrite E. rb.
    rewrite (history_check w' _ n l (g_delete d g) h') by apply lookup_insert. done.
  - assert (Ha : absent g (g_key g d)). { intros x Hx Hz. apply He, Exists_exists. eauto. }
    rewrite (C33_delete_absent K w G n l g d h Hl Ha). done.
Qed.
Print Assumptions C101_delete_same.
Theorem C101_find_same : forall K (w : sworld K) G n l g k, sl_history w G n -> G !! l = Some g ->
  sl_find_dbg w (Some l) k = sl_find w (Some l) k.
Proof. intros K w G n l g k h Hl. unfold sl_find_dbg. by rewrite (history_check w G n l g h Hl). Qed.
Print Assumptions C101_find_same.
(** a callback may insert and delete, in this list and in others; it must not destroy the list iterated over *)
Theorem C101_iterate_same : forall K X (f : X -> sworld K -> ptr -> res (X * sworld K * Z)) s (w : sworld K) l,
  (forall s w d s' w' r, (exists G n, sl_history w G n /\ is_Some (G !! l)) -> f s w d = Ret (s', w', r) ->
     exists G n, sl_history w' G n /\ is_Some (G !! l)) ->
  (exists G n, sl_history w G n /\ is_Some (G !! l)) ->
  sl_iterate_dbg f s w (Some l) = sl_iterate f s w (Some l).
Proof.
  intros K X f s w l Hf (G & n & h & [g Hl]). unfold sl_iterate_dbg. rewrite (C35_iterate K w G n l g X f s h Hl).
  assert (Hc : forall L s w, (exists G n, sl_history w G n /\ is_Some (G !! l)) ->
    match calls f s w L with Ret (s', w', r) => exists G n, sl_history w' G n /\ is_Some (G !! l) | _ => True end).
  { clear -Hf. induction L as [|d L IH]; intros s w Hw; cbn [calls]; [done|].
    destruct (f s w d) as [[[s' w'] r]| | | |] eqn:E; cbn [mbind res_bind]; try done.
    pose proof (Hf _ _ _ _ _ _ Hw E) as Hw'. destruct (r =? 0); [|done]. by apply IH. }
  specialize (Hc (g_data g) s w). destruct (calls f s w (g_data g)) as [[[s' w'] r]| | | |]; cbn [mbind res_bind]; try done.
  destruct (Z.eqb_spec r 0); [|done]. destruct Hc as (G' & n' & h' & [g' Hl']); [eauto 10|].
  by rewrite (history_check w' G' n' l g' h' Hl').
Qed.
Print Assumptions C101_iterate_same.
(** NULL: checked before the iteration returns 0, rejected by the other calls *)
Theorem C101_null : forall K (w : sworld K) al rnd d k X (f : X -> sworld K -> ptr -> res (X * sworld K * Z)) s,
  sl_check w None = Abort /\ sl_dump_dbg w None = Abort /\ sl_insert_dbg al rnd w None d = Abort /\
  sl_delete_dbg w None d = Abort /\ sl_find_dbg w None k = Abort /\ sl_iterate_dbg f s w None = Ret (s, w, 0).
Proof. done. Qed.
Print Assumptions C101_null.

(** The check is exact, in any world, reachable or not: the list's entries form a chain
    of fewer than INT_MAX; it passes iff neighbouring keys ascend and the stored count is
    the length of the chain, and it stops the program otherwise *)
Theorem C101_check_exact : forall K (w : sworld K) l x L, filled (sent w) -> oblk (sobj w) !! l = Some x ->
  chain (sent w) (shead x) L -> Z.of_nat (length L) < 2 ^ 31 - 1 ->
  (in_order (scmp x) (skey x) (sent w) L /\ scount x = Z.of_nat (length L) -> sl_check w (Some l) = Ret tt) /\
  (~ (in_order (scmp x) (skey x) (sent w) L /\ scount x = Z.of_nat (length L)) -> sl_check w (Some l) = Abort).
Proof.
  intros K w l x L Hf Hx HL Hb. rewrite (check_exact w l x L) by done.
  split; intros H; [by rewrite decide_True|by rewrite decide_False].
Qed.
Print Assumptions C101_check_exact.
(** and with no assumption: what has passed the check is a chain in order with the right count *)
Theorem C101_check_sound : forall K (w : sworld K) l, sl_check w (Some l) = Ret tt -> exists x L,
  oblk (sobj w) !! l = Some x /\ chain (sent w) (shead x) L /\
  in_order (scmp x) (skey x) (sent w) L /\ scount x = Z.of_nat (length L).
Proof. exact @check_sound. Qed.
Print Assumptions C101_check_sound.

(** the calls do make the check, in any world: a call that returns has found the list in
    order before and after, and a list that is not in order stops it *)
Theorem C101_calls_check : forall K (w : sworld K) l,
  (forall al rnd d w', sl_insert_dbg al rnd w (Some l) d = Ret w' ->
     sl_check w (Some l) = Ret tt /\ sl_insert al rnd w (Some l) d = Ret w' /\ sl_check w' (Some l) = Ret tt) /\
  (forall d w', sl_delete_dbg w (Some l) d = Ret w' ->
     sl_check w (Some l) = Ret tt /\ sl_delete w (Some l) d = Ret w' /\ sl_check w' (Some l) = Ret tt) /\
  (forall k d, sl_find_dbg w (Some l) k = Ret d -> sl_check w (Some l) = Ret tt /\ sl_find w (Some l) k = Ret d) /\
  (forall X (f : X -> sworld K -> ptr -> res (X * sworld K * Z)) s s' w' r, sl_iterate_dbg f s w (Some l) = Ret (s', w', r) ->
     sl_iterate f s w (Some l) = Ret (s', w', r) /\ (r = 0 -> sl_check w' (Some l) = Ret tt)).
Proof.
  intros K w l.
  split; [|split; [|split]].
  - intros al rnd d w'. unfold sl_insert_dbg. destruct (sl_check w (Some l)) as [[]| | | |] eqn:E1; try done. cbn [mbind res_bind].
    destruct (sl_insert al rnd w (Some l) d) as [w1| | | |] eqn:E2; try done. cbn [mbind res_bind].
    destruct (sl_check w1 (Some l)) as [[]| | | |] eqn:E3; try done. cbn [mbind res_bind]. by intros [= <-].
  - intros d w'. unfold sl_delete_dbg. destruct (sl_check w (Some l)) as [[]| | | |] eqn:E1; try done. cbn [mbind res_bind].
    destruct (sl_delete w (Some l) d) as [w1| | | |] eqn:E2; try done. cbn [mbind res_bind].
    destruct (sl_check w1 (Some l)) as [[]| | | |] eqn:E3; try done. cbn [mbind res_bind]. by intros [= <-].
  - intros k d. unfold sl_find_dbg. by destruct (sl_check w (Some l)) as [[]| | | |] eqn:E1.
  - intros X f s s' w' r. unfold sl_iterate_dbg. destruct (sl_iterate f s w (Some l)) as [[[s1 w1] r1]| | | |]; try done.
    cbn [mbind res_bind]. destruct (Z.eqb_spec r1 0) as [-> | Hr].
    + destruct (sl_check w1 (Some l)) as [[]| | | |] eqn:E; try done. cbn [mbind res_bind]. by intros [= <- <- <-].
    + by intros [= <- <- <-].
Qed.
Print Assumptions C101_calls_check.
Theorem C101_disorder_stops : forall K (w : sworld K) l x L al rnd d k, filled (sent w) -> oblk (sobj w) !! l = Some x ->
  chain (sent w) (shead x) L -> Z.of_nat (length L) < 2 ^ 31 - 1 ->
  ~ (in_order (scmp x) (skey x) (sent w) L /\ scount x = Z.of_nat (length L)) ->
  sl_insert_dbg al rnd w (Some l) d = Abort /\ sl_delete_dbg w (Some l) d = Abort /\ sl_find_dbg w (Some l) k = Abort.
Proof.
  intros K w l x L al rnd d k Hf Hx HL Hb Hn.
  assert (E : sl_check w (Some l) = Abort) by (by apply (C101_check_exact K w l x L)).
  unfold sl_insert_dbg, sl_delete_dbg, sl_find_dbg. by rewrite E.
Qed.
Print Assumptions C101_disorder_stops.

(** the dump of this build prints, after the head's line, one line per datum in order, with
    the forward pointers of its entry; it reads no slot that was never written *)
Theorem C101_dump : forall K (w : sworld K) G n l g, sl_history w G n -> G !! l = Some g -> exists level head lines,
  sl_dump_dbg w (Some l) = Ret (level, Z.of_nat (length (g_data g)), head :: lines) /\
  length lines = length (g_data g) /\
  forall i d a num d' k ptrs, g_data g !! i = Some d -> lines !! i = Some (a, num, d', k, ptrs) ->
    num = Z.of_nat i + 1 /\ d' = d /\ k = match d with None => None | Some _ => Some (g_key g d) end /\
    exists e, sent w !! a = Some e /\ edatum e = d /\ length ptrs = (length (forward e) - 1)%nat /\
      forall j q, ptrs !! j = Some q -> forward e !! j = Some (Some q).
Proof. exact @history_dump. Qed.
Print Assumptions C101_dump.

(** the two lists of SkipProps.v; a world in which two data were exchanged, one with a wrong
    count; an iteration whose callback deletes what it is given; one that destroys the list *)
Definition swapped : sworld Z :=
  SW (smem wc) (sobj wc) ((fun e => Entry (if decide (edatum e = D 5) then D 7 else if decide (edatum e = D 7) then D 5 else edatum e) (forward e)) <$> sent wc).
Definition miscounted : sworld Z :=
  SW (smem wc) (OW (osh (sobj wc)) ((fun x => SL (slevel x) (scount x + 1) (shead x) (scmp x) (skey x)) <$> oblk (sobj wc)) (oinf (sobj wc))) (sent wc).
Example C101_cases : (exists G g, sl_history wc G 2 /\ G !! 1%positive = Some g /\ g_data g = [D 2; D 5; D 7]) /\
  sl_check wc (Some 1%positive) = Ret tt /\ sl_check swapped (Some 1%positive) = Abort /\ sl_check miscounted (Some 1%positive) = Abort /\
  sl_find_dbg wc (Some 1%positive) 7 = Ret (D 7) /\
  (let r := sl_iterate_dbg (fun s w d => w' ← sl_delete_dbg w (Some 1%positive) d; Ret (s ++ [d], w', 0)) [] wc (Some 1%positive) in
   is_ret r = true /\ (getr r ([], wc, 1)).1.1 = [D 2; D 5; D 7]) /\
  (sl_iterate_dbg (fun (s : Z) w d => if decide (d = D 7) then (w' ← sl_destroy ex_sal w (Some 1%positive); Ret (s, w', 0)) else Ret (s, w, 0))
    0 wc (Some 1%positive) = UB).
Proof.
  destruct wc_history as (G & h & H1 & H2). split.
  { exists G, gc. split; [done|]. split; [done|]. vm_compute. reflexivity. }
  do 4 (split; [vm_compute; reflexivity|]). split; [vm_compute; split; reflexivity|]. vm_compute. reflexivity.
Qed.
