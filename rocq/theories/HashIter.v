(** Statistics, HSH_ITERATE loops, and hsh_iterate with an iterator that
    modifies the table. *)
From Verif Require Import Base PrimeModel PrimeProofs HashModel HashSpec ListLemmas HashProofs HashOps HashOps2.
Local Open Scope nat_scope.

Section HashIter.
Context {K D : Type}.
Notation bheap := (bheap K D).
Notation hst := (hst K D).
Notation henv := (henv K D).
Notation halloc := (halloc K D).
Notation nent := (positive * @ent K D)%type.
Implicit Types (H : bheap) (l : list nent) (L : list (list nent)) (env : henv) (s : hst).

(** ** hsh_get_stats *)

Lemma counts_rows hf H t L :
  tinv hf H t L -> bucket_counts hf (prime t) (pairs L) = length <$> L.
Proof.
  intros HT. pose proof (ti_lenL _ _ _ _ HT) as Hlen. unfold bucket_counts.
  apply list_eq. intros i. rewrite !list_lookup_fmap.
  destruct (decide (i < length L)) as [Hlt|Hge].
  - destruct (lookup_lt_is_Some_2 L i Hlt) as [l Hl]. rewrite Hl.
    rewrite lookup_seq_lt by lia. simpl. rewrite (row_pairs _ _ _ _ _ _ HT Hl).
    unfold rpairs. by rewrite !fmap_length.
  - rewrite lookup_seq_ge, lookup_ge_None_2 by lia. done.
Qed.

Lemma concat_length_sum {A} (M : list (list A)) : length (concat M) = sum_list (length <$> M).
Proof. induction M as [|r M IH]; simpl; [done|]. rewrite app_length. by rewrite IH. Qed.

Lemma count_if_cons P n ns : count_if P (n :: ns) = (if P n then 1 else 0) + count_if P ns.
Proof.
  unfold count_if. destruct (P n) eqn:E.
  - rewrite filter_cons_True by done. done.
  - rewrite filter_cons_False by (rewrite E; done). done.
Qed.

Lemma count_if_sum P ns : P 0 = false -> count_if P ns <= sum_list ns.
Proof.
  intros H0. induction ns as [|n ns IH]; [done|]. rewrite count_if_cons. simpl.
  destruct n; [rewrite H0; lia|]. destruct (P (S n)); lia.
Qed.

Lemma u64_small x : (x < 2 ^ 64)%N -> u64 x = x.
Proof. intros. unfold u64. by apply N.mod_small. Qed.

Lemma stats_loop w s L : (w <= 2 ^ 64)%N -> (forall i l, L !! i = Some l -> NoDup l.*1) ->
  rows (heap s) (buckets (tab s)) L ->
  forall n i st, i + n = length L ->
  (s_entries st + N.of_nat (sum_list (length <$> drop i L)) < w)%N ->
  (s_buckets_used st <= s_entries st)%N -> (s_singletons st <= s_entries st)%N ->
  for_up n i (fun i st =>
       p ← aget (buckets (tab s)) i;
       match p with
       | None => Ret st
       | Some _ =>
           count ← count_chain w (S (size (heap s))) (heap s) p 0;
           Ret (HS (s_size st) (s_resizings st)
                   (u64 (s_entries st + count))
                   (u64 (s_buckets_used st + 1))
                   (if (count =? 1)%N then u64 (s_singletons st + 1) else s_singletons st)
                   (N.max (s_maximum_length st) count)
                   (s_retrievals st) (s_hits st) (s_misses st))
       end) st =
  Ret (HS (s_size st) (s_resizings st)
          (s_entries st + N.of_nat (sum_list (length <$> drop i L)))
          (s_buckets_used st + N.of_nat (count_if (fun c => negb (Nat.eqb c 0)) (length <$> drop i L)))
          (s_singletons st + N.of_nat (count_if (fun c => Nat.eqb c 1) (length <$> drop i L)))
          (N.max (s_maximum_length st) (N.of_nat (max_list (length <$> drop i L))))
          (s_retrievals st) (s_hits st) (s_misses st)).
Proof.
  intros Hw Hnds Hr n. induction n as [|n IH]; intros i st Hi Hb Hu Hs.
  - cbn [for_up]. rewrite drop_ge by lia. destruct st. simpl. f_equal. f_equal; lia.
  - assert (Hlen := Forall2_length _ _ _ Hr).
    destruct (lookup_lt_is_Some_2 (buckets (tab s)) i) as [p Hp]; [lia|].
    destruct (rows_lookup _ _ _ _ _ Hr Hp) as (l & Hl & Hrow).
    rewrite (drop_S _ _ _ Hl) in *. cbn [fmap list_fmap] in *.
    change (sum_list (length l :: ?x)) with (length l + sum_list x) in *.
    change (max_list (length l :: ?x)) with (Nat.max (length l) (max_list x)).
    rewrite !count_if_cons.
    cbn [for_up]. rewrite (aget_Some _ _ _ Hp). rb.
    destruct l as [|[a e] l].
    + simpl in Hrow. rewrite Hrow. rb. cbn [length] in *.
      rewrite IH by (done || lia). simpl. f_equal. 
    + pose proof (seg_size _ _ _ _ Hrow (Hnds _ _ Hl)) as Hsz.
      set (ll := (a, e) :: l) in *.
      assert (Hll : 1 <= length ll) by (simpl; lia).
      destruct p as [b|]; [|destruct Hrow as [Hx _]; discriminate Hx].
      rewrite (count_chain_spec w (heap s) ll) by (done || lia). rb.
      rewrite N.add_0_r. rewrite !u64_small by lia.
      rewrite IH.
      2:{ lia. }
      2:{ cbn [s_entries]. lia. }
      2:{ cbn [s_entries s_buckets_used]. lia. }
      2:{ cbn [s_entries s_singletons]. destruct (N.of_nat (length ll) =? 1)%N; lia. }
      cbn [s_size s_resizings s_entries s_buckets_used s_singletons s_maximum_length s_retrievals s_hits s_misses].
      f_equal. f_equal.
      * lia.
      * destruct (Nat.eqb_spec (length ll) 0); [lia|]. cbn [negb]. lia.
      * destruct (N.eqb_spec (N.of_nat (length ll)) 1); destruct (Nat.eqb_spec (length ll) 1); lia.
      * lia.
Qed.

Lemma hsh_get_stats_spec env al s L :
  hinv env s L -> (N.of_nat (length (pairs L)) < 2 ^ 32)%N ->
  hsh_get_stats al s =
    if blk_alloc al 72 then
      let c := bucket_counts (hashf env) (prime (tab s)) (pairs L) in
      Ret (HS (prime (tab s)) (resizings (tab s)) (N.of_nat (length (pairs L)))
              (N.of_nat (count_if (fun c => negb (Nat.eqb c 0)) c))
              (N.of_nat (count_if (fun c => Nat.eqb c 1) c))
              (N.of_nat (max_list c))
              (retrievals (tab s)) (hits (tab s)) (misses (tab s)))
    else Fatal.
Proof.
  intros HI Hlen. unfold hsh_get_stats, xmalloc_blk.
  destruct (blk_alloc al 72); [|done]. rb.
  pose proof (hi_t _ _ _ HI) as HT. rewrite (hsh_check_ok _ _ _ _ HT). rb.
  assert (Hpl : length (pairs L) = sum_list (length <$> L)).
  { unfold pairs, ents. rewrite !fmap_length. apply concat_length_sum. }
  rewrite (stats_loop (2 ^ 32) s L).
  2:{ done. }
  2:{ intros i l Hl. eapply row_nodup; [apply HT|done]. }
  2:{ apply HT. }
  2:{ rewrite (ti_lenL _ _ _ _ HT). done. }
  2:{ rewrite drop_0. cbn [s_entries]. lia. }
  2:{ done. } 2:{ done. }
  rb. rewrite drop_0. cbn [s_size s_resizings s_entries s_buckets_used s_singletons s_maximum_length s_retrievals s_hits s_misses].
  rewrite (counts_rows _ _ _ _ HT), (hi_entries _ _ _ HI), <- Hpl, !N.add_0_l, N.max_0_l.
  rewrite u64_small by lia. rewrite N.eqb_refl. done.
Qed.

(** ** HSH_ITERATE *)

(** the loop body keeps the layout and the flag *)
Definition body_ok {U} env L (body : iterator K D U) (g : K -> D -> U -> U * Z) : Prop :=
  forall k d s u, hinv env s L -> readonly (tab s) = 1%Z ->
    exists s', body k d (s, u) = Ret (s', (g k d u).1, (g k d u).2) /\
               hinv env s' L /\ readonly (tab s') = 1%Z.

Lemma pos_loop_spec {U} env L (body : iterator K D U) g :
  body_ok env L body g ->
  forall n i s u, i <= length (pairs L) -> length (pairs L) - i < n ->
  hinv env s L -> (i < length (pairs L) -> readonly (tab s) = 1%Z) ->
  exists s' , pos_loop n env body (pos_at L i) (s, u) =
     Ret (s', (visit g (drop i (pairs L)) u).1, (visit g (drop i (pairs L)) u).2) /\
     hinv env s' L /\ (length (pairs L) <= i -> s' = s) /\
     (i < length (pairs L) ->
      readonly (tab s') = if (visit g (drop i (pairs L)) u).2 then 1%Z else 0%Z).
Proof.
  intros Hb n. induction n as [|n IH]; intros i s u Hi Hn HI Hro; [lia|].
  assert (Hlc : length (pairs L) = length (concat L)) by (unfold pairs, ents; by rewrite !fmap_length).
  destruct (decide (i < length (pairs L))) as [Hlt|Hge].
  - destruct (lookup_lt_is_Some_2 (pairs L) i Hlt) as [[k d] Hkd].
    rewrite (drop_S _ _ _ Hkd). cbn [visit].
    assert (Hpos : exists a, pos_at L i = Some a).
    { unfold pos_at. destruct (lookup_lt_is_Some_2 (concat L) i) as [x Hx]; [lia|]. rewrite Hx. eauto. }
    destruct Hpos as [a Hpos]. rewrite Hpos. cbn [pos_loop fst]. rewrite <- Hpos.
    rewrite (hsh_get_position_spec env s L i HI), Hkd. rb.
    destruct (Hb k d s u HI (Hro Hlt)) as (s1 & -> & HI1 & Hro1). rb.
    destruct (g k d u) as [u1 r]. cbn [fst snd].
    destruct (r =? 0)%Z eqn:Er; cbn [negb].
    + rewrite (hsh_next_position_spec env s1 L i HI1) by lia. rb.
      destruct (IH (S i) (match pos_at L (S i) with
                 | Some _ => s1 | None => MkH (heap s1) (set_readonly (tab s1) 0) end) u1)
        as (s' & -> & HI' & Heq & Hr').
      * lia.
      * lia.
      * destruct (pos_at L (S i)); [done|]. by apply hinv_flag.
      * intros Hlt'. unfold pos_at. destruct (lookup_lt_is_Some_2 (concat L) (S i)) as [x Hx]; [lia|].
        rewrite Hx. done.
      * exists s'. split; [done|]. split; [done|]. split; [lia|]. intros _.
        destruct (decide (S i < length (pairs L))) as [Hlt'|Hge']; [auto|].
        (* the last element *)
        rewrite drop_ge in * by lia. simpl.
        assert (Hend : pos_at L (S i) = None) by (unfold pos_at; rewrite lookup_ge_None_2 by lia; done).
        rewrite Heq, Hend by lia. done.
    + exists s1. split; [done|]. split; [done|]. split; [lia|done].
  - rewrite drop_ge by lia. simpl.
    assert (Hend : pos_at L i = None) by (unfold pos_at; rewrite lookup_ge_None_2 by lia; done).
    rewrite Hend. exists s. destruct n; simpl; (split; [done|]); (split; [done|]); (split; [done|lia]).
Qed.

Lemma HSH_ITERATE_spec {U} env L (body : iterator K D U) g fuel s u :
  body_ok env L body g -> hinv env s L -> length (pairs L) < fuel ->
  exists s', HSH_ITERATE fuel env body s u =
     Ret (s', (visit g (pairs L) u).1, (visit g (pairs L) u).2) /\ hinv env s' L /\
     readonly (tab s') = (if decide (pairs L = []) then readonly (tab s)
                          else if (visit g (pairs L) u).2 then 1%Z else 0%Z).
Proof.
  intros Hb HI Hf. unfold HSH_ITERATE. rewrite (hsh_init_position_spec env s L HI). rb.
  assert (Hlc : length (pairs L) = length (concat L)) by (unfold pairs, ents; by rewrite !fmap_length).
  destruct (decide (pairs L = [])) as [Hnil|Hnn].
  - assert (Hend : pos_at L 0 = None).
    { unfold pos_at. rewrite lookup_ge_None_2; [done|]. rewrite Hnil in Hlc. simpl in Hlc. lia. }
    rewrite Hend, Hnil. exists s. destruct fuel; done.
  - assert (Hpos : 0 < length (pairs L)) by (destruct (pairs L); [done|simpl; lia]).
    assert (Hp0 : exists a, pos_at L 0 = Some a).
    { unfold pos_at. destruct (lookup_lt_is_Some_2 (concat L) 0) as [x Hx]; [lia|]. rewrite Hx. eauto. }
    destruct Hp0 as [a Hp0]. rewrite Hp0. rewrite <- Hp0.
    destruct (pos_loop_spec env L body g Hb fuel 0 (MkH (heap s) (set_readonly (tab s) 1)) u)
      as (s' & -> & HI' & _ & Hr); [lia|lia|by apply hinv_flag|done|].
    rewrite drop_0 in *. exists s'. split; [done|]. split; [done|]. auto.
Qed.

(** ** hsh_iterate with an iterator that deletes or retrieves pairs already seen *)
Inductive act := ADel (k : K) | ARet (k : K).
Definition akey (a : act) : K := match a with ADel k => k | ARet k => k end.

Definition run_act env s (a : act) : res hst :=
  match a with
  | ADel k => '(s', _) ← hsh_delete env s k; Ret s'
  | ARet k => '(s', _) ← hsh_retrieve env s k; Ret s'
  end.
Fixpoint run_acts env s (xs : list act) : res hst :=
  match xs with [] => Ret s | a :: xs' => s' ← run_act env s a; run_acts env s' xs' end.

(** The iterator remembers the pairs handed to it so far ([seen], current one
    last), runs the actions [scr seen] on the table and returns 0. *)
Definition scr_cb env (scr : list (K * D) -> list act) : iterator K D (list (K * D)) :=
  fun k d '(s, seen) =>
    s' ← run_acts env s (scr (seen ++ [(k, d)])); Ret (s', seen ++ [(k, d)], 0%Z).

(** specification of the actions on the abstract contents *)
Definition spec_act (cmp : K -> K -> Z) (m : list (K * D)) (a : act) : list (K * D) :=
  match a with ADel k => aremove cmp k m | ARet _ => m end.

(** the part of the layout still to be walked: [rest] of row [i], later rows *)
Definition todo (i : nat) (rest : list nent) (later : list (list nent)) L : Prop :=
  exists A, L !! i = Some (A ++ rest) /\ drop (S i) L = later.

Lemma split_before {A} (x y l1 l2 : list A) a :
  x ++ y = l1 ++ a :: l2 -> a ∉ y -> exists z, x = l1 ++ a :: z /\ l2 = z ++ y.
Proof.
  revert l1. induction x as [|b x IH]; intros l1 E Hn.
  - simpl in E. exfalso. apply Hn. rewrite E. set_solver.
  - destruct l1 as [|c l1]; simpl in E; injection E as -> E.
    + exists x. done.
    + destruct (IH _ E Hn) as (z & -> & ->). exists z. done.
Qed.

Lemma todo_update i rest later L h l1 (a : positive) e l2 row' :
  todo i rest later L -> L !! h = Some (l1 ++ (a, e) :: l2) ->
  (a, e) ∉ rest -> (a, e) ∉ concat later ->
  (forall z, l2 = z ++ rest -> exists A', row' = A' ++ rest) ->
  todo i rest later (<[h := row']> L).
Proof.
  intros (A & Hi & Hlater) Hh Hn1 Hn2 Hrow.
  assert (Hhl : h < length L) by (eapply lookup_lt_Some; eauto).
  destruct (lt_eq_lt_dec h i) as [[Hlt|Heq]|Hgt].
  - exists A. rewrite list_lookup_insert_ne by lia. split; [done|].
    rewrite drop_insert_gt by lia. done.
  - subst h. rewrite Hi in Hh. injection Hh as Hh.
    destruct (split_before _ _ _ _ _ Hh Hn1) as (z & -> & Hz).
    destruct (Hrow z Hz) as [A' ->]. exists A'.
    rewrite list_lookup_insert by done. split; [done|]. rewrite drop_insert_gt by lia. done.
  - exfalso. apply Hn2. rewrite <- Hlater.
    apply (elem_of_concat _ (h - S i) (l1 ++ (a, e) :: l2)); [|set_solver].
    rewrite lookup_drop. replace (S i + (h - S i)) with h by lia. done.
Qed.

(** pairs not yet seen are not equal to any key acted upon *)
Lemma run_acts_spec env xs : good env -> forall i rest later s L,
  hinv env s L -> readonly (tab s) = 0%Z -> todo i rest later L ->
  (forall x a, x ∈ xs -> a ∈ rest ++ concat later -> cmpf env (ekey a.2) (akey x) <> 0%Z) ->
  exists s' L', run_acts env s xs = Ret s' /\ hinv env s' L' /\ readonly (tab s') = 0%Z /\
    prime (tab s') = prime (tab s) /\ todo i rest later L' /\
    pairs L' ≡ₚ foldl (spec_act (cmpf env)) (pairs L) xs.
Proof.
  intros G. induction xs as [|x xs IH]; intros i rest later s L HI Hro Htodo Hx.
  - exists s, L. done.
  - cbn [run_acts foldl].
    assert (Hstep : exists s1 L1, run_act env s x = Ret s1 /\ hinv env s1 L1 /\
      readonly (tab s1) = 0%Z /\ prime (tab s1) = prime (tab s) /\ todo i rest later L1 /\
      pairs L1 ≡ₚ spec_act (cmpf env) (pairs L) x).
    { assert (Hna : forall a e, cmpf env (ekey e) (akey x) = 0%Z ->
                      (a, e) ∉ rest /\ (a, e) ∉ concat later).
      { intros a e Hc. split; intros Hin; apply (Hx x (a, e)); (done || set_solver). }
      destruct x as [k|k]; simpl.
      - destruct (hsh_delete_spec env s L k HI G Hro)
          as (s1 & r & L1 & -> & HI1 & Hcase & R1 & _ & _ & _ & R5 & _). rb.
        exists s1, L1. split; [done|]. split; [done|]. split; [done|]. split; [done|].
        destruct (afind (cmpf env) k (pairs L)) as [d|] eqn:Ef.
        + destruct Hcase as (_ & Hp & h & l1 & a & e & l2 & Hh & Hc & ->).
          destruct (Hna a e Hc). split; [|by rewrite Hp].
          eapply todo_update; [done|done|done|done|].
          intros z ->. exists (l1 ++ z). by rewrite <- app_assoc.
        + destruct Hcase as (_ & -> & ->). split; [done|].
          rewrite aremove_None; [done|]. by apply afind_None.
      - destruct (hsh_retrieve_spec env s L k HI G)
          as (s1 & L1 & -> & HI1 & Hp & Hcase & _ & R1 & _ & R3 & _). rb.
        exists s1, L1. split; [done|]. split; [done|]. split; [congruence|]. split; [done|].
        split; [|done].
        destruct Hcase as [->|(h & l1 & a & e & l2 & Hh & Hc & ->)]; [done|].
        destruct (Hna a e Hc). eapply todo_update; [done|done|done|done|].
        intros z ->. exists ((a, e) :: l1 ++ z). simpl. by rewrite <- app_assoc. }
    destruct Hstep as (s1 & L1 & -> & HI1 & Hro1 & Hp1 & Htodo1 & Hpairs1). rb.
    destruct (IH i rest later s1 L1 HI1 Hro1 Htodo1) as (s2 & L2 & -> & HI2 & Hro2 & Hp2 & Htodo2 & Hpairs2).
    { intros y a Hy Ha. apply Hx; [set_solver|done]. }
    exists s2, L2. split; [done|]. split; [done|]. split; [done|]. split; [congruence|].
    split; [done|]. rewrite Hpairs2.
    clear -Hpairs1. revert Hpairs1. generalize (pairs L1), (spec_act (cmpf env) (pairs L) x).
    induction xs as [|y xs IH]; intros m m' Hp; simpl; [done|]. apply IH.
    destruct y; simpl; [by apply aremove_perm|done].
Qed.

Definition hd_ptr l : ptr := fst <$> head l.
Lemma seg_hd H p l : seg H p l None -> p = hd_ptr l.
Proof. destruct l as [|[a e] l]; simpl; [done|]. intros (-> & _). done. Qed.

(** the actions chosen after each visit, concatenated *)
Fixpoint all_acts (scr : list (K * D) -> list act) (seen m : list (K * D)) : list act :=
  match m with
  | [] => []
  | x :: m' => scr (seen ++ [x]) ++ all_acts scr (seen ++ [x]) m'
  end.

Lemma all_acts_app scr seen m1 m2 :
  all_acts scr seen (m1 ++ m2) = all_acts scr seen m1 ++ all_acts scr (seen ++ m1) m2.
Proof.
  revert seen. induction m1 as [|x m1 IH]; intros seen; simpl; [by rewrite app_nil_r|].
  rewrite IH, <- !app_assoc. done.
Qed.

(** [scr] only touches keys equal to ones already seen *)
Definition touches_seen env (scr : list (K * D) -> list act) : Prop :=
  forall seen x, x ∈ scr seen -> exists kd, kd ∈ seen /\ cmpf env kd.1 (akey x) = 0%Z.

Lemma seen_not_rest env (seen : list (K * D)) (r : list nent) x (a : nent) :
  good env -> adistinct (cmpf env) (seen ++ rpairs r) ->
  (exists kd, kd ∈ seen /\ cmpf env kd.1 (akey x) = 0%Z) -> a ∈ r ->
  cmpf env (ekey a.2) (akey x) <> 0%Z.
Proof.
  intros G Hd (kd & Hkd & Hc) Ha E.
  assert (Hin : epair a.2 ∈ rpairs r).
  { unfold rpairs. apply elem_of_list_fmap_1, elem_of_list_fmap_1. done. }
  induction seen as [|[k0 d0] seen IH]; [set_solver|]. simpl in Hd.
  apply adistinct_cons in Hd as [Hd1 Hd2].
  apply elem_of_cons in Hkd as [->|Hkd]; [|auto].
  apply (Hd1 (epair a.2)); [set_solver|]. simpl.
  apply (gc_trans _ _ G _ (akey x)); [done|]. by apply (gc_sym _ _ G).
Qed.

Lemma iter_chain_scr env scr later i : good env -> touches_seen env scr ->
  forall rest n s L seen,
  hinv env s L -> readonly (tab s) = 0%Z -> todo i rest later L ->
  adistinct (cmpf env) (seen ++ rpairs (rest ++ concat later)) ->
  length rest < n ->
  exists s' L',
    iter_chain n (scr_cb env scr) (hd_ptr rest) (s, seen) = Ret (s', seen ++ rpairs rest, false) /\
    hinv env s' L' /\ readonly (tab s') = 0%Z /\ prime (tab s') = prime (tab s) /\
    drop (S i) L' = later /\
    pairs L' ≡ₚ foldl (spec_act (cmpf env)) (pairs L) (all_acts scr seen (rpairs rest)).
Proof.
  intros G Hscr rest. induction rest as [|[a e] rest IH]; intros n s L seen HI Hro Htodo Hd Hn.
  - exists s, L. destruct Htodo as (A & _ & Hl).
    destruct n; cbn; rewrite app_nil_r; done.
  - destruct n as [|n]; [simpl in Hn; lia|]. cbn [length] in Hn.
    unfold hd_ptr at 1. cbn [head fmap option_fmap option_map fst iter_chain].
    pose proof (hi_t _ _ _ HI) as HT.
    destruct Htodo as (A & Hi & Hlater).
    destruct (Forall2_lookup_r _ _ _ _ _ (ti_rows _ _ _ _ HT) Hi) as (p & _ & Hrow).
    apply seg_app in Hrow as (m & _ & Hs). simpl in Hs. destruct Hs as (-> & nx & Ha & Hs).
    rewrite (hget_Some _ _ _ Ha). rb. cbn [bkey bdatum bnext mkB].
    rewrite (seg_hd _ _ _ Hs).
    assert (Hcb : scr_cb env scr (ekey e) (edatum e) (s, seen) =
       (s' ← run_acts env s (scr (seen ++ [epair e])); Ret (s', seen ++ [epair e], 0%Z))) by done.
    rewrite Hcb. clear Hcb.
    assert (Hd' : adistinct (cmpf env) ((seen ++ [epair e]) ++ rpairs (rest ++ concat later))).
    { rewrite <- app_assoc. exact Hd. }
    destruct (run_acts_spec env (scr (seen ++ [epair e])) G i rest later s L HI Hro)
      as (s1 & L1 & -> & HI1 & Hro1 & Hp1 & Htodo1 & Hpairs1).
    { exists (A ++ [(a, e)]). split; [|done]. rewrite Hi. by rewrite <- app_assoc. }
    { intros x y Hx Hy. eapply seen_not_rest; eauto. }
    rb. rewrite Z.eqb_refl. cbn [negb].
    destruct (IH n s1 L1 (seen ++ [epair e]) HI1 Hro1 Htodo1 Hd' ltac:(lia))
      as (s2 & L2 & -> & HI2 & Hro2 & Hp2 & Hlat2 & Hpairs2).
    exists s2, L2. split; [by rewrite <- app_assoc|]. split; [done|]. split; [done|].
    split; [congruence|]. split; [done|].
    change (rpairs ((a, e) :: rest)) with (epair e :: rpairs rest). cbn [all_acts].
    rewrite foldl_app, Hpairs2.
    clear -Hpairs1. revert Hpairs1.
    generalize (all_acts scr (seen ++ [epair e]) (rpairs rest)).
    generalize (foldl (spec_act (cmpf env)) (pairs L) (scr (seen ++ [epair e]))), (pairs L1).
    intros m m' xs. revert m m'. induction xs as [|y xs IHx]; intros m m' Hp; simpl; [done|].
    apply IHx. destruct y; simpl; [by apply aremove_perm|done].
Qed.

Lemma spec_acts_perm cmp m m' xs :
  m ≡ₚ m' -> foldl (spec_act cmp) m xs ≡ₚ foldl (spec_act cmp) m' xs.
Proof.
  revert m m'. induction xs as [|y xs IHx]; intros m m' Hp; simpl; [done|].
  apply IHx. destruct y; simpl; [by apply aremove_perm|done].
Qed.

Lemma iter_rows_scr env scr fuel : good env -> touches_seen env scr ->
  forall n i s L seen,
  hinv env s L -> readonly (tab s) = 0%Z -> (i <= prime (tab s))%N ->
  N.to_nat (prime (tab s)) - N.to_nat i < n ->
  adistinct (cmpf env) (seen ++ pairs (drop (N.to_nat i) L)) ->
  length (pairs (drop (N.to_nat i) L)) < fuel ->
  exists s' L',
    iter_rows n fuel (scr_cb env scr) i (s, seen) =
      Ret (s', seen ++ pairs (drop (N.to_nat i) L), 0%Z) /\
    hinv env s' L' /\ readonly (tab s') = 0%Z /\
    pairs L' ≡ₚ foldl (spec_act (cmpf env)) (pairs L)
                  (all_acts scr seen (pairs (drop (N.to_nat i) L))).
Proof.
  intros G Hscr n. induction n as [|n IH]; intros i s L seen HI Hro Hi Hn Hd Hf; [lia|].
  pose proof (hi_t _ _ _ HI) as HT. pose proof (ti_lenL _ _ _ _ HT) as HlenL.
  cbn [iter_rows fst].
  destruct (N.ltb_spec i (prime (tab s))) as [Hlt|Hge].
  - destruct (row_of _ _ _ _ i HT Hlt) as (p & l & Hbp & HLl & Hrow & Hnd & _).
    rewrite (aget_Some _ _ _ Hbp). rb.
    rewrite (drop_S _ _ _ HLl), pairs_cons in *.
    rewrite (seg_hd _ _ _ Hrow).
    set (later := drop (S (N.to_nat i)) L) in *.
    destruct (iter_chain_scr env scr later (N.to_nat i) G Hscr l fuel s L seen HI Hro)
      as (s1 & L1 & -> & HI1 & Hro1 & Hp1 & Hlat1 & Hpairs1).
    { exists []. done. }
    { assert (E : rpairs (l ++ concat later) = rpairs l ++ pairs later).
      { unfold rpairs, pairs, ents. by rewrite !fmap_app. }
      by rewrite E. }
    { rewrite app_length in Hf. unfold rpairs in Hf. rewrite !fmap_length in Hf. lia. }
    rb.
    destruct (IH (i + 1)%N s1 L1 (seen ++ rpairs l)) as (s2 & L2 & E & HI2 & Hro2 & Hpairs2).
    { done. } { done. } { lia. } { lia. }
    { replace (N.to_nat (i + 1)) with (S (N.to_nat i)) by lia. rewrite Hlat1.
      rewrite <- app_assoc. done. }
    { replace (N.to_nat (i + 1)) with (S (N.to_nat i)) by lia. rewrite Hlat1.
      rewrite app_length in Hf. lia. }
    replace (N.to_nat (i + 1)) with (S (N.to_nat i)) in * by lia. rewrite Hlat1 in *.
    rewrite E. exists s2, L2. split; [by rewrite <- app_assoc|]. split; [done|]. split; [done|].
    rewrite Hpairs2, all_acts_app, foldl_app. by apply spec_acts_perm.
  - rewrite drop_ge by lia. exists s, L. rewrite app_nil_r. done.
Qed.

Lemma hsh_iterate_scr env scr fuel s L :
  good env -> touches_seen env scr -> hinv env s L -> readonly (tab s) = 0%Z ->
  N.to_nat (prime (tab s)) + length (pairs L) < fuel ->
  exists s' L',
    hsh_iterate fuel (scr_cb env scr) s [] = Ret (s', pairs L, 0%Z) /\
    hinv env s' L' /\ readonly (tab s') = 0%Z /\
    pairs L' ≡ₚ foldl (spec_act (cmpf env)) (pairs L) (all_acts scr [] (pairs L)).
Proof.
  intros G Hscr HI Hro Hf. unfold hsh_iterate.
  rewrite (hsh_check_ok _ _ _ _ (hi_t _ _ _ HI)). rb.
  destruct (iter_rows_scr env scr fuel G Hscr fuel 0%N s L []) as (s' & L' & -> & H1 & H2 & H3).
  - done. - done. - lia. - lia. - apply HI. - rewrite drop_0. lia.
  - rewrite drop_0 in *. eauto 10.
Qed.

End HashIter.
