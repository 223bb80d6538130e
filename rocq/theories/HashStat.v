(** C98: every number the statistics of a hash table report, over whole programs. *)
From Verif Require Import Base Trace PrimeModel HashModel HashSpec ListLemmas HashProofs HashOps HashOps2 HashIter HashHist HashTop HashGrow HashTrace HashOrder.
Local Open Scope nat_scope.

(** ** specification *)
Section Spec.
Context {K D : Type}.
(** [k] equals the first key of its bucket, in the order [m] of a table of [p] buckets *)
Definition first_there (hf : K -> N) (cmp : K -> K -> Z) (p : N) (k : K) (m : list (K * D)) : bool :=
  match filter (in_row hf p (N.to_nat (hf k mod p))) m with (k', _) :: _ => (cmp k' k =? 0)%Z | [] => false end.
(** how often a table grew, was asked, had the key in front, had not the key *)
Record counts := Cnt { n_grown : N; n_asked : N; n_front : N; n_failed : N }.
Definition no_counts : counts := Cnt 0 0 0 0.
Definition asked (hf : K -> N) (cmp : K -> K -> Z) (p : N) (m : list (K * D)) (c : counts) (k : K) : counts :=
  Cnt (n_grown c) (n_asked c + 1) (if first_there hf cmp p k m then n_front c + 1 else n_front c)
      (match afind cmp k m with Some _ => n_failed c | None => n_failed c + 1 end).
Definition grown (c : counts) : counts := Cnt (n_grown c + 1) (n_asked c) (n_front c) (n_failed c).
Definition recount (hf : K -> N) (cmp : K -> K -> Z) (p : N) (m : list (K * D)) (c : counts) (call : hcall K D) : counts :=
  match call with
  | HInsert _ _ _ => if crowded p m then grown c else c
  | HRetrieve k => asked hf cmp p m c k
  | HLoop ks => fold_left (asked hf cmp p m) (List.concat ((fun kd => ks kd.1) <$> m)) c
  | _ => c
  end.
(** what hsh_get_stats returns (unsigned long counters) *)
Definition numbers (hf : K -> N) (p : N) (m : list (K * D)) (c : counts) : hstats :=
  let b := bucket_counts hf p m in
  HS p (u64 (n_grown c)) (N.of_nat (length m)) (N.of_nat (count_if (fun n => negb (Nat.eqb n 0)) b))
     (N.of_nat (count_if (fun n => Nat.eqb n 1) b)) (N.of_nat (max_list b)) (u64 (n_asked c)) (u64 (n_front c)) (u64 (n_failed c)).

(** programs that also ask for the statistics *)
Inductive ccall := Call (c : hcall K D) | Stats (al : halloc K D).
Inductive cres := Res (r : hres K D) | Numbers (st : hstats).
Definition cstep (env : henv K D) (s : hst K D) (c : ccall) : res (hst K D * cres) :=
  match c with
  | Call c => '(s', r) ← hstep env s c; Ret (s', Res r)
  | Stats al => st ← hsh_get_stats al s; Ret (s, Numbers st)
  end.
Definition cspec (hf : K -> N) (cmp : K -> K -> Z) (null : D) (g : @ostate K D * counts) (c : ccall) : res (@ostate K D * counts * cres) :=
  let '(o, n) := g in
  match c with
  | Call c => '(o', r) ← ospec hf cmp null o c; Ret (o', recount hf cmp o.1.1 o.1.2 n c, Res r)
  | Stats _ => Ret (o, n, Numbers (numbers hf o.1.1 o.1.2 n))
  end.
Definition ccan (c : ccall) : Prop := match c with Call c => hcan c | Stats al => blk_alloc al 72 = false end.
(** the statistics count with 32 bits *)
Definition clegal (g : @ostate K D * counts) (c : ccall) : Prop :=
  match c with Call c => hlegal c | Stats _ => (N.of_nat (length g.1.1.2) < 2 ^ 32)%N end.
End Spec.
Arguments ccall : clear implicits.
Arguments cres : clear implicits.

Section HashStat.
Context {K D : Type}.
Notation hst := (hst K D).
Notation henv := (henv K D).
Notation halloc := (halloc K D).
Notation nent := (positive * @ent K D)%type.
Implicit Types (L : list (list nent)) (env : henv) (s : hst) (al : halloc) (t : table).

Definition counted t (n : counts) : Prop :=
  resizings t = u64 (n_grown n) /\ retrievals t = u64 (n_asked n) /\ hits t = u64 (n_front n) /\ misses t = u64 (n_failed n).
Lemma u64_add a b : u64 (u64 a + b) = u64 (a + b).
Proof. unfold u64. by rewrite N.add_mod_idemp_l by discriminate. Qed.
Lemma first_there_top hf cmp p k (m : list (K * D)) : first_there hf cmp p k m = true <-> on_top hf cmp p k m.
Proof.
  unfold first_there, on_top. destruct (filter _ m) as [|[k' d] r]; cbn [head].
  - split; [done|]. by intros (kd & ? & _).
  - rewrite Z.eqb_eq. split; [intros H; by exists (k', d)|]. by intros (kd & [= <-] & H).
Qed.
Lemma ok_both {A} (P Q : A -> Prop) (fl : Prop) (r : res A) : ok P fl r -> ok Q fl r -> ok (fun x => P x /\ Q x) fl r.
Proof. destruct r; cbn [ok]; tauto. Qed.
Lemma insert_counted env al s L k d n : hinv env s L -> good env -> halloc_ok al -> readonly (tab s) = 0%Z -> counted (tab s) n ->
  ok (fun '(s', _) => counted (tab s') (if crowded (prime (tab s)) (pairs L) then grown n else n)) (can_fail al) (hsh_insert env al s k d).
Proof.
  intros HI G Hal Hz (H1 & H2 & H3 & H4). eapply ok_mono; [apply (hsh_insert_spec env al s L k d HI G Hal Hz)| |done].
  intros [s' r] (L' & _ & _ & _ & J1 & J2 & J3 & J4).
  unfold crowded. unfold size_step in J4. replace (u64 (entries (tab s) * 2)) with (u64 (2 * N.of_nat (length (pairs L)))) in J4.
  2:{ rewrite (hi_entries _ _ _ HI). rewrite (N.mul_comm _ 2). unfold u64. rewrite N.mul_mod_idemp_r by discriminate. done. }
  destruct (_ <? _)%N; destruct J4 as [_ J4]; (split; [|split; [|split]]; cbn [grown n_grown n_asked n_front n_failed]; try congruence).
  rewrite J4, H1. apply u64_add.
Qed.
Lemma retrieve_counted env s L k n s' d : hinv env s L -> good env -> counted (tab s) n -> hsh_retrieve env s k = Ret (s', d) ->
  counted (tab s') (asked (hashf env) (cmpf env) (prime (tab s)) (pairs L) n k).
Proof.
  intros HI G (H1 & H2 & H3 & H4) E. destruct (hsh_retrieve_spec env s L k HI G) as (s1 & L' & E1 & _ & _ & _ & _ & _ & _ & _ & J1 & J2 & J3 & J4).
  rewrite E in E1. injection E1 as <- _. split_and!.
  - by rewrite J1.
  - rewrite J2, H2. apply u64_add.
  - cbn [n_front asked]. destruct (first_there _ _ _ _ _) eqn:Ef; destruct J4 as [[J4 ->]|[J4 ->]].
    + rewrite H3. apply u64_add.
    + by apply first_there_top in Ef.
    + apply first_there_top in J4. congruence.
    + done.
  - rewrite J3. cbn [n_failed asked]. destruct (afind _ _ _); [done|]. rewrite H4. apply u64_add.
Qed.
Lemma retrieves_counted env L ks : good env -> forall s n, hinv env s L -> readonly (tab s) = 1%Z -> counted (tab s) n ->
  exists s', run_acts env s (ARet <$> ks) = Ret s' /\ hinv env s' L /\ readonly (tab s') = 1%Z /\ prime (tab s') = prime (tab s) /\
    counted (tab s') (fold_left (asked (hashf env) (cmpf env) (prime (tab s)) (pairs L)) ks n).
Proof.
  intros G. induction ks as [|k ks IH]; intros s n HI Hro Hn; [by exists s|]. cbn [fmap list_fmap run_acts run_act].
  destruct (hsh_retrieve_spec env s L k HI G) as (s1 & L' & E1 & J1 & _ & _ & J & J3 & _ & J4 & _).
  destruct J as [-> _]; [congruence|]. rewrite E1. rb. cbn [fold_left].
  destruct (IH s1 (asked (hashf env) (cmpf env) (prime (tab s)) (pairs L) n k)) as (s' & E' & K1 & K2 & K3 & K4); [done|congruence|by eapply retrieve_counted|].
  exists s'. rewrite J4 in *. done.
Qed.
(** a loop keeps what its body keeps and the readonly flag does not touch *)
Lemma pos_loop_keeps {U} env L (body : iterator K D U) g (J : hst -> U -> Prop) :
  (forall k d s u, hinv env s L -> readonly (tab s) = 1%Z -> J s u ->
     exists s', body k d (s, u) = Ret (s', (g k d u).1, (g k d u).2) /\ hinv env s' L /\ readonly (tab s') = 1%Z /\ J s' (g k d u).1) ->
  (forall s u f, J s u -> J (MkH (heap s) (set_readonly (tab s) f)) u) ->
  forall n i s u, i <= length (pairs L) -> length (pairs L) - i < n ->
  hinv env s L -> (i < length (pairs L) -> readonly (tab s) = 1%Z) -> J s u ->
  exists s', pos_loop n env body (pos_at L i) (s, u) =
     Ret (s', (visit g (drop i (pairs L)) u).1, (visit g (drop i (pairs L)) u).2) /\ J s' (visit g (drop i (pairs L)) u).1.
Proof.
  intros Hb Hfl n. induction n as [|n IH]; intros i s u Hi Hn HI Hro HJ; [lia|].
  assert (Hlc : length (pairs L) = length (concat L)) by (unfold pairs, ents; by rewrite !fmap_length).
  destruct (decide (i < length (pairs L))) as [Hlt|Hge].
  - destruct (lookup_lt_is_Some_2 (pairs L) i Hlt) as [[k d] Hkd].
    rewrite (drop_S _ _ _ Hkd). cbn [visit].
    assert (Hpos : exists a, pos_at L i = Some a).
    { unfold pos_at. destruct (lookup_lt_is_Some_2 (concat L) i) as [x Hx]; [lia|]. rewrite Hx. eauto. }
    destruct Hpos as [a Hpos]. rewrite Hpos. cbn [pos_loop fst]. rewrite <- Hpos.
    rewrite (hsh_get_position_spec env s L i HI), Hkd. rb.
    destruct (Hb k d s u HI (Hro Hlt) HJ) as (s1 & -> & HI1 & Hro1 & HJ1). rb.
    destruct (g k d u) as [u1 r]. cbn [fst snd] in *.
    destruct (r =? 0)%Z eqn:Er; cbn [negb].
    + rewrite (hsh_next_position_spec env s1 L i HI1) by lia. rb.
      destruct (IH (S i) (match pos_at L (S i) with
                 | Some _ => s1 | None => MkH (heap s1) (set_readonly (tab s1) 0) end) u1)
        as (s' & -> & HJ').
      * lia.
      * lia.
      * destruct (pos_at L (S i)); [done|]. by apply hinv_flag.
      * intros Hlt'. unfold pos_at. destruct (lookup_lt_is_Some_2 (concat L) (S i)) as [x Hx]; [lia|].
        rewrite Hx. done.
      * destruct (pos_at L (S i)); [done|]. by apply Hfl.
      * exists s'. done.
    + exists s1. done.
  - rewrite drop_ge by lia. simpl.
    assert (Hend : pos_at L i = None) by (unfold pos_at; rewrite lookup_ge_None_2 by lia; done).
    rewrite Hend. exists s. destruct n; done.
Qed.
Lemma loop_counted env s L ks n fuel s' u b : hinv env s L -> good env -> counted (tab s) n -> length (pairs L) < fuel ->
  HSH_ITERATE fuel env (lookup_body env (fun k _ _ => ks k) collect) s [] = Ret (s', u, b) ->
  counted (tab s') (fold_left (asked (hashf env) (cmpf env) (prime (tab s)) (pairs L)) (List.concat ((fun kd => ks kd.1) <$> pairs L)) n).
Proof.
  intros HI G Hn Hf E. unfold HSH_ITERATE in E. rewrite (hsh_init_position_spec env s L HI) in E. cbn [mbind res_bind] in E.
  set (J := fun (s1 : hst) (u : list (K * D)) => prime (tab s1) = prime (tab s) /\
     counted (tab s1) (fold_left (asked (hashf env) (cmpf env) (prime (tab s)) (pairs L)) (List.concat ((fun kd => ks kd.1) <$> u)) n)).
  assert (Hfl : forall s u f, J s u -> J (MkH (heap s) (set_readonly (tab s) f)) u) by (intros s1 u1 f H; exact H).
  destruct (pos_loop_keeps env L (lookup_body env (fun k _ _ => ks k) collect) collect J) with (n := fuel) (i := 0)
    (s := match pos_at L 0 with Some _ => MkH (heap s) (set_readonly (tab s) 1) | None => s end) (u := @nil (K * D)) as (s1 & E1 & HJ).
  - intros k d s1 u1 HI1 Hro1 [Hp1 HJ1]. destruct (retrieves_counted env L (ks k) G s1 _ HI1 Hro1 HJ1) as (s2 & E2 & K1 & K2 & K3 & K4).
    exists s2. unfold lookup_body. rewrite E2. rb. unfold collect. cbn [fst snd]. split; [done|]. split; [done|]. split; [done|].
    split; [congruence|]. rewrite fmap_app. cbn [fmap list_fmap fst]. rewrite List.concat_app. cbn [List.concat]. rewrite app_nil_r, fold_left_app.
    rewrite Hp1 in K4. exact K4.
  - exact Hfl.
  - lia.
  - lia.
  - destruct (pos_at L 0); [by apply hinv_flag|done].
  - intros Hlt. unfold pos_at. destruct (lookup_lt_is_Some_2 (concat L) 0) as [x Hx]; [unfold pairs, ents in Hlt; rewrite !fmap_length in Hlt; done|]. by rewrite Hx.
  - destruct (pos_at L 0); [apply Hfl|]; (split; [done|exact Hn]).
  - rewrite drop_0 in *. rewrite visit_collect in HJ. cbn [fst app] in HJ.
    assert (Es : s' = s1).
    { destruct (pos_at L 0); rewrite E1 in E; by injection E as -> _ _. }
    rewrite Es. apply HJ.
Qed.
Definition crel env s (g : @ostate K D * counts) : Prop := orel env s g.1 /\ counted (tab s) g.2.
Lemma cstep_ok env s g c : good env -> crel env s g -> clegal g c ->
  call_ok eq ccan (crel env) c (cstep env s c) (cspec (hashf env) (cmpf env) (dnull env) g c).
Proof.
  intros G [HO HN] Hl. destruct g as [o n]. cbn [fst snd] in *. destruct c as [c|al]; cbn [cstep cspec clegal ccan] in *.
  - pose proof (ostep_ok env s o c G HO Hl) as Hc.
    destruct HO as (L & HI & Hpr & Hp & Hro).
    assert (Hcnt : forall s' r, hstep env s c = Ret (s', r) -> (match c with HInsert _ _ _ => readonly (tab s) = 0%Z | _ => True end) ->
      counted (tab s') (recount (hashf env) (cmpf env) o.1.1 o.1.2 n c)).
    { rewrite <- Hp, <- Hpr. intros s' r E Hz. pose proof (pairs_heap env s L HI) as Hsz. destruct HN as (H1 & H2 & H3 & H4).
      destruct c as [al k d|k|k|f| |ks]; cbn [hstep recount hlegal] in *.
      - pose proof (insert_counted env al s L k d n HI G Hl Hz (conj H1 (conj H2 (conj H3 H4)))) as Hs.
        destruct (hsh_insert env al s k d) as [[s1 z]| | | |]; try discriminate E. cbn [mbind res_bind] in E. injection E as -> _. exact Hs.
      - destruct (Z.eqb_spec (readonly (tab s)) 0) as [Hz'|Hnz]; [|rewrite (hsh_delete_ro env s L k HI) in E by congruence; done].
        destruct (hsh_delete_spec env s L k HI G Hz') as (s1 & r1 & L' & E1 & J1 & J2 & J3 & J4). rewrite E1 in E. cbn [mbind res_bind] in E. injection E as <- _.
        destruct J4 as (K1 & K2 & K3 & K4 & K5). split_and!; congruence.
      - destruct (hsh_retrieve env s k) as [[s1 d]| | | |] eqn:E1; try discriminate E. cbn [mbind res_bind] in E. injection E as <- _. by eapply retrieve_counted.
      - destruct (hsh_readonly_spec env s L f HI) as [E1 _]. rewrite E1 in E. cbn [mbind res_bind] in E. injection E as <- _. done.
      - rewrite (hsh_iterate_pure collect env) with (L := L) in E by (done || lia). rewrite visit_collect in E. cbn [mbind res_bind] in E. injection E as <- _. done.
      - destruct (HSH_ITERATE _ _ _ _ _) as [[[s1 u] b]| | | |] eqn:E1; try discriminate E. cbn [mbind res_bind] in E.
        unfold HSH_ITERATE_END in E. pose proof (fun Hf => loop_counted env s L ks n _ s1 u b HI G (conj H1 (conj H2 (conj H3 H4))) Hf E1) as Hk. specialize (Hk ltac:(lia)).
        unfold hsh_readonly in E. destruct (hsh_check (tab s1)); try discriminate E. cbn [mbind res_bind] in E. injection E as <- _. exact Hk. }
    destruct (hstep env s c) as [[s' r]| | | |] eqn:E; cbn [mbind res_bind]; destruct (ospec _ _ _ o c) as [[o' r']| | | |] eqn:Eo; cbn [mbind res_bind call_ok] in *; try done.
    destruct Hc as [HO' ->]. split; [|done]. split; [done|]. cbn [snd]. apply (Hcnt _ _ eq_refl).
    destruct c; try done. unfold ospec in Eo. destruct o as [[p m] ro]. cbn [snd] in Hro. rewrite Hro. by destruct (Z.eqb_spec ro 0).
  - destruct HO as (L & HI & Hpr & Hp & Hro). cbn [fst snd] in Hl. rewrite <- Hp in Hl. rewrite (hsh_get_stats_spec env al s L HI Hl).
    destruct (blk_alloc al 72) eqn:Eb; [|exact Eb]. cbn [mbind res_bind call_ok]. split; [split; [by exists L|done]|].
    unfold numbers. rewrite <- Hpr, <- Hp. destruct HN as (-> & -> & -> & ->). done.
Qed.
Lemma stats_trace env al0 cs : good env -> halloc_ok al0 -> lawful (cspec (hashf env) (cmpf env) (dnull env)) clegal (1%N, [], 0%Z, no_counts) cs ->
  ok (fun s => refines eq ccan (fun _ _ => True) cs
                 (run (cstep env) s cs) (run (cspec (hashf env) (cmpf env) (dnull env)) (1%N, [], 0%Z, no_counts) cs))
     (can_fail al0) (hsh_create al0).
Proof.
  intros G Hal Hl. eapply ok_mono; [apply (hsh_create_spec env al0)| |done]. intros s [HI Ht].
  eapply refines_Q; [|apply (run_refines _ _ _ _ clegal (crel env)); [intros; by apply cstep_ok| |exact Hl]]; [done|].
  split; [exists [[]]; rewrite Ht; done|]. rewrite Ht. done.
Qed.
End HashStat.
