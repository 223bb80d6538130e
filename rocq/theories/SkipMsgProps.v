(** C103: what a skip list call prints when it refuses.  [psl_history W G n D Q]
    (SkipMsgHist.v): every history of calls that return, made with any log and output; [G] are
    the live lists, [D] the destroyed ones (C102), [Q] the print functions given to sl_create. *)
From Verif Require Import Base Alloc StackModel ObjModel SkipModel SkipSpec SkipProofs SkipWorld SkipHist SkipProps
  SkipMagicModel SkipMagicHist SkipMagicProps LogModel LogSpec LogProofs LogHist LogProps SkipMsgModel SkipMsgSpec SkipMsgHist.
From Coq Require Import String.
Notation length := List.length.
Local Open Scope Z_scope.

(** inserting a datum whose key is in the list *)
Theorem C103_duplicate : forall K (T : fmt K) W G n D Q l g p d x o lw LG gl al rnd,
  psl_history T W G n D Q -> G !! l = Some g -> Q !! l = Some p -> present g (g_key g d) x ->
  log_history lw LG gl -> can_write o LG ->
  stops (psl_insert o T al rnd W (Some l) d lw) lw o LG [] "sl_insert"
    (bytes "Datum """ ++ shown T p d ++ bytes """ is already in list").
Proof.
  intros K T W G n D Q l g p d x o lw LG gl al rnd h Hl Hq Hp Hlog Hc. apply psl_history_inv in h as I.
  unfold psl_insert. rewrite (bind_go _ _ _ _ _ (pcheck_live o _ _ _ _ _ I l _ lw ltac:(eauto))).
  destruct (looks_spec W G n l g d (mi_base _ _ _ _ (minv_p _ _ _ _ _ I)) Hl) as [Hlk _].
  rewrite (bind_lift _ _ _ _ (Hlk x Hp)), (bind_lift _ _ _ _ (print_datum_ok T _ _ _ _ _ I l d p ltac:(eauto) Hq)).
  eapply (stops_lit o lw LG gl); [by apply log_inv|done|reflexivity|reflexivity].
Qed.
Print Assumptions C103_duplicate.

(** deleting a datum whose key is not in the list: the list is dumped first *)
Theorem C103_missing : forall K (T : fmt K) W G n D Q l g p d o lw LG gl,
  psl_history T W G n D Q -> G !! l = Some g -> Q !! l = Some p -> absent g (g_key g d) ->
  log_history lw LG gl -> can_write o LG ->
  exists dump, dump_output T g dump /\
    stops (psl_delete o T W (Some l) d lw) lw o LG dump "sl_delete" (bytes "Datum """ ++ shown T p d ++ bytes """ is not in list").
Proof.
  intros K T W G n D Q l g p d o lw LG gl h Hl Hq Hp Hlog Hc. apply psl_history_inv in h as I.
  unfold psl_delete. rewrite (bind_go _ _ _ _ _ (pcheck_live o _ _ _ _ _ I l _ lw ltac:(eauto))).
  destruct (looks_spec W G n l g d (mi_base _ _ _ _ (minv_p _ _ _ _ _ I)) Hl) as [_ Hlk].
  rewrite (bind_lift _ _ _ _ (Hlk Hp)). destruct (print_dump_ok T W G n D Q l g lw I Hl) as (ev & E & Hd).
  exists ev. split; [done|]. rewrite (bind_go _ _ _ _ _ E).
  rewrite (bind_lift _ _ _ _ (print_datum_ok T _ _ _ _ _ I l d p ltac:(eauto) Hq)).
  eapply (stops_lit_after o lw LG gl); [by apply log_inv|done|reflexivity|reflexivity].
Qed.
Print Assumptions C103_missing.

(** every call on NULL, but for sl_iterate and sl_iterate_arg, which return 0 *)
Theorem C103_null : forall K (T : fmt K) (W : pworld K) o lw LG gl, log_history lw LG gl -> can_write o LG ->
  (forall al rnd d, stops (psl_insert o T al rnd W None d lw) lw o LG [] "sl_insert" (bytes "skip list is null")) /\
  (forall d, stops (psl_delete o T W None d lw) lw o LG [] "sl_delete" (bytes "skip list is null")) /\
  (forall k, stops (psl_find o W None k lw) lw o LG [] "sl_find" (bytes "skip list is null")) /\
  (forall al, stops (psl_destroy o al W None lw) lw o LG [] "sl_destroy" (bytes "skip list is null")) /\
  stops (psl_dump o T W None lw) lw o LG [] "_sl_dump" (bytes "skip list is null") /\
  (forall X arg (f : X -> ptr -> X * Z) s, psl_iterate o arg f s W None lw = Ret (lw, Go (s, 0))).
Proof.
  intros K T W o lw LG gl Hlog Hc. apply log_inv in Hlog.
  repeat split; intros; apply stops_bind, (stops_lit o lw LG gl); done.
Qed.
Print Assumptions C103_null.

(** every call on a destroyed list *)
Theorem C103_destroyed : forall K (T : fmt K) W G n D Q l o lw LG gl, psl_history T W G n D Q -> l ∈ D ->
  log_history lw LG gl -> can_write o LG ->
  let msg := bytes "Bad magic: 0xbadcfe10 (should be 0xabcdef01)" in
  (forall al rnd d, stops (psl_insert o T al rnd W (Some l) d lw) lw o LG [] "sl_insert" msg) /\
  (forall d, stops (psl_delete o T W (Some l) d lw) lw o LG [] "sl_delete" msg) /\
  (forall k, stops (psl_find o W (Some l) k lw) lw o LG [] "sl_find" msg) /\
  (forall al, stops (psl_destroy o al W (Some l) lw) lw o LG [] "sl_destroy" msg) /\
  stops (psl_dump o T W (Some l) lw) lw o LG [] "_sl_dump" msg /\
  (forall X (arg : bool) (f : X -> ptr -> X * Z) s,
     stops (psl_iterate o arg f s W (Some l) lw) lw o LG [] (if arg then "sl_iterate_arg" else "sl_iterate") msg).
Proof.
  intros K T W G n D Q l o lw LG gl h Hl Hlog Hc msg. apply psl_history_inv in h as I. apply log_inv in Hlog.
  repeat split; intros; apply stops_bind; rewrite (pcheck_dead o _ _ _ _ _ I l _ lw Hl);
    apply (stops_lit o lw LG gl); try done. by destruct arg.
Qed.
Print Assumptions C103_destroyed.

(** sl_create without a compare or a key function, when malloc succeeds *)
Theorem C103_create_null : forall K (T : fmt K) W G n D Q o al print lw LG gl, psl_history T W G n D Q ->
  log_history lw LG gl -> can_write o LG ->
  (forall h, al_info (sa_obj al) h <> None) -> (forall h, al_stk (sa_obj al) h <> None) ->
  (forall key, stops (psl_create o al W None key print lw) lw o LG [] "sl_create" (bytes "compare function is NULL")) /\
  (forall cmp, stops (psl_create o al W (Some cmp) None print lw) lw o LG [] "sl_create" (bytes "key function is NULL")).
Proof.
  intros K T W G n D Q o al print lw LG gl h Hlog Hc H1 H2. apply log_inv in Hlog.
  assert (E : match smem (mbase (pbase W)) with
    | None => '(_, _) ← mem_create_objects (sa_obj al) (sobj (mbase (pbase W))) sizeof_sl; Ret tt | Some _ => Ret tt end = Ret tt).
  { destruct (smem (mbase (pbase W))); [done|]. unfold mem_create_objects.
    destruct (al_info (sa_obj al) (oinf (sobj (mbase (pbase W))))) as [i|] eqn:E1; [|by apply H1 in E1].
    assert (H3 : forall h, exists r, stk_create (al_stk (sa_obj al)) h = Ret r).
    { intros h0. unfold stk_create. specialize (H2 (stks h0)). destruct (al_stk (sa_obj al) (stks h0)); [eauto|done]. }
    destruct (H3 (osh (sobj (mbase (pbase W))))) as [[h1 s1] E2]. rewrite E2. rb.
    destruct (H3 h1) as [[h2 s2] E3]. rewrite E3. done. }
  split; intros; unfold psl_create; rewrite (bind_lift _ _ _ _ E); apply (stops_lit o lw LG gl); done.
Qed.
Print Assumptions C103_create_null.

(** the dump of a live list *)
Theorem C103_dump : forall K (T : fmt K) W G n D Q l g o lw, psl_history T W G n D Q -> G !! l = Some g ->
  exists lw' dump, psl_dump o T W (Some l) lw = Ret (lw', Go tt) /\ ltr lw' = ltr lw ++ dump /\ dump_output T g dump.
Proof.
  intros K T W G n D Q l g o lw h Hl. apply psl_history_inv in h as I.
  destruct (print_dump_ok T W G n D Q l g lw I Hl) as (ev & E & Hd). exists (tr_app lw ev), ev. split; [|done].
  unfold psl_dump. by rewrite (bind_go _ _ _ _ _ (pcheck_live o _ _ _ _ _ I l _ lw ltac:(eauto))).
Qed.
Print Assumptions C103_dump.

(** the calls that do not refuse print nothing, and do what C33 and C35 say *)
Theorem C103_silent : forall K (T : fmt K) W G n D Q l g o lw, psl_history T W G n D Q -> G !! l = Some g ->
  (exists p, Q !! l = Some p) /\
  (forall al rnd d, sal_ok al -> absent g (g_key g d) -> Z.of_nat (length (g_data g)) < 2 ^ 31 - 2 ->
     ok (fun '(lw', c) => lw' = lw /\ exists W', c = Go W' /\ psl_history T W' (<[l := g_insert d g]> G) n D Q)
        (exists h, sa_entry al h = None) (psl_insert o T al rnd W (Some l) d lw)) /\
  (forall d x, present g (g_key g d) x ->
     exists W', psl_delete o T W (Some l) d lw = Ret (lw, Go W') /\ psl_history T W' (<[l := g_delete d g]> G) n D Q) /\
  (forall k d, present g k d -> psl_find o W (Some l) k lw = Ret (lw, Go d)) /\
  (forall k, absent g k -> psl_find o W (Some l) k lw = Ret (lw, Go None)) /\
  (forall X arg (f : X -> ptr -> X * Z) s w, exists s' r, psl_iterate o arg f s W (Some l) lw = Ret (lw, Go (s', r)) /\
     calls (fun s (w : unit) d => Ret ((f s d).1, w, (f s d).2)) s w (g_data g) = Ret (s', w, r)) /\
  (forall al, sal_ok al -> snodes_ok al ->
     exists W', psl_destroy o al W (Some l) lw = Ret (lw, Go W') /\ psl_history T W' (delete l G) n ({[l]} ∪ D) (delete l Q)).
Proof.
  intros K T W G n D Q l g o lw h Hl. pose proof (psl_history_inv _ _ _ _ _ _ h) as I.
  pose proof (pi_base _ _ _ _ _ I) as Hm. assert (Hck : forall B (f : positive -> M B) fn, bind (pcheck o W (Some l) fn) f lw = f l lw).
  { intros B f fn. exact (bind_go _ _ _ _ _ (pcheck_live o _ _ _ _ _ I l fn lw ltac:(eauto))). }
  destruct (C102_live K (pbase W) G n D l g Hm Hl) as (_ & Hb & Hins & Hdel & Hf1 & Hf2 & Hit).
  pose proof (fun d => looks_spec W G n l g d Hb Hl) as Hlk.
  split. { destruct (pi_print _ _ _ _ _ I l ltac:(eauto)) as (p & Hp & _). eauto. }
  split; [|split; [|split; [|split; [|split]]]].
  - intros al rnd d Hal Hab Hlen. specialize (Hins al rnd d Hal Hab Hlen).
    assert (E0 : psl_insert o T al rnd W (Some l) d lw =
        (w' <- lift (msl_insert al rnd (pbase W) (Some l) d) ; ret (PW w' (pprint W))) lw).
    { unfold psl_insert. rewrite Hck. destruct (Hlk d) as [_ H]. by rewrite (bind_lift _ _ _ _ (H Hab)). }
    destruct (msl_insert al rnd (pbase W) (Some l) d) as [w1| | | |] eqn:E1; cbn [ok] in Hins; try done.
    + assert (E2 : psl_insert o T al rnd W (Some l) d lw = Ret (lw, Go (PW w1 (pprint W)))) by (rewrite E0; done).
      rewrite E2. cbn [ok]. split; [done|]. eexists. split; [done|]. by eapply (ph_insert T o lw lw al rnd).
    + rewrite E0. done.
  - intros d x Hp. destruct (Hdel d x Hp) as (w1 & E1 & _).
    assert (E2 : psl_delete o T W (Some l) d lw = Ret (lw, Go (PW w1 (pprint W)))).
    { unfold psl_delete. rewrite Hck. destruct (Hlk d) as [H _]. rewrite (bind_lift _ _ _ _ (H x Hp)). by rewrite (bind_lift _ _ _ _ E1). }
    eexists. split; [exact E2|]. by eapply (ph_delete T o lw lw).
  - intros k d Hp. unfold psl_find. rewrite Hck. by rewrite (lift_ok _ _ _ (Hf1 k d Hp)).
  - intros k Hp. unfold psl_find. rewrite Hck. by rewrite (lift_ok _ _ _ (Hf2 k Hp)).
  - intros X arg f s w. unfold psl_iterate. rewrite Hck. rewrite Hit.
    assert (Hc : forall L s (w1 : mworld K), exists s' r,
      calls (fun s w d => Ret ((f s d).1, w, (f s d).2)) s w1 L = Ret (s', w1, r) /\
      calls (fun s (w : unit) d => Ret ((f s d).1, w, (f s d).2)) s w L = Ret (s', w, r)).
    { clear. induction L as [|d L IH]; intros s w1; cbn [calls]; [eauto|]. rb. destruct (((f s d).2 =? 0)); [apply IH|eauto]. }
    destruct (Hc (g_data g) s (pbase W)) as (s' & r & E1 & E2). exists s', r. split; [|done]. by rewrite (bind_lift _ _ _ _ E1).
  - intros al Hal Hn. destruct (C102_destroy K (pbase W) G n D l g al Hm Hl Hal Hn) as (w1 & E1 & _).
    assert (E2 : psl_destroy o al W (Some l) lw = Ret (lw, Go (PW w1 (pprint W)))).
    { unfold psl_destroy. rewrite Hck. by rewrite (bind_lift _ _ _ _ E1). }
    eexists. split; [exact E2|]. by eapply (ph_destroy T o lw lw al).
Qed.
Print Assumptions C103_silent.
Theorem C103_create : forall K (T : fmt K) W G n D Q o lw al cmp key print, psl_history T W G n D Q ->
  sal_ok al -> snodes_ok al -> order cmp -> Z.of_nat n < 2 ^ 31 - 1 ->
  ok (fun '(lw', c) => lw' = lw /\ exists W' l, c = Go (W', l) /\ G !! l = None /\
        psl_history T W' (<[l := GL cmp key []]> G) (n + 1) (D ∖ {[l]}) (<[l := print]> Q))
     (exists h1 h2 h3 h4 m, sa_entry al h1 = None \/ al_info (sa_obj al) h2 = None \/ al_stk (sa_obj al) h3 = None \/
        al_blk (sa_obj al) m h4 = None)
     (psl_create o al W (Some cmp) (Some key) print lw).
Proof.
  intros K T W G n D Q o lw al cmp key print h Hal Hn Ho Hb. pose proof (psl_history_inv _ _ _ _ _ _ h) as I.
  pose proof (C102_create K (pbase W) G n D al cmp key (pi_base _ _ _ _ _ I) Hal Hn Ho Hb) as Hc.
  pose (pool := match smem (mbase (pbase W)) with
    | None => '(_, _) ← mem_create_objects (sa_obj al) (sobj (mbase (pbase W))) sizeof_sl; Ret tt | Some _ => Ret tt end).
  pose (rest := fun lw : lstate => (r <- lift (msl_create al (pbase W) (Some cmp) (Some key)) ; ret (PW r.1 (<[r.2 := print]> (pprint W)), r.2)) lw).
  assert (E : psl_create o al W (Some cmp) (Some key) print lw = (lift pool ;> rest) lw) by done.
  assert (Hpool : pool = Ret tt \/ pool = Fatal /\ msl_create al (pbase W) (Some cmp) (Some key) = Fatal \/
    (forall P, ~ ok P (exists h1 h2 h3 h4 m, sa_entry al h1 = None \/ al_info (sa_obj al) h2 = None \/ al_stk (sa_obj al) h3 = None \/
        al_blk (sa_obj al) m h4 = None) (msl_create al (pbase W) (Some cmp) (Some key)))).
  { unfold pool, msl_create, sl_create. destruct (smem (mbase (pbase W))); [by left|].
    destruct (mem_create_objects _ _ _) as [[? ?]| | | |]; cbn [mbind res_bind ok]; auto. }
  destruct Hpool as [Hp|[[Hp Hf]|Hp]].
  - rewrite E, (bind_lift _ _ _ _ Hp). unfold rest.
    destruct (msl_create al (pbase W) (Some cmp) (Some key)) as [[w1 l]| | | |] eqn:E1; cbn [ok] in Hc; try done.
    cbn [ok]. destruct Hc as [Hg _]. cbn. split; [done|]. eexists _, l. split; [done|]. split; [done|].
    eapply (ph_create T o lw lw al); [exact h|done..|]. rewrite E, (bind_lift _ _ _ _ Hp). done.
  - rewrite E. unfold bind, lift at 1. rewrite Hp. cbn [mbind res_bind ok]. rewrite Hf in Hc. done.
  - by apply Hp in Hc.
Qed.
Print Assumptions C103_create.
Theorem C103_shutdown : forall K (T : fmt K) W n D Q lw, psl_history T W ∅ n D Q ->
  exists W', psl_shutdown W lw = Ret (lw, Go W') /\ psl_history T W' ∅ 0 ∅ ∅.
Proof.
  intros K T W n D Q lw h. pose proof (psl_history_inv _ _ _ _ _ _ h) as I.
  destruct (C102_shutdown K (pbase W) n D (pi_base _ _ _ _ _ I)) as (w1 & E1 & _).
  assert (E2 : exists W', psl_shutdown W lw = Ret (lw, Go W')) by (unfold psl_shutdown; rewrite (bind_lift _ _ _ _ E1); by eexists).
  destruct E2 as [W' E2]. exists W'. split; [done|]. by eapply (ph_shutdown T lw lw).
Qed.
Print Assumptions C103_shutdown.

(** two lists, the first with a print function; the second is destroyed *)
Definition xp (d : ptr) : list N := match d with Some p => bytes "key " ++ [(48 + Npos p)%N] | None => bytes "none" end.
Definition xT : fmt Z := Fmt (fun _ => bytes "0x1000") (fun z => [(48 + Z.to_N z)%N]) (fun '(_, i, _, _) => [(48 + Z.to_N i)%N; 10%N]).
Definition xw : lstate := run_st (os_at 50) (CProgram (Some (bytes "/bin/prog"))) lstart.
Definition xG : sinks := Sk None None false None None false 8 (Some (bytes "prog")).
Definition go {A} (m : M A) (a : A) : A := match m xw with Ret (_, Go b) => b | _ => a end.
Definition goes_on {A} (m : M A) : bool := match m xw with Ret (_, Go _) => true | _ => false end.
Lemma go_ok {A} (m : M A) (a : A) : goes_on m = true -> exists w', m xw = Ret (w', Go (go m a)).
Proof. unfold goes_on, go. destruct (m xw) as [[w [b|x|]]| | | |]; try done. eauto. Qed.
Definition p1 := go (psl_create (os_at 50) ex_sal pempty (Some zcmp) (Some zkey) (Some xp)) (pempty, 1%positive).
Definition p2 := go (psl_create (os_at 50) ex_sal p1.1 (Some zcmp) (Some zkey) None) (pempty, 2%positive).
Definition p3 := go (psl_insert (os_at 50) xT ex_sal (ones 2) p2.1 (Some l1) (Some 5%positive)) pempty.
Definition p4 := go (psl_destroy (os_at 50) ex_sal p3 (Some l2)) pempty.
Example C103_reachable : log_history xw xG 0 /\ can_write (os_at 50) xG /\ exists G D Q, psl_history xT p4 G 2 D Q /\
  l2 ∈ D /\ (exists g, G !! l1 = Some g /\ g_data g = [Some 5%positive]) /\ Q !! l1 = Some (Some xp) /\
  (exists w', psl_insert (os_at 50) xT ex_sal (ones 0) p4 (Some l1) (Some 5%positive) xw = Ret (w', Aborts) /\
     drop (length (ltr xw)) (ltr w') =
       [EFlush Stdout; EPrint Stderr (bytes "prog (sl_insert): Internal error" ++ nl ++ bytes "     ");
        EPrint Stderr (bytes "Datum ""key 5"" is already in list"); EPrint Stderr nl;
        EPrint Stderr (bytes "Aborting prog..." ++ nl); EFlush Stderr; EFlush Stdout]) /\
  (exists w', psl_delete (os_at 50) xT p4 (Some l1) (Some 6%positive) xw = Ret (w', Aborts) /\
     drop (length (ltr xw)) (ltr w') =
       [EPrint Stdout (bytes "Level = 1, count = 1" ++ nl ++ bytes "0" ++ nl ++ bytes "1" ++ nl); EFlush Stdout;
        EPrint Stderr (bytes "prog (sl_delete): Internal error" ++ nl ++ bytes "     ");
        EPrint Stderr (bytes "Datum ""key 6"" is not in list"); EPrint Stderr nl;
        EPrint Stderr (bytes "Aborting prog..." ++ nl); EFlush Stderr; EFlush Stdout]).
Proof.
  split.
  { change 0%nat with (0 + phantom (os_at 50) (CProgram (Some (bytes "/bin/prog"))))%nat.
    eapply (lh_call lstart nosinks); [apply lh_start|done|done|by apply goes_ok; vm_compute|].
    exists (Some (bytes "prog")). split; [|done]. exists (bytes "/bin/"). split; [done|]. split; [by right|].
    apply (bool_decide_eq_true_1 _). vm_compute. reflexivity. }
  split; [done|].
  assert (h : psl_history xT pempty ∅ 0 ∅ ∅) by constructor.
  destruct (go_ok (psl_create (os_at 50) ex_sal pempty (Some zcmp) (Some zkey) (Some xp)) (pempty, 1%positive)) as [w1 E]; [by vm_compute|].
  fold p1 in E. rewrite (surjective_pairing p1) in E. eapply (ph_create xT _ _ _ ex_sal) in E; [|exact h|apply ex_sal_ok|apply ex_sal_ok|apply zcmp_order|lia].
  clear h. rename E into h.
  destruct (go_ok (psl_create (os_at 50) ex_sal p1.1 (Some zcmp) (Some zkey) None) (pempty, 2%positive)) as [w2 E]; [by vm_compute|].
  fold p2 in E. rewrite (surjective_pairing p2) in E. eapply (ph_create xT _ _ _ ex_sal) in E; [|exact h|apply ex_sal_ok|apply ex_sal_ok|apply zcmp_order|cbn; lia].
  clear h. rename E into h.
  replace p1.2 with l1 in h by (vm_compute; reflexivity). replace p2.2 with l2 in h by (vm_compute; reflexivity).
  destruct (go_ok (psl_insert (os_at 50) xT ex_sal (ones 2) p2.1 (Some l1) (Some 5%positive)) pempty) as [w3 E]; [by vm_compute|].
  fold p3 in E. eapply (ph_insert xT _ _ _ ex_sal _ _ _ _ _ _ l1 g0) in E;
    [|exact h|apply ex_sal_ok|rewrite lookup_insert_ne by done; apply lookup_insert|apply absentb_ok; vm_compute; reflexivity|cbn; lia].
  clear h. rename E into h.
  destruct (go_ok (psl_destroy (os_at 50) ex_sal p3 (Some l2)) pempty) as [w4 E]; [by vm_compute|].
  fold p4 in E. eapply (ph_destroy xT _ _ _ ex_sal _ _ _ _ _ l2 g0) in E;
    [|exact h|apply ex_sal_ok|apply ex_sal_ok|rewrite lookup_insert_ne by done; apply lookup_insert].
  eexists _, _, _. split; [exact E|]. split; [by apply elem_of_union_l, elem_of_singleton|]. split.
  { exists (g_insert (Some 5%positive) g0). split; [|vm_compute; reflexivity]. rewrite lookup_delete_ne by done. apply lookup_insert. }
  split. { rewrite lookup_delete_ne by done. rewrite lookup_insert_ne by done. apply lookup_insert. }
  split; eexists; (split; [vm_compute; reflexivity|vm_compute; reflexivity]).
Qed.
