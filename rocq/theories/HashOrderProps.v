(** C95: the order of iteration is a function of the calls.  [enumerates s m]
    (HashHist.v): iterating the table [s] visits [m], in this order.  [rehash],
    [put] and [after_insert] are in HashOrder.v, [after_lookup] in HashTop.v. *)
From Verif Require Import Base Trace PrimeModel HashModel HashSpec HashProofs HashOps HashOps2 HashIter HashHist HashTop HashTrace HashProps HashOrder.
Local Open Scope nat_scope.

(** hsh_insert: an insertion that finds fewer than two buckets per entry first
    puts the entries into more buckets, each new bucket listing them in the
    reverse of the order they were visited in; a new pair goes to the front of
    its bucket; nothing else moves. *)
Theorem C95_insert : forall {K D} (env : henv K D) s g al k d m,
  good env -> history env s g -> halloc_ok al -> g_ro g = 0%Z -> enumerates s m ->
  ok (fun '(s', _) => exists m', enumerates s' m' /\ after_insert (hashf env) (cmpf env) k d (prime (tab s)) m = Ret (prime (tab s'), m'))
     (can_fail al) (hsh_insert env al s k d).
Proof.
  intros K D env s g al k d m G Hh Hal Hro Hm. destruct (history_inv env s g G Hh) as [L [I1 I2 I3 I4 I5 I6]].
  rewrite (enumerates_unique s m (pairs L) Hm (enumerates_pairs env s L I1)).
  eapply ok_mono; [apply (insert_order env al s L k d I1 G Hal); congruence| |done]. intros [s' r] (L' & J1 & _ & _ & J2).
  exists (pairs L'). split; [by apply (enumerates_pairs env)|exact J2].
Qed.
Print Assumptions C95_insert.

(** hsh_delete: the others keep their places *)
Theorem C95_delete : forall {K D} (env : henv K D) s g k m,
  good env -> history env s g -> g_ro g = 0%Z -> enumerates s m ->
  exists s' r, hsh_delete env s k = Ret (s', r) /\ enumerates s' (aremove (cmpf env) k m).
Proof.
  intros K D env s g k m G Hh Hro Hm. destruct (history_inv env s g G Hh) as [L [I1 I2 I3 I4 I5 I6]].
  rewrite (enumerates_unique s m (pairs L) Hm (enumerates_pairs env s L I1)).
  destruct (hsh_delete_spec env s L k I1 G ltac:(congruence)) as (s1 & r1 & L' & E1 & J1 & J2 & _). exists s1, r1. split; [exact E1|].
  destruct (afind (cmpf env) k (pairs L)) eqn:Ef.
  - destruct J2 as (_ & <- & _). by apply (enumerates_pairs env).
  - destruct J2 as (_ & -> & ->). rewrite aremove_None by (by apply afind_None). by apply (enumerates_pairs env).
Qed.
Print Assumptions C95_delete.

(** The calls that only look: the order stays. *)
Theorem C95_looking : forall {K D} (env : henv K D) s g m, good env -> history env s g -> enumerates s m ->
  (forall f s' r, hsh_readonly s f = Ret (s', r) -> enumerates s' m) /\
  (forall s' p, hsh_init_position s = Ret (s', p) -> enumerates s' m) /\
  (forall p s' q, hsh_next_position s p = Ret (s', q) -> enumerates s' m).
Proof.
  intros K D env s g m G Hh Hm. destruct (history_inv env s g G Hh) as [L [I1 I2 I3 I4 I5 I6]].
  rewrite (enumerates_unique s m (pairs L) Hm (enumerates_pairs env s L I1)). split_and!.
  - intros f s' r E. destruct (hsh_readonly_spec env s L f I1) as [E1 J1]. rewrite E1 in E. injection E as <- <-. by apply (enumerates_pairs env).
  - intros s' p E. rewrite (hsh_init_position_spec env s L I1) in E. injection E as <- <-. destruct (pos_at L 0); apply (enumerates_pairs env); [by apply hinv_flag|done].
  - intros p s' q E. apply next_position_state in E as ->. destruct q; apply (enumerates_pairs env); [done|by apply hinv_flag].
Qed.
Print Assumptions C95_looking.

(** Whole programs: every result, the listings of iterations included and in
    their order, is that of [ospec] (HashOrder.v), which knows nothing of memory. *)
Theorem C95_programs : forall {K D} (env : henv K D) al0 cs,
  good env -> halloc_ok al0 -> Forall hlegal cs ->
  ok (fun s => refines eq hcan (fun s' g => prime (tab s') = g.1.1 /\ enumerates s' g.1.2) cs
                 (run (hstep env) s cs) (run (ospec (hashf env) (cmpf env) (dnull env)) (1%N, [], 0%Z) cs))
     (can_fail al0) (hsh_create al0).
Proof. exact @order_trace. Qed.
Print Assumptions C95_programs.

(** So where malloc puts the nodes cannot be told from the results: two runs of
    the same calls, each with its own allocators, that both find the memory they
    need give the same results and leave the entries in the same order. *)
Theorem C95_addresses_do_not_show : forall {K D} (env : henv K D) al al' s s' cs cs' rs rs' t t',
  good env -> halloc_ok al -> halloc_ok al' -> Forall hlegal cs -> Forall hlegal cs' -> Forall2 same_call cs cs' ->
  hsh_create al = Ret s -> hsh_create al' = Ret s' -> run (hstep env) s cs = (rs, Ret t) -> run (hstep env) s' cs' = (rs', Ret t') ->
  rs = rs' /\ prime (tab t) = prime (tab t') /\ exists m, enumerates t m /\ enumerates t' m.
Proof.
  intros K D env al al' s s' cs cs' rs rs' t t' G Hal Hal' Hl Hl' Hc E E' R R'.
  pose proof (order_trace env al cs G Hal Hl) as H. rewrite E in H. cbn [ok] in H. rewrite R in H.
  pose proof (order_trace env al' cs' G Hal' Hl') as H'. rewrite E' in H'. cbn [ok] in H'. rewrite R' in H'.
  rewrite <- (orun_same _ _ _ cs cs' _ Hc) in H'.
  destruct H as [[H1 H2]|[H1 _]]; [|discriminate H1]. destruct H' as [[H1' H2']|[H1' _]]; [|discriminate H1'].
  destruct (run (ospec (hashf env) (cmpf env) (dnull env)) (1%N, [], 0%Z) cs) as [qs q]. cbn [fst snd] in *.
  assert (Heq : forall xs ys : list (hres K D), Forall2 eq xs ys -> xs = ys) by (intros xs ys HF; induction HF; congruence).
  apply Heq in H1. apply Heq in H1'. split; [congruence|]. unfold same_end in H2, H2'. destruct q as [g| | | |]; try done.
  destruct H2 as [A1 A2], H2' as [B1 B2]. split; [congruence|]. exists g.1.2. done.
Qed.
Print Assumptions C95_addresses_do_not_show.

(** ** Concrete instances *)
Definition ex_ocalls : list (hcall N N) :=
  [HInsert ex_al 1 10; HInsert ex_al 2 20; HInsert ex_al 4 40; HIterate; HInsert ex_al 12 120; HInsert ex_al 23 230; HIterate;
   HRetrieve 12; HDelete 2; HIterate; HLoop (fun k => [k])]%N.
Example ex_ocalls_ok : Forall hlegal ex_ocalls.
Proof. repeat (apply List.Forall_cons; [first [exact ex_al_ok|exact I]|]). apply List.Forall_nil. Qed.
Example ex_ocalls_order :
  (run (ospec (hashf ex_env) (cmpf ex_env) 0%N) (1%N, [], 0%Z) ex_ocalls).1 !! 6 = Some (RPairs [(23, 230); (12, 120); (1, 10); (2, 20); (4, 40)]%N) /\
  (run (ospec (hashf ex_env) (cmpf ex_env) 0%N) (1%N, [], 0%Z) ex_ocalls).1 !! 9 = Some (RPairs [(12, 120); (23, 230); (1, 10); (4, 40)]%N).
Proof. split; vm_compute; reflexivity. Qed.
(** two allocators that place the nodes differently: the same eleven results *)
Definition ex_far : halloc N N := HA (fun h => (Pos.mul 5) <$> node_alloc ex_al h) (fun _ => true).
Lemma ex_far_ok : halloc_ok ex_far.
Proof.
  intros h a. cbn [ex_far node_alloc ex_al fmap option_fmap option_map]. intros [= <-].
  assert (Hlt : forall b x, h !! b = Some x -> (b < map_fold (fun a _ m => Pos.max m (Pos.succ a)) 1 h)%positive).
  { apply (map_fold_ind (fun m h => forall b x, h !! b = Some x -> (b < m)%positive)).
    - intros b x. by rewrite lookup_empty.
    - intros i y h' m Hi IH b x Hb. destruct (decide (b = i)) as [->|Hne]; [lia|].
      rewrite lookup_insert_ne in Hb by done. specialize (IH b x Hb). lia. }
  destruct (h !! _) as [x|] eqn:E; [|done]. specialize (Hlt _ _ E). lia.
Qed.
Definition ex_ocalls_far : list (hcall N N) :=
  (fun c => match c with HInsert _ k d => HInsert ex_far k d | c => c end) <$> ex_ocalls.
Example ex_ocalls_far_same : Forall2 same_call ex_ocalls ex_ocalls_far /\ Forall hlegal ex_ocalls_far.
Proof.
  split; cbn [ex_ocalls_far ex_ocalls fmap list_fmap].
  - repeat (apply List.Forall2_cons; [first [exact (conj eq_refl eq_refl)|reflexivity]|]). apply List.Forall2_nil.
  - repeat (apply List.Forall_cons; [first [exact ex_far_ok|exact I]|]). apply List.Forall_nil.
Qed.
Definition finishes {S P} (n : nat) (r : list P * res S) : bool := (length r.1 =? n) && match r.2 with Ret _ => true | _ => false end.
Example ex_ocalls_run : exists s, hsh_create ex_al = Ret s /\
  (finishes 11 (run (hstep ex_env) s ex_ocalls) = true /\ finishes 11 (run (hstep ex_env) s ex_ocalls_far) = true).
Proof. run. Qed.
