(** C98: every number in the statistics is a function of the calls: hash tables and sets. *)
From Verif Require Import Base Trace PrimeModel HashModel HashSpec HashProofs HashOps HashOps2 HashIter HashHist HashTop HashGrow HashTrace HashOrder HashStat HashProps HashOrderProps.
From Verif Require Import SetModel SetSpec SetAlg SetProofs SetWorld SetHist SetTrace SetOrder SetProps SetOrderProps.
Local Open Scope nat_scope.

(** Whole programs over one hash table that may ask for the statistics at any
    moment: every result, all nine numbers of every statistics included, is that
    of [cspec] (HashStat.v), which keeps four counters, the number of buckets
    and the entries in order, and knows nothing of memory. *)
Theorem C98_programs : forall {K D} (env : henv K D) al0 cs, good env -> halloc_ok al0 ->
  lawful (cspec (hashf env) (cmpf env) (dnull env)) clegal (1%N, [], 0%Z, no_counts) cs ->
  ok (fun s => refines eq ccan (fun _ _ => True) cs (run (cstep env) s cs)
                 (run (cspec (hashf env) (cmpf env) (dnull env)) (1%N, [], 0%Z, no_counts) cs))
     (can_fail al0) (hsh_create al0).
Proof. exact @stats_trace. Qed.
Print Assumptions C98_programs.

(** the same calls with other allocators *)
Definition csame_call {K D} (c c' : ccall K D) : Prop :=
  match c, c' with Call c, Call c' => same_call c c' | Stats _, Stats _ => True | _, _ => False end.
Lemma cspec_same {K D} hf cmp (null : D) g (c c' : ccall K D) : csame_call c c' -> cspec hf cmp null g c = cspec hf cmp null g c'.
Proof.
  destruct g as [o n], c as [c|al], c' as [c'|al']; cbn [csame_call cspec]; try done. intros H. rewrite (ospec_same hf cmp null o c c' H).
  replace (recount hf cmp o.1.1 o.1.2 n c') with (recount hf cmp o.1.1 o.1.2 n c); [done|].
  destruct c, c'; cbn [same_call] in H; try discriminate H; try done; injection H as ->; done.
Qed.
Lemma crun_same {K D} hf cmp (null : D) (cs cs' : list (ccall K D)) : Forall2 csame_call cs cs' -> forall g, run (cspec hf cmp null) g cs = run (cspec hf cmp null) g cs'.
Proof.
  induction 1 as [|c c' cs cs' Hc _ IH]; intros g; [done|]. cbn [run]. rewrite (cspec_same hf cmp null g c c' Hc).
  destruct (cspec hf cmp null g c') as [[g' r]| | | |]; try done. by rewrite IH.
Qed.
Theorem C98_addresses_do_not_show : forall {K D} (env : henv K D) al al' cs cs' s s' rs rs' t t',
  good env -> halloc_ok al -> halloc_ok al' ->
  lawful (cspec (hashf env) (cmpf env) (dnull env)) clegal (1%N, [], 0%Z, no_counts) cs ->
  lawful (cspec (hashf env) (cmpf env) (dnull env)) clegal (1%N, [], 0%Z, no_counts) cs' -> Forall2 csame_call cs cs' ->
  hsh_create al = Ret s -> hsh_create al' = Ret s' ->
  run (cstep env) s cs = (rs, Ret t) -> run (cstep env) s' cs' = (rs', Ret t') -> rs = rs'.
Proof.
  intros K D env al al' cs cs' s s' rs rs' t t' G Ha Ha' Hl Hl' Hc E E' R R'.
  pose proof (stats_trace env al cs G Ha Hl) as H. rewrite E in H. cbn [ok] in H. rewrite R in H.
  pose proof (stats_trace env al' cs' G Ha' Hl') as H'. rewrite E' in H'. cbn [ok] in H'. rewrite R' in H'.
  rewrite <- (crun_same _ _ _ cs cs' Hc) in H'.
  destruct H as [[H1 _]|[H1 _]]; [|discriminate H1]. destruct H' as [[H1' _]|[H1' _]]; [|discriminate H1'].
  cbn [fst] in H1, H1'. generalize dependent (run (cspec (hashf env) (cmpf env) (dnull env)) (1%N, [], 0%Z, no_counts) cs).1. intros qs H1 H1'.
  assert (Heq : forall xs ys : list (cres K D), Forall2 eq xs ys -> xs = ys) by (intros xs ys HF; induction HF; congruence).
  apply Heq in H1. apply Heq in H1'. congruence.
Qed.
Print Assumptions C98_addresses_do_not_show.

(** Sets: at the end of every program, over any number of sets and all fourteen
    calls, the statistics of every live set are the numbers of [sospec]
    (SetOrder.v).  So set_inter and set_diff ask their second set once for each
    element of the first, set_equal, if the sets have the same size, asks the
    second for the elements of the first up to the first missing one, and
    set_add, set_del and set_union ask nobody. *)
Theorem C98_set_programs : forall {K} (F : fns K) cs, lawful (sospec F) (solegal F) ∅ cs ->
  refines eq scan
    (fun w O => forall h o, O !! h = Some o -> (N.of_nat (length (oel o)) < 2 ^ 64)%N ->
       exists x, w !! h = Some x /\ forall al, set_get_stats al (ws x) =
         if blk_alloc al 72 then Ret (numbers (fhash F (ohid o)) (osize o) (keyed (oel o)) (ocn o)) else Fatal) cs
    (run (sstep F) ∅ cs) (run (sospec F) ∅ cs).
Proof.
  intros K F cs Hl. eapply refines_Q; [|apply (run_refines _ _ _ _ (solegal F) (orep F)); [intros; by apply sostep_ok| |exact Hl]].
  - intros w O HO h o Ho Hlen. destruct (orep_lookup _ _ _ _ _ HO Ho) as (x & Hx & Hr). exists x. split; [exact Hx|]. intros al.
    pose proof (orep1_hash _ _ _ Hr) as Hh. destruct Hr as (L & HI & _ & Hp & Hs & _ & _ & _ & N1 & N2 & N3 & N4).
    rewrite <- Hp in Hlen. rewrite (set_get_stats_spec (wenv F x) al (ws x) L HI Hlen). destruct (blk_alloc al 72); [|done].
    unfold numbers. rewrite <- Hp, keyed_elems, <- Hs, N1, N2, N3, N4, <- Hh. unfold elems. rewrite fmap_length. done.
  - intros h. rewrite !lookup_empty. constructor.
Qed.
Print Assumptions C98_set_programs.

(** ** Concrete instances *)
(** keys 1, 12 and 23 share a bucket of 11: 23, entered last, is in front.  12 is
    asked for twice, the second time in front, and 7 is not there; the loop asks
    for the key at hand and for 5, which is not there *)
Definition ex_ccalls (al : halloc N N) : list (ccall N N) :=
  [Call (HInsert al 1 10); Call (HInsert al 2 20); Stats al; Call (HInsert al 4 40); Call (HInsert al 12 120); Call (HInsert al 23 230); Stats al;
   Call (HRetrieve 12); Stats al; Call (HRetrieve 12); Call (HRetrieve 7); Stats al; Call (HInsert al 4 41); Call (HDelete 2); Call (HDelete 2); Call HIterate; Stats al;
   Call (HLoop (fun k => [k; 5])); Stats al]%N.
Fixpoint clawful_b (g : @ostate N N * counts) (cs : list (ccall N N)) : bool :=
  match cs with
  | [] => true
  | c :: cs' => match c with Stats _ => (N.of_nat (length g.1.1.2) <? 2 ^ 32)%N | _ => true end &&
      match cspec (hashf ex_env) (cmpf ex_env) (dnull ex_env) g c with Ret (g', _) => clawful_b g' cs' | _ => true end
  end.
Definition cal (c : ccall N N) : Prop := match c with Call c => hlegal c | _ => True end.
Lemma clawful_ok cs : forall g, Forall cal cs -> clawful_b g cs = true -> lawful (cspec (hashf ex_env) (cmpf ex_env) (dnull ex_env)) clegal g cs.
Proof.
  induction cs as [|c cs IH]; intros g Ha; cbn [clawful_b lawful]; [done|]. apply Forall_cons in Ha as [Ha Ha'].
  intros [H1 H2]%andb_prop. split; [destruct c; [exact Ha|by apply N.ltb_lt]|]. destruct (cspec _ _ _ g c) as [[g' r]| | | |]; try exact I. by apply IH.
Qed.
Lemma ex_cal al : halloc_ok al -> Forall cal (ex_ccalls al).
Proof. intros Hal. unfold ex_ccalls. repeat (apply Forall_cons; split; [first [exact Hal|exact I]|]). apply Forall_nil. exact I. Qed.
Example ex_ccalls_ok : lawful (cspec (hashf ex_env) (cmpf ex_env) (dnull ex_env)) clegal (1%N, [], 0%Z, no_counts) (ex_ccalls ex_al) /\
  lawful (cspec (hashf ex_env) (cmpf ex_env) (dnull ex_env)) clegal (1%N, [], 0%Z, no_counts) (ex_ccalls HashOrderProps.ex_far).
Proof. split; (apply clawful_ok; [apply ex_cal; first [exact ex_al_ok|exact HashOrderProps.ex_far_ok]|vm_compute; reflexivity]). Qed.
Example ex_ccalls_same : Forall2 csame_call (ex_ccalls ex_al) (ex_ccalls HashOrderProps.ex_far).
Proof. unfold ex_ccalls. repeat (apply List.Forall2_cons; [cbn [csame_call same_call]; first [exact I|reflexivity|split; reflexivity]|]). apply List.Forall2_nil. Qed.
Definition shown {K D} (rs : list (cres K D)) : list hstats := omap (fun r => match r with Numbers st => Some st | _ => None end) rs.
(** size, resizings, entries, buckets used, buckets with one key, longest bucket, retrievals, hits, misses *)
Example ex_ccalls_numbers :
  shown (run (cspec (hashf ex_env) (cmpf ex_env) 0%N) (1%N, [], 0%Z, no_counts) (ex_ccalls ex_al)).1 =
  [HS 3 1 2 2 2 1 0 0 0; HS 11 2 5 3 2 3 0 0 0; HS 11 2 5 3 2 3 1 0 0; HS 11 2 5 3 2 3 3 1 1; HS 11 2 4 2 1 3 3 1 1; HS 11 2 4 2 1 3 11 3 5]%N.
Proof. vm_compute. reflexivity. Qed.
Example ex_ccalls_run : exists s, hsh_create ex_al = Ret s /\
  (HashOrderProps.finishes 19 (run (cstep ex_env) s (ex_ccalls ex_al)) = true /\ HashOrderProps.finishes 19 (run (cstep ex_env) s (ex_ccalls HashOrderProps.ex_far)) = true).
Proof. run. Qed.
(** the program of SetOrderProps.v *)
Definition set_numbers (O : gmap positive (@oset N)) (h : positive) : option hstats :=
  (fun o => numbers (fhash ex_F (ohid o)) (osize o) ((fun k => (k, tt)) <$> oel o) (ocn o)) <$> O !! h.
Example ex_socalls_numbers :
  match (run (sospec ex_F) ∅ (ex_socalls ex_sal)).2 with
  | Ret e => set_numbers e 1 = Some (HS 11 2 5 3 2 3 4 1 1) /\ set_numbers e 2 = Some (HS 37 3 4 4 4 1 5 1 4) /\ set_numbers e 3 = Some (HS 11 2 6 4 3 3 0 0 0)
  | _ => False
  end.
Proof. vm_compute. split_and!; reflexivity. Qed.
