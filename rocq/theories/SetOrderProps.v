(** C95 for sets: the order of iteration is a function of the calls. *)
From Verif Require Import Base Trace PrimeModel HashModel HashSpec HashProofs HashOps HashOps2 HashIter HashHist HashTop HashTrace HashOrder SetModel SetSpec SetAlg SetProofs SetWorld SetHist SetTrace SetOrder SetProps.
Local Open Scope nat_scope.

(** [holds w h xs ro] (SetHist.v): iterating the set [h] visits [xs], in this
    order.  The order after a call is that of a hash table with the same keys and
    no data. *)
Theorem C95_set_insert : forall {K} (F : fns K) al w g h y x k xs,
  whist F w g -> g !! h = Some y -> w !! h = Some x -> halloc_ok al -> gro y = 0%Z -> SetHist.holds w h xs 0 ->
  ok (fun '(s', _) => exists xs', senumerates s' xs' /\
        after_insert (fhash F (ghid y)) (gcmp F y) k tt (prime (tab (ws x))) (keyed xs) = Ret (prime (tab s'), keyed xs'))
     (can_fail al) (set_insert (wenv F x) al (ws x) k).
Proof.
  intros K F al w g h y x k xs Hw Hy Hx Hal Hro (x' & Hx' & He & Hr0). rewrite Hx in Hx'. injection Hx' as <-.
  destruct (wrep_lookup _ _ _ _ _ (whist_rep _ _ _ Hw) Hy) as (x' & Hx' & Hr). pose proof (rep1_cmp _ _ _ Hr) as Hc.
  destruct Hr as (L & HI & G & Hp & _ & H1 & H2). rewrite Hx in Hx'. injection Hx' as <-.
  rewrite (senumerates_unique _ _ _ He (senumerates_elems _ _ _ HI)) in *. rewrite keyed_elems.
  eapply fits_ok; [apply set_insert_fits|].
  eapply ok_mono; [apply (insert_order (wenv F x) (hal al) (ws x) L k tt HI G (hal_ok _ Hal) Hr0)| |apply hal_fail].
  intros [s' r] (L' & J1 & _ & _ & J2). exists (elems L'). rewrite keyed_elems. split; [apply (senumerates_elems _ _ _ J1)|].
  rewrite <- Hc, <- H1. exact J2.
Qed.
Print Assumptions C95_set_insert.

Theorem C95_set_delete : forall {K} (F : fns K) w g h y x k xs,
  whist F w g -> g !! h = Some y -> w !! h = Some x -> gro y = 0%Z -> SetHist.holds w h xs 0 ->
  exists s' r, set_delete (wenv F x) (ws x) k = Ret (s', r) /\ senumerates s' (sremove (gcmp F y) k xs).
Proof.
  intros K F w g h y x k xs Hw Hy Hx Hro (x' & Hx' & He & Hr0). rewrite Hx in Hx'. injection Hx' as <-.
  destruct (wrep_lookup _ _ _ _ _ (whist_rep _ _ _ Hw) Hy) as (x' & Hx' & Hr). pose proof (rep1_cmp _ _ _ Hr) as Hc.
  destruct Hr as (L & HI & G & Hp & _ & H1 & H2). rewrite Hx in Hx'. injection Hx' as <-.
  rewrite (senumerates_unique _ _ _ He (senumerates_elems _ _ _ HI)) in *.
  destruct (hsh_delete_spec (wenv F x) (ws x) L k HI G Hr0) as (s' & r & L' & E & J1 & J2 & _).
  exists s', r. split; [exact (fits_Ret _ _ _ (set_delete_fits _ _ k) E)|]. rewrite <- Hc.
  replace (sremove (cmpf (wenv F x)) k (elems L)) with (elems L'); [apply (senumerates_elems _ _ _ J1)|].
  unfold elems. rewrite sremove_aremove. destruct (afind (cmpf (wenv F x)) k (pairs L)) eqn:Ef.
  - destruct J2 as (_ & -> & _). done.
  - destruct J2 as (_ & _ & ->). f_equal. symmetry. apply aremove_None. by apply afind_None.
Qed.
Print Assumptions C95_set_delete.

(** Whole programs over any number of sets, all fourteen calls: every result, the
    listings of iterations included and in their order, is that of [sospec]
    (SetOrder.v), which knows nothing of memory; so are the orders of all the
    sets at the end. *)
Theorem C95_set_programs : forall {K} (F : fns K) cs, lawful (sospec F) (solegal F) ∅ cs ->
  refines eq scan (fun w O => dom w = dom O /\ forall h o, O !! h = Some o -> SetHist.holds w h (oel o) (oro o)) cs
    (run (sstep F) ∅ cs) (run (sospec F) ∅ cs).
Proof. exact @so_ok. Qed.
Print Assumptions C95_set_programs.

(** So where malloc puts the nodes of the sets cannot be told from the results. *)
Theorem C95_set_addresses_do_not_show : forall {K} (F : fns K) cs cs' rs rs' w w',
  lawful (sospec F) (solegal F) ∅ cs -> lawful (sospec F) (solegal F) ∅ cs' -> Forall2 ssame_call cs cs' ->
  run (sstep F) ∅ cs = (rs, Ret w) -> run (sstep F) ∅ cs' = (rs', Ret w') ->
  rs = rs' /\ dom w = dom w' /\ forall h, h ∈ dom w -> exists xs ro, SetHist.holds w h xs ro /\ SetHist.holds w' h xs ro.
Proof.
  intros K F cs cs' rs rs' w w' Hl Hl' Hc R R'.
  pose proof (so_ok F cs Hl) as H. rewrite R in H. pose proof (so_ok F cs' Hl') as H'. rewrite R' in H'.
  rewrite <- (sorun_same _ cs cs' _ Hc) in H'.
  destruct H as [[H1 H2]|[H1 _]]; [|discriminate H1]. destruct H' as [[H1' H2']|[H1' _]]; [|discriminate H1'].
  destruct (run (sospec F) ∅ cs) as [qs q]. cbn [fst snd] in *.
  assert (Heq : forall xs ys : list (sres K), Forall2 eq xs ys -> xs = ys) by (intros xs ys HF; induction HF; congruence).
  apply Heq in H1. apply Heq in H1'. split; [congruence|]. unfold same_end in H2, H2'. destruct q as [O| | | |]; try done.
  destruct H2 as [A1 A2], H2' as [B1 B2]. split; [congruence|]. intros h Hh. rewrite A1 in Hh. apply elem_of_dom in Hh as [o Ho].
  exists (oel o), (oro o). split; auto.
Qed.
Print Assumptions C95_set_addresses_do_not_show.

(** ** A concrete instance: [C95_set_insert] and [C95_set_delete] on a set of five *)
Example ex_order_set : exists w g y x xs, whist ex_F w g /\ g !! 1%positive = Some y /\ w !! 1%positive = Some x /\ gro y = 0%Z /\
  SetHist.holds w 1%positive xs 0 /\ listing w 1 = Ret [12; 1; 2; 3; 4]%N.
Proof.
  destruct ex_two_reachable as (w & g & y1 & y2 & E & Hw & H1 & H2 & _ & Hro & _ & _ & Hl).
  destruct (wrep_lookup _ _ _ _ _ (whist_rep _ _ _ Hw) H1) as (x & Hx & L & HI & _ & _ & Hr & _).
  exists w, g, y1, x, (elems L). split; [exact Hw|]. split; [exact H1|]. split; [exact Hx|]. split; [exact Hro|]. split; [|exact Hl].
  exists x. split; [exact Hx|]. split; [exact (senumerates_elems _ _ _ HI)|congruence].
Qed.

(** a program in which sets grow, are searched and combined; the hash function is the identity *)
Definition ex_socalls (al : halloc N unit) : list (scall N) :=
  [SCreate al 1 1 1; SInsert al 1 1%N; SInsert al 1 2%N; SInsert al 1 4%N; SIterate 1; SInsert al 1 12%N; SInsert al 1 23%N; SIterate 1;
   SMember 1 12%N; SIterate 1; SCreate al 2 1 1; SInsert al 2 4%N; SInsert al 2 5%N; SUnion al 3 1 2; SIterate 3; SInter al 4 2 1; SDiff al 5 1 2; SIterate 5;
   SAdd al 2 1; SIterate 2; SDel 2 4; SEqual 2 3; SCount 2; SReadonly 1 1; SMember 1 1%N; SIterate 1; SDelete 2 1%N; SDestroy 5]%positive.
Ltac sets_lawful aok := unfold ex_socalls;
  repeat (first [exact I
    | eapply lawful_last; [exact aok|vm_compute; reflexivity]
    | eapply lawful_cons; [unfold solegal; cbn [slegal]; first [exact I | exact aok | discriminate | split; [exact aok|first [discriminate|reflexivity|split; [reflexivity|exact (ex_sgood 1 1)]]]
        | intros y Hy; vm_compute in Hy; injection Hy as <-; reflexivity | intros h y [-> | ->] Hy; vm_compute in Hy; injection Hy as <-; reflexivity] | vm_compute; reflexivity|]]).
Example ex_socalls_ok : lawful (sospec ex_F) (solegal ex_F) ∅ (ex_socalls ex_sal).
Proof. sets_lawful ex_sal_ok. Qed.
Example ex_socalls_results :
  (run (sospec ex_F) ∅ (ex_socalls ex_sal)).1 =
  [SDone; SInt 0; SInt 0; SInt 0; SElems [1; 2; 4]%N; SInt 0; SInt 0; SElems [23; 12; 1; 2; 4]%N;
   SInt 1; SElems [12; 23; 1; 2; 4]%N; SDone; SInt 0; SInt 0; SDone; SElems [1; 23; 12; 2; 4; 5]%N; SDone; SDone; SElems [1; 23; 12; 2]%N; SDone;
   SElems [1; 2; 4; 5; 12; 23]%N; SDone; SInt 0; SInt 5; SInt 0; SInt 1; SElems [12; 23; 1; 2; 4]%N; SInt 0; SDone] /\
  (run (sstep ex_F) ∅ (ex_socalls ex_sal)).1 = (run (sospec ex_F) ∅ (ex_socalls ex_sal)).1.
Proof. split; vm_compute; reflexivity. Qed.
(** an allocator that places the nodes elsewhere *)
Definition ex_sfar : halloc N unit := HA (fun h => (Pos.mul 5) <$> node_alloc ex_sal h) (fun _ => true).
Lemma ex_sfar_ok : halloc_ok ex_sfar.
Proof.
  intros h a. cbn [ex_sfar node_alloc ex_sal fmap option_fmap option_map]. intros [= <-].
  assert (Hlt : forall b x, h !! b = Some x -> (b < map_fold (fun a _ m => Pos.max m (Pos.succ a)) 1 h)%positive).
  { apply (map_fold_ind (fun m h => forall b x, h !! b = Some x -> (b < m)%positive)).
    - intros b x. by rewrite lookup_empty.
    - intros i y h' m Hi IH b x Hb. destruct (decide (b = i)) as [->|Hne]; [lia|].
      rewrite lookup_insert_ne in Hb by done. specialize (IH b x Hb). lia. }
  destruct (h !! _) as [x|] eqn:E; [|done]. specialize (Hlt _ _ E). lia.
Qed.
Example ex_socalls_far_ok : lawful (sospec ex_F) (solegal ex_F) ∅ (ex_socalls ex_sfar).
Proof. sets_lawful ex_sfar_ok. Qed.
Example ex_socalls_far : Forall2 ssame_call (ex_socalls ex_sal) (ex_socalls ex_sfar).
Proof. unfold ex_socalls. repeat (apply List.Forall2_cons; [cbn [ssame_call]; first [reflexivity|split; [reflexivity|first [reflexivity|split; reflexivity]]]|]). apply List.Forall2_nil. Qed.
(** both runs reach the end *)
Definition finishes {S P} (n : nat) (r : list P * res S) : bool := (length r.1 =? n) && match r.2 with Ret _ => true | _ => false end.
Example ex_socalls_run : finishes 28 (run (sstep ex_F) ∅ (ex_socalls ex_sal)) = true.
Proof. vm_compute. reflexivity. Qed.
Example ex_socalls_far_run : finishes 28 (run (sstep ex_F) ∅ (ex_socalls ex_sfar)) = true.
Proof. vm_compute. reflexivity. Qed.
