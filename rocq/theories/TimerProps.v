(** Properties C49, C64 and C65: timers.  [s] is any state reached by any history of calls,
    [M] the timers then (TimerSpec.v): for every name started, the clock at its last start
    and the wall, user and system times it reports. *)
From Verif Require Import Base CStr ListLemmas PrimeModel HashModel HashSpec HashProofs HashOps HashOps2 HashIter HashHist HashFnModel HashFnProofs NameTab HashSim.
From Verif Require Import TimerModel TimerSpec TimerProofs Alloc.
Local Open Scope Z_scope.

(** ** C49 *)
(** The time between two clock readings, as computed: it never overflows, it is the
    difference of the seconds, whole, and wrong by less than one second. *)
Theorem C49_difftime now thn : wf_time now -> wf_time thn ->
  exists d, DIFFTIME now thn = Ret d /\ d = tv_sec now - tv_sec thn /\
    Z.abs (1000000 * d - (micros now - micros thn)) < 1000000.
Proof.
  intros Hn Ht. exists (secs now thn). split; [by apply difftime_ok|]. split; [done|].
  destruct Hn as [_ ?], Ht as [_ ?]. unfold secs, micros. lia.
Qed.
(** Starting a timer: a new one reports zeros; an old one goes on reporting what it did. *)
Theorem C49_start al s M c n rest : tim_history s M -> talloc_ok al -> wf_clock c -> str_ok n ->
  match tim_start al s c (Some (n ++ 0%N :: rest)) with
  | Ret s' => tim_history s' (<[n := match M !! n with
                                     | None => Tm c 0 0 0
                                     | Some t => Tm c (wall t) (user t) (system t)
                                     end]> M)
  | Fatal => tfail al
  | _ => False
  end.
Proof.
  intros Hh Hal Hc Hn. destruct (tim_inv s M Hh) as [l Hi]. pose proof (start_ok al s M l c n rest Hi Hal Hc Hn) as H.
  destruct (tim_start al s c _) as [s'| | | |] eqn:E; try done. pose proof (th_start al s M c n rest s' Hh Hal Hc Hn E) as H2.
  unfold start in H2. destruct (M !! n); exact H2.
Qed.
(** Stopping one: the times from its last start until now replace those recorded (they
    are not added up); the start stays, and so do all other timers. *)
Theorem C49_stop al s M c n rest t : tim_history s M -> talloc_ok al -> wf_clock c -> str_ok n -> M !! n = Some t ->
  exists s', tim_stop al s c (Some (n ++ 0%N :: rest)) = Ret s' /\
    tim_history s' (<[n :=
      let m := started t in
      Tm m (tv_sec (c_real c) - tv_sec (c_real m))
           ((tv_sec (c_utime c) - tv_sec (c_utime m)) + (tv_sec (c_cutime c) - tv_sec (c_cutime m)))
           ((tv_sec (c_stime c) - tv_sec (c_stime m)) + (tv_sec (c_cstime c) - tv_sec (c_cstime m)))]> M).
Proof.
  intros Hh Hal Hc Hn Hm. destruct (tim_inv s M Hh) as [l Hi]. destruct (stop_ok al s M l c n rest t Hi Hal Hc Hn Hm) as (s' & E & _).
  exists s'. split; [done|]. exact (th_stop al s M c n t rest s' Hh Hal Hc Hn Hm E).
Qed.
(** Resetting one zeroes its times and leaves its start. *)
Theorem C49_reset al s M n rest t : tim_history s M -> talloc_ok al -> str_ok n -> M !! n = Some t ->
  exists s', tim_reset al s (Some (n ++ 0%N :: rest)) = Ret s' /\ tim_history s' (<[n := Tm (started t) 0 0 0]> M).
Proof.
  intros Hh Hal Hn Hm. destruct (tim_inv s M Hh) as [l Hi]. destruct (reset_ok al s M l n rest t Hi Hal Hn Hm) as (s' & E & _).
  exists s'. split; [done|]. exact (th_reset al s M n t rest s' Hh Hal Hn Hm E).
Qed.
(** What is reported is what is recorded, and asking changes no timer. *)
Theorem C49_get al s M n rest t : tim_history s M -> talloc_ok al -> str_ok n -> M !! n = Some t ->
  (exists s', tim_get_real al s (Some (n ++ 0%N :: rest)) = Ret (s', wall t) /\ tim_history s' M) /\
  (exists s', tim_get_user al s (Some (n ++ 0%N :: rest)) = Ret (s', user t) /\ tim_history s' M) /\
  (exists s', tim_get_system al s (Some (n ++ 0%N :: rest)) = Ret (s', system t) /\ tim_history s' M).
Proof.
  intros Hh Hal Hn Hm. destruct (tim_inv s M Hh) as [l Hi].
  assert (G : forall f v, (forall e, rep e t -> f e = v) -> exists s', tim_get f al s (Some (n ++ 0%N :: rest)) = Ret (s', v) /\ tim_history s' M).
  { intros f v Hf. destruct (get_ok f al s M l n rest t Hi Hal Hn Hm) as (s' & e & E & He & _). rewrite (Hf e He) in E.
    exists s'. split; [done|]. by eapply th_get. }
  split; [|split]; apply G; intros e (_ & _ & R1 & R2 & R3); done.
Qed.
(** tim_print_timer prints these three values *)
Theorem C64_print_timer al s M n rest t : tim_history s M -> talloc_ok al -> str_ok n -> M !! n = Some t ->
  exists s', tim_print_timer al s (Some (n ++ 0%N :: rest)) = Ret (s', (wall t, user t, system t)) /\ tim_history s' M.
Proof.
  intros Hh Hal Hn Hm. unfold tim_print_timer.
  destruct (C49_get al s M n rest t Hh Hal Hn Hm) as ((s1 & E1 & H1) & _ & _). rewrite E1. rb.
  destruct (C49_get al s1 M n rest t H1 Hal Hn Hm) as (_ & (s2 & E2 & H2) & _). rewrite E2. rb.
  destruct (C49_get al s2 M n rest t H2 Hal Hn Hm) as (_ & _ & (s3 & E3 & H3)). rewrite E3. rb. by exists s3.
Qed.
(** A timer that was never started: the program ends, whatever is asked of it. *)
Theorem C49_unknown al s M n rest c f : tim_history s M -> talloc_ok al -> str_ok n -> M !! n = None ->
  forall r : res tstate,
  r = tim_stop al s c (Some (n ++ 0%N :: rest)) \/ r = tim_reset al s (Some (n ++ 0%N :: rest)) \/
  r = ('(s', _) ← tim_get f al s (Some (n ++ 0%N :: rest)); Ret s') ->
  r = Abort \/ (r = Fatal /\ tfail al).
Proof.
  intros Hh Hal Hn Hm r Hr. destruct (tim_inv s M Hh) as [l Hi].
  assert (El : lookup_name n l = None).
  { pose proof (tinv_lookup s M l n Hi) as Hl. destruct (lookup_name n l); [|done]. destruct Hl as (e & t & _ & _ & Hl & _). congruence. }
  destruct (find_unknown al s M l n rest Hi Hal Hn El) as [E|[E Hf]]; [left|right];
  destruct Hr as [->|[->| ->]]; unfold tim_stop, tim_reset, tim_get; rewrite E; done.
Qed.
(** A null name: the same. *)
Theorem C49_null al s M c f : tim_history s M -> talloc_ok al -> forall r : res tstate,
  r = tim_start al s c None \/ r = tim_stop al s c None \/ r = tim_reset al s None \/
  r = ('(s', _) ← tim_get f al s None; Ret s') -> r = Abort \/ (r = Fatal /\ tfail al).
Proof.
  intros Hh Hal r Hr. destruct (tim_inv s M Hh) as [l Hi]. pose proof (check_ok al s M l Hi Hal) as Hc.
  destruct Hr as [->|[->|[->| ->]]]; unfold tim_start, tim_stop, tim_reset, tim_get, tim_find;
  (destruct (tim_check al s) as [t| | | |]; cbn [ok] in Hc; try done; [left; done|right; done]).
Qed.
Print Assumptions C49_difftime.
Print Assumptions C49_start.
Print Assumptions C49_stop.
Print Assumptions C49_reset.
Print Assumptions C49_get.
Print Assumptions C49_unknown.
Print Assumptions C49_null.

(** ** C64 *)
(** tim_print_timers prints one line for every timer and no other, with what the timer
    reports, although it looks the timers up in the table it is iterating. *)
Theorem C64_print_timers al s M : tim_history s M -> talloc_ok al ->
  exists s' out, tim_print_timers al s = Ret (s', out) /\ tim_history s' M /\ NoDup (out.*1) /\
    forall n r u y, (n, (r, u, y)) ∈ out <-> exists t, M !! n = Some t /\ r = wall t /\ u = user t /\ y = system t.
Proof.
  intros Hh Hal. destruct (tim_inv s M Hh) as [l Hi]. destruct (thash s) as [t|] eqn:Et.
  - destruct (print_ok al s M l t Hi Et) as (t' & m & E & Hp & _). eexists _, _. split; [exact E|]. split; [by eapply th_print|].
    assert (E1 : (entry_line (tents s) <$> m).*1 = (names_of m).*1).
    { unfold names_of. rewrite <- !list_fmap_compose. by apply list_fmap_ext. }
    assert (E2 : (ptrs l).*1 = l.*1) by (unfold ptrs; rewrite <- list_fmap_compose; by apply list_fmap_ext).
    split; [rewrite E1, Hp, E2; apply (v_nd1 _ _ _ Hi)|].
    assert (Hl : forall n a, (n, a) ∈ l -> exists e t, tents s !! a = Some e /\ M !! n = Some t /\ rep e t) by apply (v_rep _ _ _ Hi).
    intros n r u y. split.
    + intros Hin. apply elem_of_list_fmap in Hin as ([k d] & El & Hin). unfold entry_line in El. cbn [fst snd] in El.
      assert (Hin2 : (proj1_sig k, d) ∈ ptrs l). { rewrite <- Hp. unfold names_of. apply elem_of_list_fmap. by exists (k, d). }
      unfold ptrs in Hin2. apply elem_of_list_fmap in Hin2 as ([n' a] & Ex & Hin2). cbn [fst snd] in Ex. injection Ex as Ek ->.
      injection El as -> Ev. destruct (Hl n' a Hin2) as (e & tm & He & Hm & Hrep). rewrite He in Ev. injection Ev as -> -> ->.
      destruct Hrep as (_ & _ & R1 & R2 & R3). exists tm. rewrite Ek. done.
    + intros (tm & Hm & -> & -> & ->).
      assert (Hn : n ∈ l.*1). { destruct (decide (n ∈ l.*1)) as [|Hn]; [done|]. rewrite (v_none _ _ _ Hi n Hn) in Hm. done. }
      apply elem_of_list_fmap in Hn as ([n' a] & -> & Hin). cbn [fst] in *. destruct (Hl n' a Hin) as (e & tm' & He & Hm' & Hrep).
      assert (tm' = tm) as -> by congruence. assert (Hin2 : (n', Some a) ∈ names_of m).
      { rewrite Hp. unfold ptrs. apply elem_of_list_fmap. by exists (n', a). }
      unfold names_of in Hin2. apply elem_of_list_fmap in Hin2 as ([k d] & Ex & Hin2). cbn [fst snd] in Ex. injection Ex as -> <-.
      apply elem_of_list_fmap. exists (k, Some a). split; [|done]. unfold entry_line. cbn [fst snd]. rewrite He.
      destruct Hrep as (_ & _ & R1 & R2 & R3). by rewrite R1, R2, R3.
  - assert (E : tim_print_timers al s = Ret (s, [])) by (unfold tim_print_timers; by rewrite Et).
    exists s, []. split; [done|]. split; [done|]. split; [apply NoDup_nil_2|]. pose proof (v_hash _ _ _ Hi) as Hv. rewrite Et in Hv. subst l.
    intros n r u y. split; [intros H; by apply elem_of_nil in H|]. intros (t & Hm & _).
    rewrite (v_none _ _ _ Hi n) in Hm; [done|]. intros H. by apply elem_of_nil in H.
Qed.
Print Assumptions C64_print_timer.
Print Assumptions C64_print_timers.

(** ** C65 *)
(** _tim_shutdown frees every entry and every node of the table, once each, and leaves the
    state there was before the first call. *)
Theorem C65_shutdown s M : tim_history s M ->
  exists s', tim_shutdown s = Ret (s', ∅) /\ tents s' = ∅ /\ thash s' = None /\ tim_history s' ∅.
Proof.
  intros Hh. destruct (tim_inv s M Hh) as [l Hi]. pose proof (shutdown_ok s M l Hi) as E. exists tstart. split; [done|]. split; [done|].
  split; [done|]. by eapply th_shutdown.
Qed.
Print Assumptions C65_shutdown.

(** ** examples *)
Definition ex_tal : talloc := TA (HA bump (fun _ => true)) bump.
Lemma ex_tal_ok : talloc_ok ex_tal.
Proof. split; [|apply bump_ok]. apply bump_ok. Qed.
Definition ck (r u y cu cy : Z) (us : Z) : clock := CK (TV r us) (TV u us) (TV y us) (TV cu us) (TV cy us).
Lemma ck_ok r u y cu cy us : 0 <= r < 2 ^ 62 -> 0 <= u < 2 ^ 62 -> 0 <= y < 2 ^ 62 -> 0 <= cu < 2 ^ 62 -> 0 <= cy < 2 ^ 62 -> 0 <= us < 1000000 -> wf_clock (ck r u y cu cy us).
Proof. intros. by repeat split; cbn [ck c_real c_utime c_stime c_cutime c_cstime tv_sec tv_usec]; lia. Qed.
(** two timers, a and b; b is stopped 0.2 seconds after its start but reports a second *)
Definition ex_a : list N := [97%N].
Definition ex_b : list N := [98%N].
Definition ex_s1 := getr (tim_start ex_tal tstart (ck 100 1 2 3 4 900000) (Some (ex_a ++ [0%N]))) tstart.
Definition ex_s2 := getr (tim_start ex_tal ex_s1 (ck 100 1 2 3 4 900000) (Some (ex_b ++ [0%N]))) tstart.
Definition ex_s3 := getr (tim_stop ex_tal ex_s2 (ck 101 3 5 7 9 100000) (Some (ex_b ++ [0%N]))) tstart.
Definition ex_M : timers := <[ex_b := Tm (ck 100 1 2 3 4 900000) 1 6 8]> (<[ex_b := Tm (ck 100 1 2 3 4 900000) 0 0 0]> (<[ex_a := Tm (ck 100 1 2 3 4 900000) 0 0 0]> ∅)).
Example ex_timers : tim_history ex_s3 ex_M.
Proof.
  assert (H1 : tim_history ex_s1 (<[ex_a := Tm (ck 100 1 2 3 4 900000) 0 0 0]> ∅)).
  { apply (th_start ex_tal tstart ∅ (ck 100 1 2 3 4 900000) ex_a [] _ th_init ex_tal_ok); [by apply ck_ok|by repeat constructor|].
    apply getr_ok. vm_compute. reflexivity. }
  assert (H2 : tim_history ex_s2 (<[ex_b := Tm (ck 100 1 2 3 4 900000) 0 0 0]> (<[ex_a := Tm (ck 100 1 2 3 4 900000) 0 0 0]> ∅))).
  { apply (th_start ex_tal ex_s1 _ (ck 100 1 2 3 4 900000) ex_b [] _ H1 ex_tal_ok); [by apply ck_ok|by repeat constructor|].
    apply getr_ok. vm_compute. reflexivity. }
  apply (th_stop ex_tal ex_s2 _ (ck 101 3 5 7 9 100000) ex_b (Tm (ck 100 1 2 3 4 900000) 0 0 0) [] _ H2 ex_tal_ok); [by apply ck_ok|by repeat constructor| |].
  - apply lookup_insert.
  - apply getr_ok. vm_compute. reflexivity.
Qed.
Example ex_print : tim_print_timers ex_tal ex_s3 ≫= (fun r => Ret r.2) = Ret [(ex_b, (1, 6, 8)); (ex_a, (0, 0, 0))].
Proof. vm_compute. reflexivity. Qed.
Example ex_unknown : is_ret (tim_stop ex_tal ex_s3 (ck 101 3 5 7 9 100000) (Some ([99%N] ++ [0%N]))) = false.
Proof. vm_compute. reflexivity. Qed.
