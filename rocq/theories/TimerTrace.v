(** C49, C64, C65, whole programs: any sequence of timer calls. *)
From Verif Require Import Base Trace CStr ListLemmas HashModel NameTab TimerModel TimerSpec TimerProofs TimerProps.
Local Open Scope Z_scope.

(** The calls.  [c]: what the clocks say then; [rest]: what follows the name. *)
Inductive top :=
| TStart (al : talloc) (c : clock) (n rest : list N)
| TStop (al : talloc) (c : clock) (n rest : list N)
| TReset (al : talloc) (n rest : list N)
| TReal (al : talloc) (n rest : list N)
| TUser (al : talloc) (n rest : list N)
| TSystem (al : talloc) (n rest : list N)
| TPrint (al : talloc) (n rest : list N)
| TPrintAll (al : talloc)
| TShutdown.
Inductive tres := TDone | TTime (z : Z) | TThree (r u y : Z) | TLines (l : list (list N * (Z * Z * Z))).

Definition tstep (s : tstate) (c : top) : res (tstate * tres) :=
  match c with
  | TStart al c n rest => s' ← tim_start al s c (Some (n ++ 0%N :: rest)); Ret (s', TDone)
  | TStop al c n rest => s' ← tim_stop al s c (Some (n ++ 0%N :: rest)); Ret (s', TDone)
  | TReset al n rest => s' ← tim_reset al s (Some (n ++ 0%N :: rest)); Ret (s', TDone)
  | TReal al n rest => '(s', z) ← tim_get_real al s (Some (n ++ 0%N :: rest)); Ret (s', TTime z)
  | TUser al n rest => '(s', z) ← tim_get_user al s (Some (n ++ 0%N :: rest)); Ret (s', TTime z)
  | TSystem al n rest => '(s', z) ← tim_get_system al s (Some (n ++ 0%N :: rest)); Ret (s', TTime z)
  | TPrint al n rest => '(s', (r, u, y)) ← tim_print_timer al s (Some (n ++ 0%N :: rest)); Ret (s', TThree r u y)
  | TPrintAll al => '(s', out) ← tim_print_timers al s; Ret (s', TLines out)
  | TShutdown => '(s', _) ← tim_shutdown s; Ret (s', TDone)
  end.

(** ** the specification: a map from names to timers; a timer that was never started aborts *)
Definition at_timer {A : Type} (M : timers) (n : list N) (f : timer -> A) : res A := match M !! n with Some t => Ret (f t) | None => Abort end.
Definition tspec (M : timers) (c : top) : res (timers * tres) :=
  match c with
  | TStart _ c n _ => Ret (<[n := start c (M !! n)]> M, TDone)
  | TStop _ c n _ => at_timer M n (fun t => (<[n := stop c t]> M, TDone))
  | TReset _ n _ => at_timer M n (fun t => (<[n := reset t]> M, TDone))
  | TReal _ n _ => at_timer M n (fun t => (M, TTime (wall t)))
  | TUser _ n _ => at_timer M n (fun t => (M, TTime (user t)))
  | TSystem _ n _ => at_timer M n (fun t => (M, TTime (system t)))
  | TPrint _ n _ => at_timer M n (fun t => (M, TThree (wall t) (user t) (system t)))
  | TPrintAll _ => Ret (M, TLines ((fun nt => (nt.1, (wall nt.2, user nt.2, system nt.2))) <$> map_to_list M))
  | TShutdown => Ret (∅, TDone)
  end.
(** malloc returns fresh addresses; names are strings; clocks are as the system gives them *)
Definition tlegal (_ : timers) (c : top) : Prop :=
  match c with
  | TStart al c n _ | TStop al c n _ => talloc_ok al /\ wf_clock c /\ str_ok n
  | TReset al n _ | TReal al n _ | TUser al n _ | TSystem al n _ | TPrint al n _ => talloc_ok al /\ str_ok n
  | TPrintAll al => talloc_ok al
  | TShutdown => True
  end.
(** the calls that can run out of memory *)
Definition tcan (c : top) : Prop :=
  match c with
  | TStart al _ _ _ | TStop al _ _ _ | TReset al _ _ | TReal al _ _ | TUser al _ _ | TSystem al _ _ | TPrint al _ _ => tfail al
  | _ => False
  end.
(** all timers are printed, in any order *)
Definition teq (r r' : tres) : Prop := match r, r' with TLines l, TLines l' => l ≡ₚ l' | _, _ => r = r' end.

Lemma tstep_ok s M c : tim_history s M -> tlegal M c -> call_ok teq tcan tim_history c (tstep s c) (tspec M c).
Proof.
  intros Hh Hl.
  assert (Hun : forall al n rest, talloc_ok al -> str_ok n -> M !! n = None ->
    tim_find al s (Some (n ++ 0%N :: rest)) = Abort \/ (tim_find al s (Some (n ++ 0%N :: rest)) = Fatal /\ tfail al)).
  { intros al n rest Hal Hn Hm. destruct (tim_inv s M Hh) as [l Hi]. eapply find_unknown; [exact Hi|done|done|].
    pose proof (tinv_lookup s M l n Hi) as H. destruct (lookup_name n l); [|done]. destruct H as (e & t & _ & _ & H & _). congruence. }
  destruct c as [al c n rest|al c n rest|al n rest|al n rest|al n rest|al n rest|al n rest|al|]; cbn [tlegal] in Hl; unfold tstep, tspec, at_timer.
  - destruct Hl as (H1 & H2 & H3). pose proof (C49_start al s M c n rest Hh H1 H2 H3) as H. unfold start.
    destruct (tim_start al s c (Some (n ++ 0%N :: rest))) as [s'| | | |]; cbn [mbind res_bind]; try done.
  - destruct Hl as (H1 & H2 & H3). destruct (M !! n) as [t|] eqn:Em.
    + destruct (C49_stop al s M c n rest t Hh H1 H2 H3 Em) as (s' & E & H). rewrite E. cbn [mbind res_bind]. split; [exact H|done].
    + unfold tim_stop. destruct (Hun al n rest H1 H3 Em) as [->|[-> Hf]]; done.
  - destruct Hl as (H1 & H3). destruct (M !! n) as [t|] eqn:Em.
    + destruct (C49_reset al s M n rest t Hh H1 H3 Em) as (s' & E & H). rewrite E. cbn [mbind res_bind]. split; [exact H|done].
    + unfold tim_reset. destruct (Hun al n rest H1 H3 Em) as [->|[-> Hf]]; done.
  - destruct Hl as (H1 & H3). destruct (M !! n) as [t|] eqn:Em.
    + destruct (C49_get al s M n rest t Hh H1 H3 Em) as ((s' & E & H) & _ & _). rewrite E. cbn [mbind res_bind]. split; [exact H|done].
    + unfold tim_get_real, tim_get. destruct (Hun al n rest H1 H3 Em) as [->|[-> Hf]]; done.
  - destruct Hl as (H1 & H3). destruct (M !! n) as [t|] eqn:Em.
    + destruct (C49_get al s M n rest t Hh H1 H3 Em) as (_ & (s' & E & H) & _). rewrite E. cbn [mbind res_bind]. split; [exact H|done].
    + unfold tim_get_user, tim_get. destruct (Hun al n rest H1 H3 Em) as [->|[-> Hf]]; done.
  - destruct Hl as (H1 & H3). destruct (M !! n) as [t|] eqn:Em.
    + destruct (C49_get al s M n rest t Hh H1 H3 Em) as (_ & _ & (s' & E & H)). rewrite E. cbn [mbind res_bind]. split; [exact H|done].
    + unfold tim_get_system, tim_get. destruct (Hun al n rest H1 H3 Em) as [->|[-> Hf]]; done.
  - destruct Hl as (H1 & H3). destruct (M !! n) as [t|] eqn:Em.
    + destruct (C64_print_timer al s M n rest t Hh H1 H3 Em) as (s' & E & H). rewrite E. cbn [mbind res_bind]. split; [exact H|done].
    + unfold tim_print_timer, tim_get_real, tim_get. destruct (Hun al n rest H1 H3 Em) as [->|[-> Hf]]; done.
  - destruct (C64_print_timers al s M Hh Hl) as (s' & out & E & H & Hnd & Hin). rewrite E. cbn [mbind res_bind]. split; [exact H|].
    cbn [teq]. apply NoDup_Permutation.
    + by eapply NoDup_fmap_1.
    + apply (NoDup_fmap_1 fst). rewrite <- list_fmap_compose. apply NoDup_fst_map_to_list.
    + intros [n [[r u] y]]. rewrite Hin, elem_of_list_fmap. split.
      * intros (t & Ht & -> & -> & ->). exists (n, t). split; [done|]. by apply elem_of_map_to_list.
      * intros ([n' t] & Ex & Ht). apply elem_of_map_to_list in Ht. cbn [fst snd] in Ex. injection Ex as -> -> -> ->. by exists t.
  - destruct (C65_shutdown s M Hh) as (s' & E & _ & _ & H). rewrite E. cbn [mbind res_bind]. split; [exact H|done].
Qed.
(** after a shutdown, nothing is allocated: no timer, no table *)
Lemma timers_ok cs : lawful tspec tlegal ∅ cs ->
  refines teq tcan (fun s _ => last cs = Some TShutdown -> s = tstart) cs (run tstep tstart cs) (run tspec ∅ cs).
Proof.
  intros Hl. pose proof (run_refines tstep tspec teq tcan tlegal tim_history tstep_ok cs tstart ∅ th_init Hl) as H.
  destruct H as [[H1 H2]|H]; [left; split; [done|]|by right].
  destruct (run tstep tstart cs) as [ps r] eqn:Er, (run tspec ∅ cs) as [ps' r'] eqn:Er'. cbn [snd fst] in *.
  destruct r as [s| | | |], r' as [M| | | |]; try done. intros Hlast.
  clear -Hlast Er Hl. apply last_Some in Hlast as [cs' ->].
  assert (G : forall cs s0 M0 ps s, tim_history s0 M0 -> lawful tspec tlegal M0 (cs ++ [TShutdown]) -> run tstep s0 (cs ++ [TShutdown]) = (ps, Ret s) -> s = tstart).
  { clear. induction cs as [|c cs IH]; intros s0 M0 ps s Hh Hl E.
    - cbn [app run tstep] in E. destruct (tim_inv s0 M0 Hh) as [l Hi]. rewrite (shutdown_ok s0 M0 l Hi) in E. cbn [mbind res_bind] in E. by injection E as _ <-.
    - destruct Hl as [Hl0 Hl]. cbn [app run] in E. pose proof (tstep_ok s0 M0 c Hh Hl0) as Hc. unfold call_ok in Hc.
      destruct (tstep s0 c) as [[s1 p]| | | |]; try discriminate E. destruct (tspec M0 c) as [[M1 p1]| | | |]; try done.
      destruct Hc as [Hh1 _]. destruct (run tstep s1 (cs ++ [TShutdown])) as [ps1 r1] eqn:E1. injection E as _ ->. by eapply IH. }
  eapply G; [apply th_init|exact Hl|exact Er].
Qed.
