(** Property C93: sets that share one memory.  SetTrace.v has the calls and the specification ([sspec]: a
    finite set, with its readonly flag and functions, per handle); SetMem.v has the model ([mstep]: one
    memory holds the nodes of all sets); see TraceProps.v for [run], [lawful] and [refines]. *)
From Verif Require Import Base Trace PrimeModel HashModel HashSpec HashProofs HashOps HashOps2 HashIter HashHist HashTrace HashFrame HashMem SetModel SetSpec SetAlg SetProofs SetWorld SetHist SetTrace SetFrame SetMem SetProps SetProps2.
Local Open Scope nat_scope.

(** Every program on any number of sets, created and destroyed at any time and combined with each other,
    gives the results of the same calls on separate finite sets; there are as many nodes in memory as
    elements in the sets. *)
Theorem C93_programs : forall K (F : fns K) (cs : list (scall K)), lawful (sspec F) (slegal F) ∅ cs ->
  refines sres_eq scan (fun m g => dom (sets_of m) = dom g /\ size (nodes_of m) = elements g) cs (run (mstep F) (MW ∅ ∅) cs) (run (sspec F) ∅ cs).
Proof. exact @sets_mem_ok. Qed.
Print Assumptions C93_programs.

(** A call on a set leaves everything in memory that is not the set's alone: [R], whatever it is; and
    after set_destroy, only that is left. *)
Theorem C93_frame : forall K (F : fns K) w g h x y R al k, whist F w g -> w !! h = Some x -> g !! h = Some y ->
  heap (ws x) ##ₘ R -> halloc_ok al -> let s := MkH (heap (ws x) ∪ R) (tab (ws x)) in
  match set_insert (wenv F x) al s k with Ret (s', _) => R ⊆ heap s' | Fatal => can_fail al | Abort => gro y <> 0%Z | _ => False end /\
  match set_delete (wenv F x) s k with Ret (s', _) => R ⊆ heap s' | Abort => gro y <> 0%Z | _ => False end /\
  match set_member (wenv F x) s k with Ret (s', _) => R ⊆ heap s' | _ => False end /\
  match set_destroy s with Ret M => M = R | Abort => gro y <> 0%Z | _ => False end.
Proof.
  intros K F w g h x y R al k Hh Hx Hy Hd Hal s. pose proof (whist_rep F w g Hh) as Hw.
  assert (Hp : parts R (ws x) s) by (by split).
  assert (Hup : forall s1 s1' : hst K unit, parts R s1 s1' -> R ⊆ heap s1') by (intros s1 s1' [[H1 ->] _]; by apply map_union_subseteq_r).
  split; [|split; [|split]].
  - pose proof (sim_set_insert (wenv F x) R al (ws x) s k Hal Hp) as Hs.
    pose proof (w_insert_ro F (al_part R al) w g h y k Hw Hy) as E1. pose proof (w_insert_spec F (al_part R al) w g h y k Hw Hy (al_part_ok _ _ Hal)) as E2.
    unfold w_insert in E1, E2. rewrite (hget_Some _ _ _ Hx) in E1, E2. cbn [mbind res_bind] in E1, E2.
    destruct (set_insert (wenv F x) (al_part R al) (ws x) k) as [[s1 r1]| | | |]; cbn in Hs.
    + destruct Hs as ([s1' r1'] & -> & Hp1 & _). by eapply Hup.
    + rewrite Hs. destruct (decide (gro y = 0%Z)) as [Hz|Hz]; [|by specialize (E1 Hz)]. specialize (E2 Hz). cbn in E2. by eapply can_part.
    + rewrite Hs. intros Hz. by specialize (E2 Hz).
    + exfalso. destruct (decide (gro y = 0%Z)) as [Hz|Hz]; [by specialize (E2 Hz)|by specialize (E1 Hz)].
    + exfalso. destruct (decide (gro y = 0%Z)) as [Hz|Hz]; [by specialize (E2 Hz)|by specialize (E1 Hz)].
  - pose proof (sim_set_delete (wenv F x) R (ws x) s k Hp) as Hs.
    pose proof (w_delete_ro F w g h y k Hw Hy) as E1. pose proof (w_delete_spec F w g h y k Hw Hy) as E2.
    unfold w_delete in E1, E2. rewrite (hget_Some _ _ _ Hx) in E1, E2. cbn [mbind res_bind] in E1, E2.
    destruct (set_delete (wenv F x) (ws x) k) as [[s1 r1]| | | |]; cbn in Hs.
    + destruct Hs as ([s1' r1'] & -> & Hp1 & _). by eapply Hup.
    + exfalso. destruct (decide (gro y = 0%Z)) as [Hz|Hz]; [by destruct (E2 Hz) as (? & ? & _)|by specialize (E1 Hz)].
    + rewrite Hs. intros Hz. by destruct (E2 Hz) as (? & ? & _).
    + exfalso. destruct (decide (gro y = 0%Z)) as [Hz|Hz]; [by destruct (E2 Hz) as (? & ? & _)|by specialize (E1 Hz)].
    + exfalso. destruct (decide (gro y = 0%Z)) as [Hz|Hz]; [by destruct (E2 Hz) as (? & ? & _)|by specialize (E1 Hz)].
  - pose proof (sim_set_member (wenv F x) R (ws x) s k Hp) as Hs. destruct (w_member_spec F w g h y k Hw Hy) as (w' & E & _).
    unfold w_member in E. rewrite (hget_Some _ _ _ Hx) in E. cbn [mbind res_bind] in E.
    destruct (set_member (wenv F x) (ws x) k) as [[s1 r1]| | | |]; try discriminate E. cbn in Hs.
    destruct Hs as ([s1' r1'] & -> & Hp1 & _). by eapply Hup.
  - pose proof (sim_set_destroy R (ws x) s Hp) as Hs. pose proof (w_destroy_spec F w g h y Hw Hy) as E.
    unfold w_destroy in E. rewrite (hget_Some _ _ _ Hx) in E. cbn [mbind res_bind] in E.
    destruct (set_destroy (ws x)) as [H| | | |]; cbn [mbind res_bind] in E; destruct (Z.eqb_spec (gro y) 0) as [Hz|Hz]; try discriminate E; cbn in Hs.
    + destruct Hs as (M & -> & _ & ->). injection E as ->. by rewrite (left_id_L ∅ (∪)).
    + by rewrite Hs.
Qed.
Print Assumptions C93_frame.

(** ** the program of SetProps2.v (every kind of call, lawful by [ex_scalls_ok]) in one memory *)
Example ex_sets_in_one_memory :
  (run (mstep ex_F) (MW ∅ ∅) ex_scalls).1 =
    [SDone; SDone; SInt 0; SInt 0; SInt 1; SInt 0; SInt 0; SDone; SDone; SDone; SElems [5; 6; 7]%N; SElems [6]%N; SElems [5]%N; SInt 3; SInt 1; SInt 0;
     SInt 0; SDone; SInt 0; SInt 0; SInt 1; SDone; SInt 1; SInt 1; SInt 0; SDone; SInt 0] /\
  (run (mstep ex_F) (MW ∅ ∅) ex_scalls).2 = Abort.
Proof. split; vm_compute; reflexivity. Qed.
(** without the last call: seven nodes, for the sets {6}, {6,7}, {6,7} and {5,6} *)
Example ex_sets_nodes : exists m, (run (mstep ex_F) (MW ∅ ∅) (take 27 ex_scalls)).2 = Ret m /\ size (nodes_of m) = 7 /\ dom (sets_of m) = {[1; 2; 3; 4]}%positive.
Proof. run. Qed.
Example ex_frame_meets : exists w g x y, whist ex_F w g /\ w !! 1%positive = Some x /\ g !! 1%positive = Some y /\ gro y = 0%Z /\ heap (ws x) ##ₘ {[ 1000%positive := Bk 77%N 7%N tt None ]}.
Proof.
  destruct ex_two_reachable as (w & g & y1 & y2 & E & Hh & H1 & _ & _ & Hro & _). destruct (wrep_lookup _ _ _ _ _ (whist_rep _ _ _ Hh) H1) as (x & Hx & _).
  exists w, g, x, y1. split; [exact Hh|]. split; [exact Hx|]. split; [exact H1|]. split; [exact Hro|]. apply map_disjoint_singleton_r_2.
  assert (Hc : (x ← w !! 1%positive; heap (ws x) !! 1000%positive) = None).
  { assert (Ew : ex_two [1; 2; 3; 4; 12]%N [3; 4; 5]%N = Ret w) by exact E.
    assert (Ef : (fun w => (x ← w !! 1%positive; heap (ws x) !! 1000%positive)) <$> ex_two [1; 2; 3; 4; 12]%N [3; 4; 5]%N = Ret None) by (vm_compute; reflexivity).
    rewrite Ew in Ef. by injection Ef. }
  rewrite Hx in Hc. exact Hc.
Qed.
