(** Property C90: hash tables that share one memory.  HashMem.v has the calls, the model ([tstep]: one
    memory holds the nodes of all tables) and the specification ([tspec]: a finite map per table); see
    TraceProps.v for [run], [lawful] and [refines]. *)
From Verif Require Import Base Trace PrimeModel HashModel HashSpec HashProofs HashOps HashOps2 HashIter HashHist HashTrace HashFrame HashMem HashProps.
Local Open Scope nat_scope.

(** Every program on any number of tables, created and destroyed at any time, gives the results of
    the same calls on separate finite maps; and there are as many nodes in memory as pairs in the maps. *)
Theorem C90_programs : forall K D (cs : list (tcall K D)), lawful tspec tlegal [] cs ->
  refines teq tcan (fun w g => size (mem w) = nodes g) cs (run tstep (HW ∅ []) cs) (run tspec [] cs).
Proof. exact @tables_ok. Qed.
Print Assumptions C90_programs.

(** A call on a table leaves everything in memory that is not the table's alone: [F], whatever it is. *)
Theorem C90_frame : forall K D (env : henv K D) s g F c, good env -> history env s g -> heap s ##ₘ F -> hlegal c ->
  match hstep env (MkH (heap s ∪ F) (tab s)) c with
  | Ret (s', _) => F ⊆ heap s'
  | Fatal => hcan c
  | Abort => g_ro g <> 0%Z
  | _ => False
  end.
Proof.
  intros K D env s g F c G Hh Hd Hl. destruct (history_inv env s g G Hh) as [L [I1 I2 I3 _ _ _]].
  assert (Hl' : hlegal (c_part F c)) by (destruct c; cbn in *; [by apply al_part_ok|done..]).
  pose proof (hstep_ok env s (g_map g, g_ro g) (c_part F c) G ltac:(by exists L) Hl') as E1.
  pose proof (sim_hstep env F s (MkH (heap s ∪ F) (tab s)) c ltac:(by split) Hl) as E2.
  assert (Ec : hcan (c_part F c) -> hcan c) by (destruct c; cbn; [apply can_part|done..]).
  assert (Es : hspec (cmpf env) (dnull env) (g_map g, g_ro g) (c_part F c) <> Fatal /\ hspec (cmpf env) (dnull env) (g_map g, g_ro g) (c_part F c) <> UB /\
    (hspec (cmpf env) (dnull env) (g_map g, g_ro g) (c_part F c) = Abort -> g_ro g <> 0%Z)).
  { destruct c; cbn; try (destruct (Z.eqb_spec (g_ro g) 0)); try done; destruct (afind (cmpf env) k (g_map g)); done. }
  destruct Es as (Es1 & Es2 & Es3).
  destruct (hstep env s (c_part F c)) as [[s1 r1]| | | |], (hspec (cmpf env) (dnull env) (g_map g, g_ro g) (c_part F c)) as [[m2 r2]| | | |]; cbn in E1; try done;
    cbn in E2; try (rewrite E2; by auto).
  destruct E2 as ([s1' r1'] & -> & [[Hd1 EM] _] & _). cbn in EM. rewrite EM. by apply map_union_subseteq_r.
Qed.
Print Assumptions C90_frame.

(** ** a program: two tables, the first is copied into the second, then destroyed *)
Definition ex_tcalls : list (tcall N N) :=
  [TCreate ex_al ex_env; TCreate ex_al ex_env; TCall 0 (HInsert ex_al 1 10); TCall 1 (HInsert ex_al 1 11); TCall 0 (HInsert ex_al 2 20);
   TCall 0 (HInsert ex_al 12 120); TCall 1 (HInsert ex_al 5 50); TCall 1 (HRetrieve 2); TCopy ex_al 0 1; TCall 1 HIterate; TCall 0 (HDelete 2);
   TCall 1 (HRetrieve 2); TCall 1 (HRetrieve 1); TDestroy 0; TCall 1 (HLoop (fun k => [k; 7]%N)); TCreate ex_al ex_env; TCall 2 (HInsert ex_al 9 90);
   TCall 1 (HReadonly 1); TCall 2 (HRetrieve 9); TDestroy 1]%N.
Example ex_tcalls_ok : lawful tspec tlegal [] ex_tcalls.
Proof.
  unfold ex_tcalls. repeat (first [exact I
    | apply lawful_last; [eexists; reflexivity|reflexivity]
    | eapply lawful_cons; [first [split; [exact ex_al_ok|exact ex_good]
        | split; [eexists; vm_compute; reflexivity|first [exact ex_al_ok|exact I]]
        | split; [exact ex_al_ok|split; [done|do 4 eexists; split; vm_compute; reflexivity]]
        | eexists; vm_compute; reflexivity]|vm_compute; reflexivity|]]).
Qed.
Example ex_tcalls_results :
  (run tspec [] ex_tcalls).1 =
    [TDone; TDone; TRes (RInt 0); TRes (RInt 0); TRes (RInt 0); TRes (RInt 0); TRes (RInt 0); TRes (RDatum 0%N); TDone;
     TRes (RPairs [(12, 120); (2, 20); (5, 50); (1, 11)]%N); TRes (RInt 0); TRes (RDatum 20%N); TRes (RDatum 11%N); TDone;
     TRes (RPairs [(12, 120); (2, 20); (5, 50); (1, 11)]%N); TDone; TRes (RInt 0); TRes (RInt 0); TRes (RDatum 90%N)] /\
  (run tstep (HW ∅ []) ex_tcalls).2 = Abort /\ length (run tstep (HW ∅ []) ex_tcalls).1 = 19.
Proof. split; [vm_compute; reflexivity|]. split; vm_compute; reflexivity. Qed.
