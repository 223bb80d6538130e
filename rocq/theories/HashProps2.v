(** C01 for whole programs.  [run step s cs] (Trace.v) performs the calls [cs]
    in order; [hspec] (HashTrace.v) is the same calls on a finite map with a
    readonly flag. *)
From Verif Require Import Base Trace PrimeModel HashModel HashSpec HashProofs HashOps HashOps2 HashIter HashHist HashProps HashTrace.
Local Open Scope nat_scope.

(** Any program of inserts, deletes, retrievals, readonly switches, iterations
    and HSH_ITERATE loops on a new table gives exactly the results of the finite
    map, aborts exactly when the map's readonly flag forbids the call, and can
    then be destroyed without a leak; or an insertion runs out of memory, after
    the right results. *)
Theorem C01_programs : forall {K D} (env : henv K D) al0 cs,
  good env -> halloc_ok al0 -> Forall hlegal cs ->
  ok (fun s => refines hres_eq hcan (fun s' g => hsh_destroy s' = if (g.2 =? 0)%Z then Ret ∅ else Abort) cs
                 (run (hstep env) s cs) (run (hspec (cmpf env) (dnull env)) ([], 0%Z) cs))
     (can_fail al0) (hsh_create al0).
Proof. exact @trace_ok. Qed.
Print Assumptions C01_programs.

(** A program whose insertions always find memory gives all of its results. *)
Theorem C01_programs_memory : forall {K D} (env : henv K D) al0 cs s,
  good env -> halloc_ok al0 -> Forall hlegal cs -> Forall (fun c => ~ hcan c) cs -> hsh_create al0 = Ret s ->
  Forall2 hres_eq (run (hstep env) s cs).1 (run (hspec (cmpf env) (dnull env)) ([], 0%Z) cs).1 /\
  ((run (hstep env) s cs).2 = Abort <-> (run (hspec (cmpf env) (dnull env)) ([], 0%Z) cs).2 = Abort).
Proof.
  intros K D env al0 cs s G Hal Hl Hn E. pose proof (trace_ok env al0 cs G Hal Hl) as H. rewrite E in H. cbn [ok] in H.
  destruct H as [[H1 H2]|(_ & o & Ho & Hc & _)].
  - split; [exact H1|]. destruct ((run (hstep env) s cs).2), ((run (hspec (cmpf env) (dnull env)) ([], 0%Z) cs).2); try done.
  - exfalso. eapply Forall_lookup_1 in Hn; [|exact Ho]. by apply Hn.
Qed.
Print Assumptions C01_programs_memory.

(** a program with every kind of call; 1 and 12 share a bucket once there are 11 *)
Definition ex_calls : list (hcall N N) :=
  [HRetrieve 1%N; HInsert ex_al 1%N 10%N; HInsert ex_al 2%N 20%N; HInsert ex_al 12%N 120%N; HInsert ex_al 1%N 11%N; HRetrieve 1%N;
   HIterate; HDelete 2%N; HDelete 2%N; HLoop (fun k => [12%N; k]); HInsert ex_al 5%N 50%N; HReadonly 1; HRetrieve 12%N; HReadonly 1; HDelete 1%N].
Example ex_calls_ok : Forall hlegal ex_calls /\ Forall (fun c => ~ hcan c) ex_calls.
Proof.
  assert (Hc : ~ can_fail ex_al) by (intros [[h E]|[n E]]; discriminate E).
  split; repeat constructor; cbn; try exact ex_al_ok; try exact Hc; tauto.
Qed.
Example ex_calls_results :
  (run (hspec (cmpf ex_env) (dnull ex_env)) ([], 0%Z) ex_calls) =
    ([RDatum 0%N; RInt 0; RInt 0; RInt 0; RInt 1; RDatum 10%N; RPairs [(12, 120); (2, 20); (1, 10)]%N; RInt 0; RInt 1;
      RPairs [(12, 120); (1, 10)]%N; RInt 0; RInt 0; RDatum 120%N; RInt 1], Abort) /\
  (exists s, hsh_create ex_al = Ret s /\ (run (hstep ex_env) s ex_calls).2 = Abort /\ length (run (hstep ex_env) s ex_calls).1 = 14).
Proof. split; [reflexivity|]. eexists. split; [reflexivity|]. vm_compute. done. Qed.
