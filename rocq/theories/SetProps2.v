(** C10-C13, C15 for whole programs, and C12 for one set used as both arguments. *)
From Verif Require Import Base Trace PrimeModel PrimeProofs HashModel HashSpec ListLemmas HashProofs HashOps HashOps2 HashIter SetModel SetSpec SetAlg SetProofs SetWorld SetHist SetProps SetSelf SetTrace.
Local Open Scope nat_scope.

(** set_del(s, s) on a non-empty set follows the [next] field of a node that it
    has just freed (set.c:540-541, on the bucket freed at set.c:294). *)
Theorem C12_set_del_self : forall {K} (F : fns K) w g h y,
  whist F w g -> g !! h = Some y -> gro y = 0%Z -> gel y <> [] ->
  exists n, forall fuel, n <= fuel -> set_del F fuel w h h = UB.
Proof.
  intros K F w g h y Hw Hy Hro Hne. destruct (wrep_lookup _ _ _ _ _ (whist_rep _ _ _ Hw) Hy) as (x & Hx & _).
  exists (S (N.to_nat (prime (tab (ws x))))). intros fuel Hf. eapply S_del_self; eauto. intros x' Hx'. rewrite Hx in Hx'. injection Hx' as <-. lia.
Qed.
Print Assumptions C12_set_del_self.

(** set_del(s, s) on an empty set does nothing *)
Theorem C12_set_del_self_empty : forall {K} (F : fns K) w g h y,
  whist F w g -> g !! h = Some y -> gel y = [] ->
  exists n, forall fuel, n <= fuel -> set_del F fuel w h h = Ret w.
Proof. exact @S_del_self_empty. Qed.
Print Assumptions C12_set_del_self_empty.

(** set_add(s, s) changes nothing when twice the number of elements is at most
    the number of buckets, that is when the set is not due to grow. *)
Theorem C12_set_add_self : forall {K} (F : fns K) w g h y x al,
  whist F w g -> g !! h = Some y -> w !! h = Some x -> gro y = 0%Z ->
  (u64 (entries (tab (ws x)) * 2) <= prime (tab (ws x)))%N ->
  exists n, forall fuel, n <= fuel -> set_add F al fuel w h h = Ret w.
Proof.
  intros K F w g h y x al Hw Hy Hx Hro Hd. exists (S (N.to_nat (prime (tab (ws x))) + length (gel y))). intros fuel Hf.
  eapply (S_add_self F al fuel w g h y x Hw Hy Hx Hro); [unfold due; lia|lia].
Qed.
Print Assumptions C12_set_add_self.

(** otherwise the first element's insertion rebuilds the table, every node of
    the walk is freed, and the walk goes on from the freed node *)
Theorem C12_set_add_self_due : forall {K} (F : fns K) w g h y x al,
  whist F w g -> g !! h = Some y -> w !! h = Some x -> halloc_ok al -> gro y = 0%Z -> gel y <> [] ->
  (prime (tab (ws x)) < u64 (entries (tab (ws x)) * 2))%N ->
  exists n, forall fuel, n <= fuel ->
  set_add F al fuel w h h = UB \/ (set_add F al fuel w h h = Fatal /\ can_fail al).
Proof.
  intros K F w g h y x al Hw Hy Hx Hal Hro Hne Hd. exists (S (N.to_nat (prime (tab (ws x))))). intros fuel Hf.
  eapply S_add_self_due; eauto.
Qed.
Print Assumptions C12_set_add_self_due.

(** ** the hypotheses are met *)
Lemma ex_self_sizes : exists w, ex_two [1; 2; 3; 4; 12]%N [7]%N = Ret w /\
  ((fun x => (entries (tab (ws x)), prime (tab (ws x)))) <$> w !! 1%positive = Some (5, 11)%N /\
   (fun x => (entries (tab (ws x)), prime (tab (ws x)))) <$> w !! 2%positive = Some (1, 1)%N).
Proof. run. Qed.
Example ex_self_reachable : exists w g y1 y2 x1 x2, whist ex_F w g /\ g !! 1%positive = Some y1 /\ g !! 2%positive = Some y2 /\
  w !! 1%positive = Some x1 /\ w !! 2%positive = Some x2 /\ gro y1 = 0%Z /\ gro y2 = 0%Z /\ gel y1 <> [] /\ gel y2 <> [] /\
  (u64 (entries (tab (ws x1)) * 2) <= prime (tab (ws x1)))%N /\ (prime (tab (ws x2)) < u64 (entries (tab (ws x2)) * 2))%N.
Proof.
  destruct ex_self_sizes as (w & E & S1 & S2). destruct (ex_two_hist _ _ _ E) as (g & y1 & y2 & H1 & H2 & H3 & _ & H4 & H5 & _).
  apply fmap_Some in S1 as (x1 & X1 & S1). apply fmap_Some in S2 as (x2 & X2 & S2). injection S1 as S1 S1'. injection S2 as S2 S2'.
  pose proof (proj1 (S_count _ _ _ _ _ _ H1 H2 X1)) as C1. pose proof (proj1 (S_count _ _ _ _ _ _ H1 H3 X2)) as C2.
  exists w, g, y1, y2, x1, x2. do 7 (split; [assumption|]). rewrite <- S1, <- S1', <- S2, <- S2'.
  split; [|split; [|split; [vm_compute; discriminate|reflexivity]]].
  - intros N. rewrite N in C1. unfold set_count in C1. rewrite <- S1 in C1. vm_compute in C1. discriminate C1.
  - intros N. rewrite N in C2. unfold set_count in C2. rewrite <- S2 in C2. vm_compute in C2. discriminate C2.
Qed.

(** ** whole programs.  [run step s cs] (Trace.v) performs the calls [cs];
    [sspec] (SetTrace.v) is the same calls on finite sets, each with a readonly
    flag and its two functions. *)
Theorem C10_programs : forall {K} (F : fns K) cs, lawful (sspec F) (slegal F) ∅ cs ->
  refines sres_eq scan (fun w g => dom w = dom g) cs (run (sstep F) ∅ cs) (run (sspec F) ∅ cs).
Proof. exact @sets_ok. Qed.
Print Assumptions C10_programs.

(** a program with every kind of call; it ends with an insertion into a readonly set *)
Definition ex_scalls : list (scall N) :=
  [SCreate ex_sal 1 1 1; SCreate ex_sal 2 1 1; SInsert ex_sal 1 5%N; SInsert ex_sal 1 6%N; SInsert ex_sal 1 5%N; SInsert ex_sal 2 6%N; SInsert ex_sal 2 7%N;
   SUnion ex_sal 3 1 2; SInter ex_sal 4 1 2; SDiff ex_sal 5 1 2; SIterate 3; SIterate 4; SIterate 5; SCount 3; SMember 4 6%N; SMember 5 6%N;
   SEqual 1 2; SDel 3 1; SEqual 3 2; SInsert ex_sal 3 6%N; SEqual 3 2; SAdd ex_sal 4 1; SEqual 4 1; SDelete 1 9%N; SDelete 1 5%N; SDestroy 5; SReadonly 2 1; SInsert ex_sal 2 8%N]%positive.
Example ex_scalls_ok : lawful (sspec ex_F) (slegal ex_F) ∅ ex_scalls.
Proof.
  unfold ex_scalls.
  repeat (first [exact I
    | eapply lawful_last; [exact ex_sal_ok|vm_compute; reflexivity]
    | eapply lawful_cons; [cbn [slegal]; first [exact I | exact ex_sal_ok | discriminate | split; [exact ex_sal_ok|first [discriminate|reflexivity|split; [reflexivity|exact (ex_sgood 1 1)]]]
        | intros y Hy; vm_compute in Hy; injection Hy as <-; reflexivity | intros h y [-> | ->] Hy; vm_compute in Hy; injection Hy as <-; reflexivity] | vm_compute; reflexivity|]]).
Qed.
Example ex_scalls_results :
  (run (sspec ex_F) ∅ ex_scalls).1 =
    [SDone; SDone; SInt 0; SInt 0; SInt 1; SInt 0; SInt 0; SDone; SDone; SDone; SElems [6; 5; 7]%N; SElems [6]%N; SElems [5]%N; SInt 3; SInt 1; SInt 0;
     SInt 0; SDone; SInt 0; SInt 0; SInt 1; SDone; SInt 1; SInt 1; SInt 0; SDone; SInt 0] /\
  (run (sstep ex_F) ∅ ex_scalls).2 = Abort.
Proof. split; vm_compute; reflexivity. Qed.
