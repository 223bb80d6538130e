(** Property C59: concrete names.  [s] is any state reached by any history of registrations,
    lookups and string calls (PrsSpec.v), [R] the registrations so far, oldest first, [G]
    the strings in the pools. *)
From Verif Require Import Base CStr ListLemmas StackModel ObjModel MemModel MemProofs MemHist PrimeModel HashModel HashSpec HashProofs HashOps HashHist HashFnModel HashFnProofs StrModel StrProofs StrHist.
From Verif Require Import PrsModel PrsSpec PrsProofs Alloc StrProps.
Local Open Scope Z_scope.

(** Registering returns or runs out of memory, whichever str_find is made first, and adds
    to the registrations.  The global pool grows by at most the two strings. *)
Theorem C59_register first al s G R sym con r1 r2 :
  prs_history s G R -> palloc_ok al -> str_ok sym -> str_ok con -> roomy (rw s) G sym con ->
  match prs_register_concrete first al s (sym ++ 0%N :: r1) (con ++ 0%N :: r2) with
  | Ret s' => exists G', prs_history s' G' (R ++ [(sym, con)]) /\
      forall g', global_of (rw s') G' g' -> exists g, global_of (rw s) G g /\ q_ro g' = q_ro g /\
        (length (s_done (q_mem g')) <= length (s_done (q_mem g)) + 2)%nat /\
        s_bytes (q_mem g') <= s_bytes (q_mem g) + Z.of_nat (length sym) + Z.of_nat (length con) + 2
  | Fatal => gfail al
  | _ => False
  end.
Proof.
  intros Hh Hal Hs Hc Hr. destruct (register_ok first al s G R sym con r1 r2 (prs_history_inv _ _ _ Hh) Hal Hs Hc Hr) as [H _].
  destruct (prs_register_concrete _ _ _ _ _) as [s'| | | |] eqn:E; try done. destruct H as (x & y & a1 & a2 & w1 & G1 & G' & Exy & F1 & F2).
  exists G'. split; [by eapply ph_register|]. intros g' Hg'. pose proof (proj1 (prs_history_inv _ _ _ Hh)) as Hp.
  assert (Hr' : roomy (rw s) G con sym).
  { intros g Hg. destruct (Hr g Hg) as (H1 & H2 & H3). split; [done|]. split; [done|]. lia. }
  destruct first; injection Exy as -> ->.
  - exact (two_takes al _ G sym con r1 r2 a1 a2 w1 G1 _ G' g' Hp Hal Hs Hc Hr F1 F2 Hg').
  - destruct (two_takes al _ G con sym r2 r1 a1 a2 w1 G1 _ G' g' Hp Hal Hc Hs Hr' F1 F2 Hg') as (g & A & B & C & D). exists g. split; [done|]. split; [done|]. split; [done|]. lia.
Qed.
(** Looking a symbol up gives the first concrete name registered for it, as the one
    interned string of the global pool with these bytes; NULL if there was none. *)
Theorem C59_concrete s G R sym rest : prs_history s G R -> str_ok sym ->
  exists s' r, prs_concrete s (sym ++ 0%N :: rest) = Ret (s', r) /\ prs_history s' G R /\ rw s' = rw s /\
    match first_concrete sym R with
    | None => r = None
    | Some c => exists d, r = Some d /\ (exists junk, mblk (pmem (rw s)) !! d = Some (c ++ 0%N :: junk)) /\
        forall al rest', palloc_ok al -> exists w', str_find al (rw s) (c ++ 0%N :: rest') = Ret (w', d)
    end.
Proof.
  intros Hh Hs. pose proof (prs_history_inv _ _ _ Hh) as Hinv. destruct (concrete_ok s G R sym rest Hinv Hs) as (s' & r & E & _ & Hw & Hr).
  exists s', r. split; [done|]. split; [by eapply ph_concrete|]. split; [done|]. destruct (first_concrete sym R) as [c|]; [|done].
  destruct Hr as (d & p & g & -> & Hp & Hg & Hin). exists d. split; [done|]. pose proof (proj1 Hinv) as Hph.
  destruct (int_memory (rw s) G Hph p g Hg c d Hin) as [Hc Hm]. split; [done|]. intros al rest' Hal.
  destruct (int_nodup (rw s) G Hph p g Hg) as [Hn _]. pose proof (StrProofs.in_assoc c (q_int g) d Hn Hin) as Ea.
  pose proof (hist_find (rw s) G Hph p g Hg al c rest' Hal Hc) as Hf. rewrite Ea in Hf. specialize (Hf ltac:(done)).
  assert (Ef : str_find al (rw s) (c ++ 0%N :: rest') = str_pool_find al (rw s) (Some p) (c ++ 0%N :: rest')).
  { unfold str_find, check_global. rewrite Hp. rb. by rewrite Hp. }
  rewrite Ef. destruct (st_inv (rw s) G Hph) as [GM I]. cbn [fst snd] in I. destruct (get_pool _ _ _ I p g Hg) as (x & Hx & Ho & Epx).
  unfold str_pool_find. rewrite Epx. rb. destruct (pool_retrieve_ok _ _ _ I p g Hg x c rest' Hx Ho Hc) as (t & Et & _). rewrite Et. rb. rewrite Ea. eauto.
Qed.
(** [first_concrete]: the one before which no registration has this symbol *)
Theorem C59_first sym R c : first_concrete sym R = Some c <->
  exists R1 R2, R = R1 ++ (sym, c) :: R2 /\ sym ∉ R1.*1.
Proof.
  split.
  - induction R as [|[s c'] R IH]; [done|]. cbn [first_concrete]. destruct (decide (s = sym)) as [->|Hn].
    + intros [= ->]. exists [], R. split; [done|]. intros H. by apply elem_of_nil in H.
    + intros H. destruct (IH H) as (R1 & R2 & -> & Hin). exists ((s, c') :: R1), R2. split; [done|]. rewrite fmap_cons. apply not_elem_of_cons. done.
  - intros (R1 & R2 & -> & Hin). induction R1 as [|[s c'] R1 IH]; cbn [app first_concrete]; [by rewrite decide_True|].
    rewrite fmap_cons in Hin. apply not_elem_of_cons in Hin as [Hn Hin]. rewrite decide_False by done. by apply IH.
Qed.
(** _prs_shutdown frees every node of the table, but keeps its address: if there was a
    table, every later call uses it freed. *)
Theorem C59_shutdown s G R : prs_history s G R ->
  exists s', prs_shutdown s = Ret (s', ∅) /\ rw s' = rw s /\
    (R = [] -> s' = s) /\
    (R <> [] -> (forall sym, prs_concrete s' sym = UB) /\ (forall first al sym con, prs_register_concrete first al s' sym con = UB) /\
       prs_shutdown s' = UB).
Proof.
  intros Hh. pose proof (prs_history_inv _ _ _ Hh) as Hinv. pose proof (shutdown_ok s G R Hinv) as E. destruct Hinv as [_ Ht].
  eexists. split; [exact E|]. destruct (rtab s) as [|t|] eqn:Er; [|destruct Ht as [HR _]|done].
  - split; [done|]. split; [done|]. intros H. by subst R.
  - split; [done|]. split; [done|]. intros _. done.
Qed.
Print Assumptions C59_register.
Print Assumptions C59_concrete.
Print Assumptions C59_first.
Print Assumptions C59_shutdown.

(** ** an example: "a" is registered as "b", then as "c"; looked up it is "b" *)
Definition ex_p1 := getr (prs_register_concrete true ex_pal prs_start [97; 0]%N [98; 0; 7]%N) prs_start.
Definition ex_p2 := getr (prs_register_concrete false ex_pal ex_p1 [97; 0]%N [99; 0]%N) prs_start.
Lemma ex_room1 : roomy (rw prs_start) ∅ [97]%N [98]%N.
Proof.
  intros g Hg. unfold global_of in Hg. cbn [prs_start rw pempty glob] in Hg. subst g.
  cbn [fresh_pool q_ro q_mem s_done s_bytes length]. split; [done|]. lia.
Qed.
Lemma ex_step1 : prs_register_concrete true ex_pal prs_start ([97]%N ++ 0%N :: []) ([98]%N ++ 0%N :: [7]%N) = Ret ex_p1.
Proof. apply (getr_ok _ prs_start). vm_compute. reflexivity. Qed.
Lemma ex_step2 : prs_register_concrete false ex_pal ex_p1 ([97]%N ++ 0%N :: []) ([99]%N ++ 0%N :: []) = Ret ex_p2.
Proof. apply (getr_ok _ prs_start). vm_compute. reflexivity. Qed.
Lemma ex_str1 (c : N) : (0 < c < 256)%N -> str_ok [c].
Proof. intros H. by constructor. Qed.
Lemma ex_room2 w G : (forall g', global_of w G g' -> exists g, global_of (rw prs_start) ∅ g /\ q_ro g' = q_ro g /\
   (length (s_done (q_mem g')) <= length (s_done (q_mem g)) + 2)%nat /\ s_bytes (q_mem g') <= s_bytes (q_mem g) + 1 + 1 + 2) -> roomy w G [97]%N [99]%N.
Proof.
  intros Hg g' Hg'. destruct (Hg g' Hg') as (g & Eg & H1 & H2 & H3). unfold global_of in Eg. cbn [prs_start rw pempty glob] in Eg. subst g.
  cbn [fresh_pool q_ro q_mem s_done s_bytes length] in H1, H2, H3 |- *. split; [exact H1|]. lia.
Qed.
Example ex_prs : exists G, prs_history ex_p2 G [([97]%N, [98]%N); ([97]%N, [99]%N)].
Proof.
  pose proof (C59_register true ex_pal prs_start ∅ [] [97]%N [98]%N [] [7]%N ph_start (proj1 ex_pal_ok) (ex_str1 97 ltac:(lia)) (ex_str1 98 ltac:(lia)) ex_room1) as H.
  rewrite ex_step1 in H. destruct H as (G1 & H1 & Hg). apply (ex_room2 (rw ex_p1) G1) in Hg.
  pose proof (C59_register false ex_pal ex_p1 G1 [([97]%N, [98]%N)] [97]%N [99]%N [] [] H1 (proj1 ex_pal_ok) (ex_str1 97 ltac:(lia)) (ex_str1 99 ltac:(lia)) Hg) as H.
  rewrite ex_step2 in H. destruct H as (G & H & _). by exists G.
Qed.
Example ex_lookup : match prs_concrete ex_p2 [97; 0]%N with Ret (_, Some d) => mblk (pmem (rw ex_p2)) !! d = Some [98; 0]%N | _ => False end.
Proof. vm_compute. reflexivity. Qed.
