(** Proofs about parse-concrete.c. *)
From Verif Require Import Base CStr ListLemmas StackModel ObjModel MemModel MemProofs MemHist PrimeModel HashModel HashSpec HashProofs HashOps HashHist HashFnModel HashFnProofs StrModel StrProofs StrHist.
From Verif Require Import PrsModel PrsSpec.
Local Open Scope Z_scope.

(** ** str_find in any history *)
Lemma create_ok w G al : pool_history w G -> palloc_ok al -> glob w = None ->
  match check_global al w with Ret _ => True | Fatal => gfail al | _ => False end.
Proof.
  intros H Hal Hgl. destruct (st_inv w G H) as [GM I]. unfold check_global. rewrite Hgl.
  pose proof (pool_create_ok w G GM al I Hal) as Hc. destruct (str_pool_create al w) as [[? ?]| | | |]; try done. by eapply create_gfail.
Qed.
Lemma gfind_ok al w G s rest : pool_history w G -> palloc_ok al -> str_ok s ->
  (forall g, match glob w with Some p => G !! p = Some g | None => g = fresh_pool end ->
     assoc s (q_int g) = None -> q_ro g = 0 /\ room (q_mem g) (Z.of_nat (length s) + 1)) ->
  match str_find al w (s ++ 0%N :: rest) with
  | Ret (w', a) => exists p g g', gfind al (w, G) (s, rest) a (w', match glob w with Some _ => <[p := g']> G | None => <[p := g']> (<[p := fresh_pool]> G) end) /\
      glob w' = Some p /\ (glob w = Some p \/ glob w = None) /\ g' = found g s a /\
      pool_history w' (match glob w with Some _ => <[p := g']> G | None => <[p := g']> (<[p := fresh_pool]> G) end) /\
      match glob w with Some p => G !! p = Some g | None => g = fresh_pool /\ G !! p = None end /\ (s, a) ∈ q_int g'
  | Fatal => gfail al
  | _ => False
  end.
Proof.
  intros H Hal Hs Hr. unfold str_find. destruct (glob w) as [p|] eqn:Hgl.
  - assert (Ec : check_global al w = Ret w) by (unfold check_global; by rewrite Hgl). rewrite Ec. rb. rewrite Hgl.
    destruct (st_inv w G H) as [GM I]. cbn [fst snd] in I. destruct (wi_glob _ _ _ I p Hgl) as [g Hg].
    pose proof (hist_find w G H p g Hg al s rest Hal Hs (Hr g Hg)) as Hf.
    pose proof (find_ok w G GM I p g Hg al Hal s rest Hs (Hr g Hg)) as Hf2.
    destruct (str_pool_find al w (Some p) (s ++ 0%N :: rest)) as [[w' a]| | | |] eqn:E; cbn [ok] in Hf, Hf2; try done; [|by left].
    destruct Hf as (Hk & _ & Ha & _), Hf2 as (_ & Hgl' & _). exists p, g, (found g s a).
    split. { econstructor; [|by rewrite Hgl'|by rewrite Hgl|exact Hg]. unfold str_find. rewrite Ec. rb. rewrite Hgl. exact E. }
    split; [by rewrite Hgl'|]. split; [by left|]. split; [done|]. split; [by eapply history_later; [exact H|eapply keeps_later]|]. split; [done|].
    by apply assoc_in.
  - pose proof (create_ok w G al H Hal Hgl) as Hc. destruct (check_global al w) as [w1| | | |] eqn:E; try done. rb.
    destruct (st_inv w G H) as [GM I]. cbn [fst snd] in I. destruct (global_ok al w G GM w1 I Hal Hgl E) as (p & Hp & HG & _ & _).
    pose proof (pc_global al w G w1 p Hal Hgl E Hp) as Hst. pose proof (history_step _ _ _ _ H Hst) as H1. rewrite Hp.
    destruct (st_inv w1 _ H1) as [GM1 I1]. cbn [fst snd] in I1.
    pose proof (hist_find w1 _ H1 p fresh_pool (lookup_insert _ _ _) al s rest Hal Hs (Hr fresh_pool eq_refl)) as Hf.
    pose proof (find_ok w1 _ GM1 I1 p fresh_pool (lookup_insert _ _ _) al Hal s rest Hs (Hr fresh_pool eq_refl)) as Hf2.
    destruct (str_pool_find al w1 (Some p) (s ++ 0%N :: rest)) as [[w' a]| | | |] eqn:E2; cbn [ok] in Hf, Hf2; try done; [|by left].
    destruct Hf as (Hk & _ & Ha & _), Hf2 as (_ & Hgl' & _). exists p, fresh_pool, (found fresh_pool s a).
    split. { econstructor; [|by rewrite Hgl'|by rewrite Hgl|apply lookup_insert]. unfold str_find. rewrite E. rb. rewrite Hp. exact E2. }
    split; [by rewrite Hgl'|]. split; [by right|]. split; [done|]. split; [by eapply history_later; [exact H1|eapply keeps_later]|]. split; [done|].
    by apply assoc_in.
Qed.
(** what the ghost step says *)
Lemma found_int g s a : exists l, q_int (found g s a) = l ++ q_int g.
Proof.
  unfold found. destruct (assoc s (q_int g)) eqn:E; [by exists []|]. unfold entered. cbn [set_mem asked q_int]. rewrite E. by exists [(s, a)].
Qed.
Lemma found_room g s a n : q_ro g = 0 -> Z.of_nat (length (s_done (q_mem g))) + 2 < 2 ^ 31 -> 0 <= n ->
  s_bytes (q_mem g) + Z.of_nat (length s) + n + 2 < 2 ^ 31 -> q_ro (found g s a) = 0 /\ room (q_mem (found g s a)) (n + 1).
Proof.
  intros Hr H1 Hn H2. unfold found, room. destruct (assoc s (q_int g)); cbn [asked entered set_mem q_mem q_ro stored s_done s_bytes]; (split; [done|]).
  - lia.
  - rewrite app_length. cbn [length]. lia.
Qed.
Lemma gfind_inv al w G s rest a w' G' : pool_history w G -> palloc_ok al -> str_ok s ->
  (forall g, match glob w with Some p => G !! p = Some g | None => g = fresh_pool end ->
     assoc s (q_int g) = None -> q_ro g = 0 /\ room (q_mem g) (Z.of_nat (length s) + 1)) ->
  str_find al w (s ++ 0%N :: rest) = Ret (w', a) -> gfind al (w, G) (s, rest) a (w', G') ->
  pool_history w' G' /\ exists p g, glob w' = Some p /\ G' !! p = Some (found g s a) /\ (s, a) ∈ q_int (found g s a) /\
    match glob w with Some q => q = p /\ G !! p = Some g | None => g = fresh_pool end.
Proof.
  intros H Hal Hs Hr E Hf. inversion Hf as [w0 G0 s0 rest0 w0' a0 p g G1 E0 Hp HG1 Hg X1 X2 X3 X4]. subst.
  pose proof (gfind_ok al w G s rest H Hal Hs Hr) as Hk. rewrite E in Hk. destruct Hk as (p' & g0 & g' & _ & Hp' & Hor & -> & Hh & Hgg & Hin).
  rewrite Hp in Hp'. injection Hp' as <-. destruct (glob w) as [q|] eqn:Hgl.
  - destruct Hor as [[= ->]|?]; [|done]. rewrite Hg in Hgg. injection Hgg as <-. split; [done|]. exists p, g. by rewrite lookup_insert.
  - destruct Hgg as [-> _]. rewrite lookup_insert in Hg. injection Hg as <-. split; [done|]. exists p, fresh_pool. by rewrite lookup_insert.
Qed.

(** ** the table *)
Definition tab_ok (g : pgh) (t : hst key ptr) (R : list (list N * list N)) : Prop :=
  exists gh, history penv t gh /\ g_ro gh = 0 /\
    (forall kd, kd ∈ g_map gh -> exists a, kaddr kd.1 = Some a /\ (kval kd.1, a) ∈ q_int g) /\
    forall k, match first_concrete (kval k) R with
              | None => afind (cmpf penv) k (g_map gh) = None
              | Some c => exists d, afind (cmpf penv) k (g_map gh) = Some (Some d) /\ (c, d) ∈ q_int g
              end.
Definition prs_inv (s : prsw) (G : gmap positive pgh) (R : list (list N * list N)) : Prop :=
  pool_history (rw s) G /\
  match rtab s with
  | PNull => R = []
  | PTable t => R <> [] /\ exists p g, glob (rw s) = Some p /\ G !! p = Some g /\ tab_ok g t R
  | PFreed => False
  end.
Lemma tab_live w G p g t R : pool_history w G -> G !! p = Some g -> tab_ok g t R -> keys_live (mblk (pmem w)) t = true.
Proof.
  intros H Hg (gh & Hh & _ & Hk & _). unfold keys_live. apply forallb_forall. intros b Hb.
  apply elem_of_list_In, elem_of_list_fmap in Hb as ([a b'] & -> & Hb). cbn [snd].
  apply elem_of_map_to_list in Hb. pose proof (heap_in_map t gh a b' Hh Hb) as Hin.
  destruct (Hk _ Hin) as (c & Ec & Hc). cbn [fst] in *. rewrite Ec.
  destruct (int_memory w G H p g Hg _ _ Hc) as [Hs [rest Hm]]. by eapply reads_ok.
Qed.
Lemma tab_mono g g' t R : tab_ok g t R -> (exists l, q_int g' = l ++ q_int g) -> tab_ok g' t R.
Proof.
  intros (gh & Hh & Hro & Hk & Hc) [l El]. exists gh. split; [done|]. split; [done|].
  assert (Hi : forall x, x ∈ q_int g -> x ∈ q_int g') by (intros x Hx; rewrite El; apply elem_of_app; by right). split.
  - intros kd Hin. destruct (Hk kd Hin) as (a & E & Ha). eauto.
  - intros k. specialize (Hc k). destruct (first_concrete (kval k) R); [|done]. destruct Hc as (d & E & Hd). eauto.
Qed.
Lemma first_app sym R c1 s1 : first_concrete sym (R ++ [(s1, c1)]) =
  match first_concrete sym R with Some c => Some c | None => if decide (s1 = sym) then Some c1 else None end.
Proof. induction R as [|[s c] R IH]; [done|]. cbn [app first_concrete]. by destruct (decide (s = sym)). Qed.

(** inserting *)
Lemma tab_insert al g t R k a d c : halloc_ok (pa_hash al) -> tab_ok g t R -> kaddr k = Some a -> (kval k, a) ∈ q_int g -> (c, d) ∈ q_int g ->
  ok (fun '(t', _) => tab_ok g t' (R ++ [(kval k, c)])) (can_fail (pa_hash al)) (hsh_insert penv (pa_hash al) t k (Some d)).
Proof.
  intros Hal (gh & Hh & Hro & Hk & Hc) Ea Hka Hcd.
  pose proof (P_insert penv t gh (pa_hash al) k (Some d) penv_good Hh Hal Hro) as Hi.
  destruct (hsh_insert penv (pa_hash al) t k (Some d)) as [[t' r]| | | |] eqn:E; cbn [ok] in *; try done.
  pose proof (h_insert penv (pa_hash al) _ _ _ _ _ _ Hh Hal E) as Hh'. destruct (afind (cmpf penv) k (g_map gh)) as [x|] eqn:Ef.
  - eexists. split; [exact Hh'|]. cbn [g_ro g_map]. split; [done|]. split; [done|]. intros k'. specialize (Hc k'). rewrite first_app.
    destruct (first_concrete (kval k') R) as [c'|] eqn:Ef'; [done|]. destruct (decide (kval k = kval k')) as [Ek|]; [|done]. exfalso.
    assert (Hsame : afind (cmpf penv) k (g_map gh) = afind (cmpf penv) k' (g_map gh)).
    { clear -Ek. induction (g_map gh) as [|[k0 d0] m IH]; [done|]. cbn [afind]. cbn [penv cmpf]. rewrite Ek. destruct (_ =? 0); [done|]. exact IH. }
    congruence.
  - eexists. split; [exact Hh'|]. cbn [g_ro g_map]. split; [done|]. split.
    + intros kd [->|Hin]%elem_of_cons; [by exists a|by apply Hk].
    + intros k'. specialize (Hc k'). rewrite first_app. cbn [afind].
      destruct (Z.eqb_spec (cmpf penv k k') 0) as [Ez|Ez].
      * apply penv_cmp in Ez. assert (En : first_concrete (kval k') R = None).
        { destruct (first_concrete (kval k') R) as [c'|] eqn:Ef'; [|done]. exfalso. destruct Hc as (d' & Ec & _).
          assert (Hsame : afind (cmpf penv) k (g_map gh) = afind (cmpf penv) k' (g_map gh)).
          { clear -Ez. induction (g_map gh) as [|[k0 d0] m IH]; [done|]. cbn [afind]. cbn [penv cmpf]. rewrite Ez. destruct (_ =? 0); [done|]. exact IH. }
          congruence. }
        rewrite En, decide_True by done. exists d. done.
      * destruct (first_concrete (kval k') R) as [c'|]; [done|]. rewrite decide_False; [done|]. intros Ek. apply Ez. by apply penv_cmp.
Qed.

(** ** the calls *)
Lemma concrete_ok s G R sym rest : prs_inv s G R -> str_ok sym ->
  exists s' r, prs_concrete s (sym ++ 0%N :: rest) = Ret (s', r) /\ prs_inv s' G R /\ rw s' = rw s /\
    match first_concrete sym R with
    | None => r = None
    | Some c => exists d p g, r = Some d /\ glob (rw s) = Some p /\ G !! p = Some g /\ (c, d) ∈ q_int g
    end.
Proof.
  intros [Hh Ht] Hs. unfold prs_concrete. destruct (rtab s) as [|t|] eqn:Er; [|clear Er|done].
  - subst R. exists s, None. split; [done|]. split; [|done]. split; [done|]. by rewrite Er.
  - destruct Ht as (HR & p & g & Hp & Hg & Htab). rewrite c_string_spec by done. rb.
    destruct (mk_key_ok None sym Hs) as (k & -> & _ & Hk). rb. rewrite (tab_live _ _ _ _ _ _ Hh Hg Htab).
    destruct Htab as (gh & Hhist & Hro & Hkeys & Hc). destruct (P_retrieve penv t gh k penv_good Hhist) as [t' E]. rewrite E. rb.
    eexists _, _. split; [reflexivity|]. split; [|split; [done|]].
    + split; [done|]. cbn [rtab rw]. split; [done|]. exists p, g. split; [done|]. split; [done|].
      eexists. split; [eapply h_retrieve; [exact Hhist|exact E]|]. done.
    + specialize (Hc k). rewrite Hk in Hc. destruct (first_concrete sym R) as [c|].
      * destruct Hc as (d & Ed & Hin). rewrite Ed. cbn [default id]. exists d, p, g. done.
      * by rewrite Hc.
Qed.
Lemma in_prefix {A} (l l' : list A) x : x ∈ l' -> x ∈ l ++ l'.
Proof. intros H. apply elem_of_app. by right. Qed.
(** two str_finds, one after the other *)
Lemma two_ok al w G s1 s2 q1 q2 : pool_history w G -> palloc_ok al -> str_ok s1 -> str_ok s2 -> roomy w G s1 s2 ->
  match ('(w1, a1) ← str_find al w (s1 ++ 0%N :: q1); '(w2, a2) ← str_find al w1 (s2 ++ 0%N :: q2); Ret (w1, w2, a1, a2)) with
  | Ret (w1, w2, a1, a2) => exists G1 G2, gfind al (w, G) (s1, q1) a1 (w1, G1) /\ gfind al (w1, G1) (s2, q2) a2 (w2, G2)
  | Fatal => gfail al
  | _ => False
  end /\
  forall w1 a1 w2 a2 G1 G2, str_find al w (s1 ++ 0%N :: q1) = Ret (w1, a1) -> str_find al w1 (s2 ++ 0%N :: q2) = Ret (w2, a2) ->
    gfind al (w, G) (s1, q1) a1 (w1, G1) -> gfind al (w1, G1) (s2, q2) a2 (w2, G2) ->
    pool_history w2 G2 /\ exists p g, glob w2 = Some p /\ G2 !! p = Some g /\ (s1, a1) ∈ q_int g /\ (s2, a2) ∈ q_int g /\
      forall p0 g0, glob w = Some p0 -> G !! p0 = Some g0 -> p0 = p /\ exists l, q_int g = l ++ q_int g0.
Proof.
  intros Hh Hal Hs1 Hs2 Hr.
  assert (Hr1 : forall g, match glob w with Some p => G !! p = Some g | None => g = fresh_pool end ->
     assoc s1 (q_int g) = None -> q_ro g = 0 /\ room (q_mem g) (Z.of_nat (length s1) + 1)).
  { intros g Hg _. destruct (Hr g Hg) as (H1 & H2 & H3). split; [done|]. unfold room. lia. }
  assert (Hr2 : forall w1 G1 a1, str_find al w (s1 ++ 0%N :: q1) = Ret (w1, a1) -> gfind al (w, G) (s1, q1) a1 (w1, G1) ->
     forall g, match glob w1 with Some p => G1 !! p = Some g | None => g = fresh_pool end ->
     assoc s2 (q_int g) = None -> q_ro g = 0 /\ room (q_mem g) (Z.of_nat (length s2) + 1)).
  { intros w1 G1 a1 E Hf g Hg _. destruct (gfind_inv al w G s1 q1 a1 w1 G1 Hh Hal Hs1 Hr1 E Hf) as (_ & p & g0 & Hp & Hg0 & _ & Hm).
    rewrite Hp in Hg. rewrite Hg0 in Hg. injection Hg as <-.
    assert (Hx : match glob w with Some p => G !! p = Some g0 | None => g0 = fresh_pool end) by (destruct (glob w); [destruct Hm as [-> ?]|]; done).
    destruct (Hr g0 Hx) as (H1 & H2 & H3). apply found_room; lia. }
  split.
  - pose proof (gfind_ok al w G s1 q1 Hh Hal Hs1 Hr1) as H1. destruct (str_find al w (s1 ++ 0%N :: q1)) as [[w1 a1]| | | |] eqn:E1; try done. rb.
    destruct H1 as (p & g & g' & Hf & _ & _ & _ & Hh1 & _). set (G1 := match glob w with Some _ => _ | None => _ end) in *.
    pose proof (gfind_ok al w1 G1 s2 q2 Hh1 Hal Hs2 (Hr2 w1 G1 a1 eq_refl Hf)) as H2.
    destruct (str_find al w1 (s2 ++ 0%N :: q2)) as [[w2 a2]| | | |]; try done. rb. destruct H2 as (p2 & g2 & g2' & Hf2 & _).
    eexists _, _. split; [exact Hf|exact Hf2].
  - intros w1 a1 w2 a2 G1 G2 E1 E2 Hf1 Hf2. destruct (gfind_inv al w G s1 q1 a1 w1 G1 Hh Hal Hs1 Hr1 E1 Hf1) as (Hh1 & p & g & Hp & Hg & Hin & Hm).
    destruct (gfind_inv al w1 G1 s2 q2 a2 w2 G2 Hh1 Hal Hs2 (Hr2 w1 G1 a1 E1 Hf1) E2 Hf2) as (Hh2 & p2 & g2 & Hp2 & Hg2 & Hin2 & Hm2).
    split; [done|]. rewrite Hp in Hm2. destruct Hm2 as [<- Hg']. rewrite Hg in Hg'. injection Hg' as <-. exists p, (found (found g s1 a1) s2 a2).
    destruct (found_int (found g s1 a1) s2 a2) as [l2 El2]. destruct (found_int g s1 a1) as [l1 El1].
    split; [done|]. split; [done|]. split; [rewrite El2; by apply in_prefix|]. split; [done|].
    intros p0 g0 E0 Hg0. rewrite E0 in Hm. destruct Hm as [-> Hg1]. split; [done|]. rewrite Hg0 in Hg1. injection Hg1 as <-.
    exists (l2 ++ l1). by rewrite El2, El1, app_assoc.
Qed.
(** the table before the call, for any larger set of strings *)
Definition pre_table (s : prsw) (G : gmap positive pgh) (R : list (list N * list N)) (t : hst key ptr) : Prop :=
  forall p g, (forall p0 g0, glob (rw s) = Some p0 -> G !! p0 = Some g0 -> p0 = p /\ exists l, q_int g = l ++ q_int g0) -> tab_ok g t R.
Lemma pre_ok al s G R : prs_inv s G R -> palloc_ok al ->
  ok (pre_table s G R) (gfail al) (match rtab s with PNull => hsh_create (pa_hash al) | PTable t => Ret t | PFreed => UB end).
Proof.
  intros [Hh Ht] Hal. destruct (rtab s) as [|t|]; [| |done].
  - subst R. eapply ok_mono; [apply (P_create penv (pa_hash al) (pal_hash _ Hal))| |by left; right].
    intros t Hist p g _. exists (Gh [] 0 0 0 0). split; [done|]. split; [done|]. cbn [g_map]. split; [intros kd Hin; by apply elem_of_nil in Hin|].
    intros k. done.
  - destruct Ht as (HR & p & g & Hp & Hg & Htab). cbn [ok]. intros p' g' Hx. destruct (Hx p g Hp Hg) as [-> Hl]. by eapply tab_mono.
Qed.
(** how much room a str_find takes *)
Lemma found_takes g s a : q_ro (found g s a) = q_ro g /\ (length (s_done (q_mem (found g s a))) <= length (s_done (q_mem g)) + 1)%nat /\
  s_bytes (q_mem (found g s a)) <= s_bytes (q_mem g) + Z.of_nat (length s) + 1.
Proof.
  unfold found. destruct (assoc s (q_int g)); cbn [asked entered set_mem q_mem q_ro stored s_done s_bytes]; (split; [done|]); [lia|].
  rewrite app_length. cbn [length]. lia.
Qed.
Lemma gfind_takes al w G s q a w' G' g' : pool_history w G -> gfind al (w, G) (s, q) a (w', G') -> global_of w' G' g' -> palloc_ok al -> str_ok s ->
  (forall g, global_of w G g -> assoc s (q_int g) = None -> q_ro g = 0 /\ room (q_mem g) (Z.of_nat (length s) + 1)) ->
  exists g, global_of w G g /\ g' = found g s a.
Proof.
  intros Hh Hf Hg Hal Hs Hr. assert (E : str_find al w (s ++ 0%N :: q) = Ret (w', a)) by (by inversion Hf).
  destruct (gfind_inv al w G s q a w' G' Hh Hal Hs Hr E Hf) as (_ & p & g & Hp & Hg' & _ & Hm). unfold global_of in Hg. rewrite Hp, Hg' in Hg. injection Hg as <-.
  exists g. split; [|done]. unfold global_of. destruct (glob w); [destruct Hm as [-> ?]|]; done.
Qed.
Lemma two_takes al w G s1 s2 q1 q2 a1 a2 w1 G1 w2 G2 g' : pool_history w G -> palloc_ok al -> str_ok s1 -> str_ok s2 -> roomy w G s1 s2 ->
  gfind al (w, G) (s1, q1) a1 (w1, G1) -> gfind al (w1, G1) (s2, q2) a2 (w2, G2) -> global_of w2 G2 g' ->
  exists g, global_of w G g /\ q_ro g' = q_ro g /\ (length (s_done (q_mem g')) <= length (s_done (q_mem g)) + 2)%nat /\
    s_bytes (q_mem g') <= s_bytes (q_mem g) + Z.of_nat (length s1) + Z.of_nat (length s2) + 2.
Proof.
  intros Hh Hal Hs1 Hs2 Hr F1 F2 Hg'.
  assert (Hr1 : forall g, global_of w G g -> assoc s1 (q_int g) = None -> q_ro g = 0 /\ room (q_mem g) (Z.of_nat (length s1) + 1)).
  { intros g Hg _. destruct (Hr g Hg) as (H1 & H2 & H3). split; [done|]. unfold room. lia. }
  assert (E : str_find al w (s1 ++ 0%N :: q1) = Ret (w1, a1)) by (by inversion F1).
  destruct (gfind_inv al w G s1 q1 a1 w1 G1 Hh Hal Hs1 Hr1 E F1) as (Hh1 & _).
  assert (Hr2 : forall g, global_of w1 G1 g -> assoc s2 (q_int g) = None -> q_ro g = 0 /\ room (q_mem g) (Z.of_nat (length s2) + 1)).
  { intros g Hg _. destruct (gfind_takes al w G s1 q1 a1 w1 G1 g Hh F1 Hg Hal Hs1 Hr1) as (g0 & Hg0 & ->).
    destruct (Hr g0 Hg0) as (H1 & H2 & H3). apply found_room; lia. }
  destruct (gfind_takes al w1 G1 s2 q2 a2 w2 G2 g' Hh1 F2 Hg' Hal Hs2 Hr2) as (g1 & Hg1 & ->).
  destruct (gfind_takes al w G s1 q1 a1 w1 G1 g1 Hh F1 Hg1 Hal Hs1 Hr1) as (g0 & Hg0 & ->). exists g0. split; [done|].
  destruct (found_takes g0 s1 a1) as (A1 & A2 & A3). destruct (found_takes (found g0 s1 a1) s2 a2) as (B1 & B2 & B3). split; [congruence|]. lia.
Qed.
(** what comes after the two str_finds *)
Definition finish (al : palloc) (t : hst key ptr) (w : pworld) (a d : positive) : res prsw :=
  k ← key_at (mblk (pmem w)) a;
  if keys_live (mblk (pmem w)) t then
    '(t1, _) ← hsh_insert penv (pa_hash al) t k (Some d); Ret (PRS w (PTable t1))
  else UB.
Lemma finish_ok al t w G R p g a d sym con : palloc_ok al -> pool_history w G -> glob w = Some p -> G !! p = Some g -> tab_ok g t R ->
  (sym, a) ∈ q_int g -> (con, d) ∈ q_int g -> ok (fun s' => prs_inv s' G (R ++ [(sym, con)]) /\ rw s' = w) (can_fail (pa_hash al)) (finish al t w a d).
Proof.
  intros Hal Hh Hp Hg Ht Ha Hd. unfold finish. destruct (int_memory w G Hh p g Hg sym a Ha) as [Hs [rest Hm]].
  destruct (key_at_ok (mblk (pmem w)) a sym rest Hs Hm) as (k & -> & Ek & Ev). rb. rewrite (tab_live w G p g t R Hh Hg Ht).
  eapply ok_bind; [apply (tab_insert al g t R k a d con (pal_hash _ Hal) Ht Ek); [by rewrite Ev|done]|].
  intros [t1 r] Ht1. cbn [ok]. split; [|done]. split; [done|]. cbn [rtab rw]. split; [by destruct R|]. rewrite Ev in Ht1. eauto 6.
Qed.
Lemma register_ok first al s G R sym con r1 r2 : prs_inv s G R -> palloc_ok al -> str_ok sym -> str_ok con -> roomy (rw s) G sym con ->
  match prs_register_concrete first al s (sym ++ 0%N :: r1) (con ++ 0%N :: r2) with
  | Ret s' => exists x y a1 a2 w1 G1 G', (x, y) = (if first then ((sym, r1), (con, r2)) else ((con, r2), (sym, r1))) /\
      gfind al (rw s, G) x a1 (w1, G1) /\ gfind al (w1, G1) y a2 (rw s', G')
  | Fatal => gfail al
  | _ => False
  end /\
  (forall s' x y a1 a2 w1 G1 G', prs_register_concrete first al s (sym ++ 0%N :: r1) (con ++ 0%N :: r2) = Ret s' ->
     (x, y) = (if first then ((sym, r1), (con, r2)) else ((con, r2), (sym, r1))) ->
     gfind al (rw s, G) x a1 (w1, G1) -> gfind al (w1, G1) y a2 (rw s', G') -> prs_inv s' G' (R ++ [(sym, con)])).
Proof.
  intros Hinv Hal Hsym Hcon Hroom. pose proof Hinv as [Hh _]. pose proof (pre_ok al s G R Hinv Hal) as Hpre.
  assert (Hroom' : roomy (rw s) G con sym).
  { intros g Hg. destruct (Hroom g Hg) as (H1 & H2 & H3). split; [done|]. split; [done|]. lia. }
  unfold prs_register_concrete. destruct (match rtab s with PNull => _ | PTable _ => _ | PFreed => _ end) as [t| | | |]; cbn [ok] in Hpre; try done. rb.
  assert (Hend : forall w w' a d G' p g, rw s = w -> pool_history w' G' -> glob w' = Some p -> G' !! p = Some g ->
     (sym, a) ∈ q_int g -> (con, d) ∈ q_int g ->
     (forall p0 g0, glob (rw s) = Some p0 -> G !! p0 = Some g0 -> p0 = p /\ exists l, q_int g = l ++ q_int g0) ->
     ok (fun s' => prs_inv s' G' (R ++ [(sym, con)]) /\ rw s' = w') (can_fail (pa_hash al)) (finish al t w' a d)).
  { intros w w' a d G' p g _ Hh' Hp Hg Ha Hd Hx. eapply finish_ok; try done. by apply (Hpre p g). }
  destruct first; unfold find_both.
  - destruct (two_ok al (rw s) G sym con r1 r2 Hh Hal Hsym Hcon Hroom) as [T1 T2].
    destruct (str_find al (rw s) (sym ++ 0%N :: r1)) as [[w1 a1]| | | |] eqn:E1; try done. cbn [mbind res_bind] in T1 |- *.
    destruct (str_find al w1 (con ++ 0%N :: r2)) as [[w2 a2]| | | |] eqn:E2; try done. cbn [mbind res_bind] in T1 |- *.
    destruct T1 as (G1 & G2 & F1 & F2). fold (finish al t w2 a1 a2). split.
    + destruct (T2 w1 a1 w2 a2 G1 G2 eq_refl E2 F1 F2) as (Hh2 & p & g & Hp & Hg & Ha & Hd & Hx).
      pose proof (Hend _ w2 a1 a2 G2 p g eq_refl Hh2 Hp Hg Ha Hd Hx) as Hf. destruct (finish al t w2 a1 a2) as [s'| | | |]; cbn [ok] in Hf; try done; [|by left; right].
      destruct Hf as [_ <-]. eauto 12.
    + intros s' x y b1 b2 v1 H1 H2 E Exy K1 K2. injection Exy as -> ->.
      assert (v1 = w1 /\ b1 = a1) as [-> ->] by (inversion K1; subst; split; congruence).
      assert (rw s' = w2 /\ b2 = a2) as [Hw ->] by (inversion K2; subst; split; congruence). rewrite Hw in K2.
      destruct (T2 w1 a1 w2 a2 H1 H2 eq_refl E2 K1 K2) as (Hh2 & p & g & Hp & Hg & Ha & Hd & Hx).
      pose proof (Hend _ w2 a1 a2 H2 p g eq_refl Hh2 Hp Hg Ha Hd Hx) as Hf. rewrite E in Hf. apply Hf.
  - destruct (two_ok al (rw s) G con sym r2 r1 Hh Hal Hcon Hsym Hroom') as [T1 T2].
    destruct (str_find al (rw s) (con ++ 0%N :: r2)) as [[w1 a1]| | | |] eqn:E1; try done. cbn [mbind res_bind] in T1 |- *.
    destruct (str_find al w1 (sym ++ 0%N :: r1)) as [[w2 a2]| | | |] eqn:E2; try done. cbn [mbind res_bind] in T1 |- *.
    destruct T1 as (G1 & G2 & F1 & F2). fold (finish al t w2 a2 a1). split.
    + destruct (T2 w1 a1 w2 a2 G1 G2 eq_refl E2 F1 F2) as (Hh2 & p & g & Hp & Hg & Ha & Hd & Hx).
      pose proof (Hend _ w2 a2 a1 G2 p g eq_refl Hh2 Hp Hg Hd Ha Hx) as Hf. destruct (finish al t w2 a2 a1) as [s'| | | |]; cbn [ok] in Hf; try done; [|by left; right].
      destruct Hf as [_ <-]. eauto 12.
    + intros s' x y b1 b2 v1 H1 H2 E Exy K1 K2. injection Exy as -> ->.
      assert (v1 = w1 /\ b1 = a1) as [-> ->] by (inversion K1; subst; split; congruence).
      assert (rw s' = w2 /\ b2 = a2) as [Hw ->] by (inversion K2; subst; split; congruence). rewrite Hw in K2.
      destruct (T2 w1 a1 w2 a2 H1 H2 eq_refl E2 K1 K2) as (Hh2 & p & g & Hp & Hg & Ha & Hd & Hx).
      pose proof (Hend _ w2 a2 a1 H2 p g eq_refl Hh2 Hp Hg Hd Ha Hx) as Hf. rewrite E in Hf. apply Hf.
Qed.
(** a string call in between *)
Lemma string_ok s G R w' G' : prs_inv s G R -> pcall (rw s, G) (w', G') -> (R = [] \/ glob w' = glob (rw s)) -> prs_inv (PRS w' (rtab s)) G' R.
Proof.
  intros [Hh Ht] Hc Hor. split; cbn [rw rtab]; [by eapply history_step|]. destruct (rtab s) as [|t|]; [done| |done].
  destruct Ht as (HR & p & g & Hp & Hg & Htab). split; [done|]. destruct Hor as [|Hgl]; [done|]. rewrite Hgl.
  destruct (st_inv w' G' (history_step _ _ _ _ Hh Hc)) as [GM I]. cbn [fst snd] in I. destruct (wi_glob _ _ _ I p) as [g' Hg']; [by rewrite Hgl|].
  exists p, g'. split; [done|]. split; [done|]. eapply tab_mono; [exact Htab|]. by eapply (pcall_keep p _ _ g g' (st_inv _ _ Hh) Hc).
Qed.
Lemma prs_history_inv s G R : prs_history s G R -> prs_inv s G R.
Proof.
  induction 1 as [|s G R w' G' _ IH Hc Hor|first al s G R sym con r1 r2 s' x y a1 a2 w1 G1 G' _ IH Hal H1 H2 Hr E Exy F1 F2
    |s G R sym rest s' r _ IH Hs E|s G nodes _ IH E].
  - split; [|done]. apply rtc_refl.
  - by apply (string_ok s G R w' G').
  - destruct (register_ok first al s G R sym con r1 r2 IH Hal H1 H2 Hr) as [_ H]. by eapply H.
  - destruct (concrete_ok s G R sym rest IH Hs) as (s1 & r1 & E1 & Hi & _). rewrite E in E1. by injection E1 as -> _.
  - done.
Qed.
Lemma shutdown_ok s G R : prs_inv s G R ->
  prs_shutdown s = Ret (match rtab s with PNull => s | _ => PRS (rw s) PFreed end, ∅).
Proof.
  intros [Hh Ht]. unfold prs_shutdown. destruct (rtab s) as [|t|]; [done| |done]. destruct Ht as (_ & p & g & _ & _ & gh & Hist & Hro & _).
  rewrite (proj2 (P_nodes penv t gh penv_good Hist) Hro). by rb.
Qed.
