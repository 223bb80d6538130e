(** C76-C81: the start and the end of a session with the library. *)
From Verif Require Import Base CStr ListLemmas StackModel ObjModel MemModel MemProofs MemHist ListModel ListProofs ListHist SkipModel SkipSpec SkipHist ArgModel PrModel PrSpec PrProofs PrHist PrProps2 LogModel LogSpec LogProps.
From Verif Require Import PrimeModel HashModel HashSpec HashProofs HashOps HashHist HashFnModel HashFnProofs NameTab FlagModel FlagSpec FlagProofs FlagHist FlagProps TimerModel TimerSpec TimerProofs TimerProps.
From Verif Require Import StrModel StrProofs StrHist StrProps PrsModel PrsSpec PrsProofs MaaModel MaaSpec MaaLists MaaSkips MaaProofs.
From stdpp Require Import sorting.
From Coq Require Import String.
Notation length := List.length.
Local Open Scope Z_scope.

Definition with_init {K} (k : know K) (c : clock) (l : names) : know K :=
  Kn (<[bytes "total"%string := start c (k_tim k !! bytes "total"%string)]> (k_tim k)) (k_ul k) (k_ue k) l (k_de k)
     (k_reg k) (k_kids k) (k_pools k) (k_conc k) (k_lst k) (k_sl k) (k_sln k).

Definition init_list : list (N * list N) :=
  [(MAA_MEMORY, t_memory); (MAA_TIME, t_time); (MAA_PR, t_pr); (MAA_SL, t_sl); (MAA_SRC, t_src); (MAA_PARSE, t_parse)].
Lemma init_list_ok : Forall (fun fn => str_ok fn.2 /\ malformed fn.1 = false /\ (fn.1 < 2 ^ 64)%N) init_list.
Proof. repeat (apply Forall_cons_2; [split; [by apply str_ok_b|split; [vm_compute; reflexivity|vm_compute; reflexivity]]|]). apply Forall_nil_2. Qed.
(** the same six names, the last two in the other order *)
Lemma lookup_swap n a x b y l : a <> b -> lookup_name n ((a, x) :: (b, y) :: l) = (lookup_name n ((b, y) :: (a, x) :: l) : option N).
Proof. intros H. cbn [lookup_name]. destruct (decide (a = n)), (decide (b = n)); congruence. Qed.
Lemma init_list_names n : lookup_name n ((fun fn => (fn.2, fn.1)) <$> init_list) = lookup_name n library_flags.
Proof.
  change library_flags with ([(t_memory, MAA_MEMORY); (t_time, MAA_TIME); (t_pr, MAA_PR); (t_sl, MAA_SL); (t_parse, MAA_PARSE); (t_src, MAA_SRC)]).
  cbn [fmap list_fmap init_list fst snd]. cbn [lookup_name]. do 4 (match goal with |- context [decide (?a = n)] => destruct (decide (a = n)) end; [reflexivity|]).
  apply (lookup_swap n t_src MAA_SRC t_parse MAA_PARSE []). discriminate.
Qed.
(** ** C76: maa_init *)
(** it starts the timer "total", sets the program name, and names the six flags of the library
    (a name that is registered already keeps its flag).  Nothing else changes: no flag is turned on or off *)
Theorem C76_init : forall K (w : maaw K) k al c pname, session w k ->
  talloc_ok (ma_tim al) -> (forall i, halloc_ok (ma_dbg al i)) -> wf_clock c ->
  ok (fun w' => exists l', session w' (with_init k c (Some l')) /\
        (forall n, find_in (Some l') n = match find_in (k_dl k) n with Some f => Some f | None => lookup_name n library_flags end) /\
        match pname, lprog (m_log w') with Some s, Some b => basename s b | None, None => True | _, _ => False end /\
        ltr (m_log w') = ltr (m_log w))
     (tfail (ma_tim al) \/ exists i, can_fail (ma_dbg al i)) (maa_init al c w pname).
Proof.
  intros K w k al c pname S Ht Hd Hc. unfold maa_init. destruct S.
  pose proof (C49_start (ma_tim al) (m_tim w) (k_tim k) c t_total [] ss_tim Ht Hc total_ok) as H1.
  destruct (tim_start (ma_tim al) (m_tim w) c (Some (t_total ++ [0%N]))) as [t| | | |]; cbn [mbind res_bind ok]; [|left; exact H1|exact H1|exact H1|exact H1].
  destruct (C47_set_program_name (m_log w) pname) as (lg & b & E & Eb & Etr & Hb). rewrite E. rb.
  destruct (register_all_ok (ma_dbg al) init_list (m_dbg w) (k_dl k) (k_de k) Hd ss_dbg init_list_ok) as [Hx|H2]; [discriminate Hx|].
  eapply (ok_bind (fun d => exists l', flag_history true d (Some l') (k_de k) /\
      forall n, find_in (Some l') n = match find_in (k_dl k) n with Some f => Some f | None => lookup_name n library_flags end)).
  - eapply ok_mono; [exact H2| |intros [i Hi]; right; exists i; exact Hi]. intros d (l' & Hl & Hf). exists l'. split; [exact Hl|]. intros n. rewrite Hf.
    destruct (find_in (k_dl k) n); [reflexivity|]. apply init_list_names.
  - intros d (l' & Hl & Hf). cbn [ok]. exists l'. split.
    + constructor; cbn [m_tim m_log m_flg m_dbg m_pr m_prs m_lst m_sl with_init k_tim k_ul k_ue k_dl k_de k_reg k_kids k_pools k_conc k_lst k_sl k_sln]; try assumption.
    + split; [exact Hf|]. cbn [m_log]. unfold err_program_name, get, bind, ret in Eb. cbn in Eb. injection Eb as Hlp. rewrite Hlp. split; [exact Hb|exact Etr].
Qed.
Print Assumptions C76_init.

(** from a fresh start the names give exactly the library's flags: naming one turns on that flag and no other *)
Theorem C76_flag : forall K t (w' : maaw K) al c pname, files t ->
  talloc_ok (ma_tim al) -> (forall i, halloc_ok (ma_dbg al i)) -> wf_clock c -> maa_init al c (maa_start t) pname = Ret w' ->
  forall n f rest, (n, f) ∈ library_flags ->
  exists d, dbg_set (m_dbg w') (Some (n ++ 0%N :: rest)) = Ret d /\
    forall k i, (k < 4)%N -> k <> 2%N -> (i < 30)%N -> (on d (fl k i) <-> fl k i = f).
Proof.
  intros K t w' al c pname Ht Ha Hd Hc E n f rest Hn.
  assert (S : session (K := K) (maa_start t) (Kn ∅ None [] None [] ∅ [] ∅ [] (LG ∅ 0 0) ∅ 0)).
  { constructor; cbn; [constructor|constructor|constructor|by constructor|constructor|constructor|constructor]. }
  pose proof (C76_init K _ _ al c pname S Ha Hd Hc) as H. rewrite E in H. cbn [ok] in H. destruct H as (l' & S' & Hl & _).
  pose proof (ss_dbg _ _ S') as H. cbn [with_init k_dl k_de] in H. cbn [k_dl find_in] in Hl.
  assert (Hf : lookup_name n library_flags = Some f /\ str_ok n /\ n <> [] /\ exists i, f = fl 3 i /\ (i < 30)%N).
  { clear -Hn. unfold library_flags in Hn. repeat (apply elem_of_cons in Hn as [Hn|Hn]; [injection Hn as -> ->; split; [vm_compute; reflexivity|];
      split; [by apply str_ok_b|]; split; [discriminate|]; eexists; split; [reflexivity|lia]|]). by apply elem_of_nil in Hn. }
  destruct Hf as (Hf & Hs & Hne & i & -> & Hi).
  assert (Hnn : n <> [110; 111; 110; 101]%N /\ n <> [97; 108; 108]%N).
  { clear -Hn. unfold library_flags in Hn. repeat (apply elem_of_cons in Hn as [Hn|Hn]; [injection Hn as -> _; split; discriminate|]). by apply elem_of_nil in Hn. }
  destruct Hnn as [Hn1 Hn2].
  pose proof (C45_dbg_set (m_dbg w') l' [] n rest H Hs Hne) as H1. unfold dbg_effect in H1. rewrite !decide_False in H1 by assumption.
  change (find_in (Some l') n) with (lookup_name n l') in H1. rewrite (Hl n), Hf in H1. destruct H1 as [H1 _].
  destruct H1 as (d & Ed & Hd'); [apply Forall_cons_2; [apply fl_lt; lia|apply Forall_nil_2]|].
  exists d. split; [exact Ed|]. intros k j Hk Hk2 Hj.
  assert (E2 : (if (k =? 2)%N then 3%N else k) = k) by (destruct (N.eqb_spec k 2); [contradiction|reflexivity]). rewrite (on_fl _ _ _ _ _ _ Hd') by assumption. cbn [app lit].
  rewrite ?E2, fl_set, fl_bit by assumption.
  split.
  - destruct (N.eqb_spec 3 k) as [<-|]; [|done]. destruct (N.eqb_spec i j) as [<-|]; done.
  - intros Ef. assert (Ek : set_of (fl k j) = 3%N) by (rewrite Ef; by apply fl_set). rewrite fl_set in Ek by assumption. subst k.
    assert (Eb : N.testbit (fl 3 i) j = true) by (rewrite <- Ef, fl_bit, N.eqb_refl; done). rewrite fl_bit in Eb by assumption. rewrite Eb. done.
Qed.
Print Assumptions C76_flag.

(** ** C77: maa_shutdown *)
(** what the global string pool reports; zeros if it was never used *)
Definition pool_line {K} (w : maaw K) (k : know K) (o : outev) : Prop :=
  exists count bytes retrievals hits misses, o = OStats (glob (rw (m_prs w))) count bytes retrievals hits misses /\
    match glob (rw (m_prs w)) with
    | None => count = 0 /\ bytes = 0 /\ retrievals = 0 /\ hits = 0 /\ misses = 0
    | Some p => forall g, k_pools k !! p = Some g ->
        count = Z.of_nat (length (s_done (q_mem g))) /\ bytes = s_bytes (q_mem g) /\
        retrievals = to_int (Z.of_N (u64 (q_retr g))) /\ misses = to_int (Z.of_N (u64 (q_miss g)))
    end.
(** a line for each timer *)
Definition timer_lines (M : timers) (lines : list (list N * (Z * Z * Z))) : Prop :=
  NoDup lines.*1 /\ forall n r u y, (n, (r, u, y)) ∈ lines <-> exists t, M !! n = Some t /\ r = wall t /\ u = user t /\ y = system t.
(** the processes of the registered descriptors, by descriptor *)
Definition by_descriptor (R : gmap Z Z) (L : list (Z * Z)) : Prop :=
  StronglySorted Z.lt L.*1 /\ forall fd pid, (fd, pid) ∈ L <-> R !! fd = Some pid.
(** [memory], [time]: whether the flags .memory and .time are on *)
Definition said {K} (version : list N) (memory time : bool) (c : clock) (tot : timer) (w : maaw K) (k : know K) (out : list outev) : Prop :=
  exists stats L lines, pool_line w k stats /\ by_descriptor (k_reg k) L /\
    timer_lines (<[bytes "total"%string := stop c tot]> (k_tim k)) lines /\
    out = (if memory || time then [OVersion version] else []) ++ (if memory then [stats] else []) ++
          (L ≫= fun x => [OSys (Kill x.2); OSys (Wait x.2)]) ++ (if time then [OTimers lines] else []).
(** timers, flags of both kinds, the table of processes, the global pool and its strings, the memory of all lists
    and skip lists: gone.  The log, the descriptors, the other pools and the table of concrete names: as before *)
Record cleared {K} (w : maaw K) (k : know K) (w' : maaw K) : Prop := {
  cl_tim : m_tim w' = tstart; cl_flg : m_flg w' = fempty; cl_dbg : m_dbg w' = fempty;
  cl_log : m_log w' = m_log w;
  cl_pr : p_objs (m_pr w') = None; cl_tab : p_tab (m_pr w') = p_tab (m_pr w);
  cl_glob : glob (rw (m_prs w')) = None; cl_conc : rtab (m_prs w') = rtab (m_prs w);
  cl_pools : pool_history (rw (m_prs w')) (without_global (rw (m_prs w)) (k_pools k));
  cl_str : forall p g s a, glob (rw (m_prs w)) = Some p -> k_pools k !! p = Some g -> (s, a) ∈ q_int g ->
             mblk (pmem (rw (m_prs w'))) !! a = None;
  cl_lst : lmem (m_lst w') = None /\ oblk (lobj (m_lst w')) = ∅ /\ oinf (lobj (m_lst w')) = ∅;
  cl_sl : smem (m_sl w') = None /\ oblk (sobj (m_sl w')) = ∅ /\ oinf (sobj (m_sl w')) = ∅ }.

Lemma dbg_29 : MAA_MEMORY = fl 3 29. Proof. vm_compute. reflexivity. Qed.
Lemma dbg_28 : MAA_TIME = fl 3 28. Proof. vm_compute. reflexivity. Qed.
Lemma prs_pool s G R : prs_history s G R -> pool_history (rw s) G.
Proof. intros H. by destruct (prs_history_inv _ _ _ H). Qed.
Lemma pr_down w R C ans : pr_history (PS w R C) -> (size R <= answers ans)%nat ->
  exists w' L, pr_shutdown w ans = Ret (w', L ≫= fun x => [Kill x.2; Wait x.2]) /\ by_descriptor R L /\ p_objs w' = None /\ p_tab w' = p_tab w.
Proof.
  intros H Ha. destruct (C58_returns w R C ans H Ha) as (w' & tr & E & _). destruct (C58_shutdown w R C ans H) as (L & H1 & H2 & H3).
  rewrite E in H3. destruct H3 as (-> & Ht & _). exists w', L. split; [exact E|]. split; [by split|]. split; [|exact Ht].
  unfold pr_shutdown in E. destruct (p_objs w) eqn:Eo; [|by injection E as <- _].
  destruct (shutdown_loop _ _); cbn [mbind res_bind] in E; [|done..]. by injection E as <- _.
Qed.
Lemma str_down w G R : prs_history w G R -> (forall p g, glob (rw w) = Some p -> G !! p = Some g -> q_ro g = 0) ->
  exists s', str_destroy (rw w) = Ret (s', ∅) /\ glob s' = None /\ pool_history s' (without_global (rw w) G) /\
    (forall p g s a, glob (rw w) = Some p -> G !! p = Some g -> (s, a) ∈ q_int g -> mblk (pmem s') !! a = None) /\
    (s' = rw w \/ StrHist.pcall (rw w, G) (s', without_global (rw w) G)).
Proof.
  intros H Hi. pose proof (prs_pool _ _ _ H) as Hp. pose proof (str_destroy_ok _ _ Hp) as D. unfold without_global.
  destruct (glob (rw w)) as [p|] eqn:Hgl.
  - destruct D as (g & Hg & D). rewrite decide_True in D by (by eapply Hi). destruct D as (w' & E & Hc & Hn & _ & Hx). exists w'.
    split; [done|]. split; [done|]. split; [eapply rtc_r; [exact Hp|exact Hc]|]. split; [|by right].
    intros p' g' s a [= <-] Hg'. assert (g' = g) as -> by congruence. by apply Hx.
  - exists (rw w). split; [done|]. split; [done|]. split; [done|]. split; [intros; done|by left].
Qed.

Theorem C77_shutdown : forall K (w : maaw K) k tot a b t v mem pal tal c ans, session w k ->
  k_tim k !! bytes "total"%string = Some tot -> talloc_ok tal -> wf_clock c -> pool_idle w k -> small_pool w k ->
  (size (k_reg k) <= answers ans)%nat -> maa_version a b t = Ret v ->
  let memory := lit (k_de k) 3 29 in let time := lit (k_de k) 3 28 in
  ok (fun '(w', out, nodes) => said v memory time c tot w k out /\ cleared w k w' /\ nodes = LO ∅ ∅ ∅ ∅ /\
        lhs (m_lst w') = lhs (m_lst w) /\ sent (m_sl w') = sent (m_sl w))
     (memory = true /\ (mem = false \/ blk_alloc (pa_hash pal) 72 = false))
     (maa_shutdown (a, b, t) mem pal tal c ans w).
Proof.
  intros K w k tot a b t v mem pal tal c ans S Htot Hal Hc Hidle Hsmall Hans Hv memory time. unfold maa_shutdown.
  destruct (test_lit _ _ _ 29 (ss_dbg _ _ S) ltac:(lia)) as (m & Em & Hm).
  destruct (test_lit _ _ _ 28 (ss_dbg _ _ S) ltac:(lia)) as (tm & Et & Htm).
  rewrite dbg_29, dbg_28, Em, Et. rb. rewrite Hm. fold memory in Hm |- *.
  assert (E1 : exists x, (if memory then Ret 1 else Ret tm) = Ret x /\ negb (x =? 0) = memory || time).
  { destruct memory; [by exists 1|]. exists tm. split; [reflexivity|]. rewrite Htm. reflexivity. }
  destruct E1 as (x & E1 & Hx). rewrite E1. rb. rewrite Hx, Hv, ?Hm. rb.
  assert (E2 : (if memory || time then Ret [OVersion v] else Ret []) = Ret (if memory || time then [OVersion v] else [])) by (by destruct (memory || time)).
  rewrite E2. rb. rewrite ?Hm. set (o1 := if memory || time then [OVersion v] else []).
  eapply (ok_bind (fun o2 => exists stats, pool_line w k stats /\ o2 = if memory then [stats] else [])).
  { pose proof (print_stats_ok pal (rw (m_prs w)) (k_pools k) (prs_pool _ _ _ (ss_prs _ _ S)) Hsmall) as Hps.
    destruct memory.
    - eapply ok_mono; [apply (Hps mem)| |intros Hf; split; [reflexivity|exact Hf]]. intros o (n1 & n2 & n3 & n4 & n5 & -> & Hn). eexists. split; [|reflexivity]. unfold pool_line. eauto 8.
    - cbn [ok]. specialize (Hps true). unfold pool_line.
      destruct (glob (rw (m_prs w))) as [p|] eqn:Hgl.
      + destruct (k_pools k !! p) as [g|] eqn:Hg.
        * eexists. split; [|reflexivity]. do 3 eexists. exists 0. eexists. split; [reflexivity|]. intros g' Hg'. assert (g' = g) as -> by congruence. eauto.
        * eexists. split; [|reflexivity]. exists 0, 0, 0, 0, 0. split; [reflexivity|]. intros g' Hg'. congruence.
      + eexists. split; [|reflexivity]. do 5 eexists. split; [reflexivity|]. done. }
  intros o2 (stats & Hstats & ->).
  destruct (pr_down _ _ _ ans (ss_pr _ _ S) Hans) as (p' & L & Ep & HL & Hp1 & Hp2). rewrite Ep. rb.
  destruct (str_down _ _ _ (ss_prs _ _ S) Hidle) as (s' & Es & Hs1 & Hs2 & Hs3 & _). rewrite Es. rb.
  destruct (k_lst k) as [LH Ln Lt] eqn:EL.
  pose proof (ss_lst _ _ S) as HS. rewrite EL in HS. destruct (lst_shutdown_ok _ _ _ _ HS) as (l' & El & Hl1 & Hl2 & Hl3 & Hl4 & _). rewrite El. rb.
  destruct (sl_shutdown_ok _ _ _ (ss_sl _ _ S)) as (q' & Eq & Hq1 & Hq2 & Hq3 & Hq4 & _). rewrite Eq. rb.
  destruct (C49_stop tal (m_tim w) (k_tim k) c t_total [] tot (ss_tim _ _ S) Hal Hc total_ok Htot) as (t1 & E4 & Ht1). rewrite E4. rb.
  rewrite Htm. fold time.
  destruct (C64_print_timers tal t1 _ Ht1 Hal) as (t2 & lines & E5 & Ht2 & Hli1 & Hli2).
  assert (E6 : exists t3, (if time then '(t', out) ← tim_print_timers tal t1; Ret (t', [OTimers out]) else Ret (t1, [])) =
     Ret (t3, if time then [OTimers lines] else []) /\ tim_shutdown t3 = Ret (tstart, ∅)).
  { destruct time.
    - exists t2. rewrite E5. split; [reflexivity|]. destruct (tim_inv _ _ Ht2) as [l Hl]. by eapply TimerProofs.shutdown_ok.
    - exists t1. split; [reflexivity|]. destruct (tim_inv _ _ Ht1) as [l Hl]. by eapply TimerProofs.shutdown_ok. }
  destruct E6 as (t3 & E6 & E7). rewrite E6. rb. rewrite E7. rb.
  change (flg_destroy (m_flg w)) with (dbg_destroy (m_flg w)).
  rewrite (C63_destroy _ _ _ _ (ss_flg _ _ S)), (C63_destroy _ _ _ _ (ss_dbg _ _ S)). rb. cbn [ok].
  split.
  { exists stats, L, lines. split; [exact Hstats|]. split; [exact HL|]. split.
    - split; [exact Hli1|]. exact Hli2.
    - subst o1. f_equal. f_equal. f_equal. clear. induction L as [|y L IH]; [reflexivity|]. cbn [mbind list_bind]. rewrite fmap_app, IH. reflexivity. }
  split.
  { constructor; cbn [m_tim m_log m_flg m_dbg m_pr m_prs m_lst m_sl rw rtab]; try assumption; try reflexivity; auto. }
  split; [reflexivity|]. split; [exact Hl4|exact Hq4].
Qed.
Print Assumptions C77_shutdown.

(** ** C78: a second session *)
Lemma shutdown_parts {K} ver mem pal tal c ans (w w' : maaw K) out nodes : maa_shutdown ver mem pal tal c ans w = Ret (w', out, nodes) ->
  (exists sys, pr_shutdown (m_pr w) ans = Ret (m_pr w', sys)) /\ (exists h, str_destroy (rw (m_prs w)) = Ret (rw (m_prs w'), h)) /\
  rtab (m_prs w') = rtab (m_prs w) /\ lst_shutdown (m_lst w) = Ret (m_lst w') /\ sl_shutdown (m_sl w) = Ret (m_sl w').
Proof.
  destruct ver as [[a b] t]. unfold maa_shutdown. intros E.
  repeat match type of E with
    | (?m ≫= _) = Ret _ => let x := fresh "x" in let H := fresh "H" in destruct m as [x| | | |] eqn:H; cbn [mbind res_bind] in E; [|discriminate E..]; try match type of x with (_ * _)%type => destruct x end
    end.
  injection E as <- _ _. cbn. eauto 8.
Qed.
(** if no list, no skip list and no concrete name was left and all registered descriptors were closed, the library can be used
    again as if it had never been used before -- except that the pools the user made are still there *)
Theorem C78_again : forall K (w w' : maaw K) k tot a b t v mem pal tal c ans out nodes, session w k ->
  k_tim k !! bytes "total"%string = Some tot -> talloc_ok tal -> wf_clock c -> pool_idle w k -> small_pool w k ->
  maa_version a b t = Ret v -> k_reg k = ∅ -> k_conc k = [] -> g_lists (k_lst k) = ∅ -> k_sl k = ∅ ->
  maa_shutdown (a, b, t) mem pal tal c ans w = Ret (w', out, nodes) ->
  session w' (Kn ∅ None [] None [] ∅ (k_kids k) (without_global (rw (m_prs w)) (k_pools k)) [] (LG ∅ 0 (g_total (k_lst k))) ∅ 0).
Proof.
  intros K w w' k tot a b t v mem pal tal c ans out nodes S Htot Hal Hc Hidle Hsmall Hv HR HC HL HS E.
  pose proof (C77_shutdown K w k tot a b t v mem pal tal c ans S Htot Hal Hc Hidle Hsmall) as H77. rewrite HR in H77.
  specialize (H77 ltac:(rewrite map_size_empty; lia) Hv). rewrite E in H77. cbv beta zeta in H77. cbn [ok] in H77. destruct H77 as (_ & HC' & _). destruct HC'.
  destruct (shutdown_parts _ _ _ _ _ _ _ _ _ _ E) as ((sys & Ep) & (h & Es) & Er & El & Eq). destruct S. constructor; cbn [k_tim k_ul k_ue k_dl k_de k_reg k_kids k_pools k_conc k_lst k_sl k_sln].
  - rewrite cl_tim0. constructor.
  - rewrite cl_flg0. constructor.
  - rewrite cl_dbg0. constructor.
  - rewrite HR in ss_pr. eapply PrHist.ph_step; [exact ss_pr|]. eapply PrHist.pc_shutdown. exact Ep.
  - rewrite HC in ss_prs. destruct (str_down _ _ _ ss_prs Hidle) as (s' & Es' & Hg & _ & _ & Hd). rewrite Es in Es'. injection Es' as <- _.
    destruct Hd as [Hd|Hd].
    + replace (m_prs w') with (m_prs w) by (destruct (m_prs w), (m_prs w'); cbn in *; congruence).
      rewrite Hd in Hg. unfold without_global. rewrite Hg. exact ss_prs.
    + replace (m_prs w') with (PRS (rw (m_prs w')) (rtab (m_prs w))) by (destruct (m_prs w'); cbn in *; congruence).
      eapply ph_string; [exact ss_prs|exact Hd|by left].
  - destruct (k_lst k) as [LH Ln Lt]. cbn in HL. subst LH. cbn [g_total]. eapply lh_shutdown; [exact ss_lst|exact El].
  - rewrite HS in ss_sl. eapply sh_shutdown; [exact ss_sl|exact Eq].
Qed.
Print Assumptions C78_again.

(** ** C79: when maa_shutdown aborts *)
(** without the timer "total", that is before maa_init or when called a second time *)
Theorem C79_no_total : forall K (w : maaw K) k a b t v mem pal tal c ans, session w k ->
  k_tim k !! bytes "total"%string = None -> talloc_ok tal -> pool_idle w k -> small_pool w k ->
  (size (k_reg k) <= answers ans)%nat -> maa_version a b t = Ret v ->
  maa_shutdown (a, b, t) mem pal tal c ans w = Abort \/
  (maa_shutdown (a, b, t) mem pal tal c ans w = Fatal /\ (tfail tal \/ mem = false \/ blk_alloc (pa_hash pal) 72 = false)).
Proof.
  intros K w k a b t v mem pal tal c ans S Htot Hal Hidle Hsmall Hans Hv. unfold maa_shutdown.
  destruct (test_lit _ _ _ 29 (ss_dbg _ _ S) ltac:(lia)) as (m & Em & Hm).
  destruct (test_lit _ _ _ 28 (ss_dbg _ _ S) ltac:(lia)) as (tm & Et & Htm).
  rewrite dbg_29, dbg_28, Em, Et. rb. rewrite !Hm.
  set (memory := lit (k_de k) 3 29) in *. set (time := lit (k_de k) 3 28) in *.
  assert (E1 : exists x, (if memory then Ret 1 else Ret tm) = Ret x) by (destruct memory; eauto).
  destruct E1 as (x & E1). rewrite E1. rb. rewrite Hv. rb.
  assert (E2 : exists o1, (if negb (x =? 0) then Ret [OVersion v] else Ret []) = Ret o1) by (destruct (negb (x =? 0)); eauto).
  destruct E2 as (o1 & E2). rewrite E2. rb. rewrite ?Hm.
  assert (E3 : (exists o2, (if memory then str_print_stats mem pal (rw (m_prs w)) else Ret []) = Ret o2) \/
    ((if memory then str_print_stats mem pal (rw (m_prs w)) else Ret []) = Fatal /\ (mem = false \/ blk_alloc (pa_hash pal) 72 = false))).
  { pose proof (print_stats_ok pal (rw (m_prs w)) (k_pools k) (prs_pool _ _ _ (ss_prs _ _ S)) Hsmall mem) as Hps.
    destruct memory; [|eauto]. destruct (str_print_stats mem pal (rw (m_prs w))); cbn [ok] in Hps; [eauto|auto|contradiction|contradiction|contradiction]. }
  destruct E3 as [(o2 & E3)|(E3 & Hf)]; rewrite E3; [rb|right; split; [reflexivity|auto]].
  destruct (pr_down _ _ _ ans (ss_pr _ _ S) Hans) as (p' & L & Ep & _). rewrite Ep. rb.
  destruct (str_down _ _ _ (ss_prs _ _ S) Hidle) as (s' & Es & _). rewrite Es. rb.
  destruct (k_lst k) as [LH Ln Lt] eqn:EL.
  pose proof (ss_lst _ _ S) as HS. rewrite EL in HS. destruct (lst_shutdown_ok _ _ _ _ HS) as (l' & El & _). rewrite El. rb.
  destruct (sl_shutdown_ok _ _ _ (ss_sl _ _ S)) as (q' & Eq & _). rewrite Eq. rb.
  destruct (C49_unknown tal (m_tim w) (k_tim k) t_total [] c (fun _ => 0) (ss_tim _ _ S) Hal total_ok Htot _ (or_introl eq_refl)) as [E4|[E4 Hf]].
  - rewrite E4. left. reflexivity.
  - rewrite E4. right. split; [reflexivity|auto].
Qed.
Theorem C79_twice : forall K (w w' : maaw K) k ver mem pal tal c ans, cleared w k w' -> talloc_ok tal ->
  maa_shutdown ver mem pal tal c ans w' = Abort \/ (maa_shutdown ver mem pal tal c ans w' = Fatal /\ tfail tal).
Proof.
  intros K w w' k [[a b] t] mem pal tal c ans C Hal. destruct C. destruct cl_lst0 as (Hl & _), cl_sl0 as (Hs & _).
  unfold maa_shutdown. rewrite cl_dbg0, cl_tim0. unfold pr_shutdown. rewrite cl_pr0.
  assert (E1 : dbg_test fempty MAA_MEMORY = Ret 0) by reflexivity. assert (E2 : dbg_test fempty MAA_TIME = Ret 0) by reflexivity.
  rewrite E1. cbn [mbind res_bind]. cbn [Z.eqb negb]. rewrite E2. cbn [mbind res_bind]. cbn [Z.eqb negb]. cbn [mbind res_bind].
  unfold str_destroy. rewrite cl_glob0. cbn [mbind res_bind]. unfold lst_shutdown, sl_shutdown. rewrite Hl, Hs. cbn [mbind res_bind].
  destruct (C49_unknown tal tstart ∅ t_total [] c (fun _ => 0) th_init Hal total_ok (lookup_empty _) _ (or_introl eq_refl)) as [E4|[E4 Hf]].
  - rewrite E4. left. reflexivity.
  - rewrite E4. right. split; [reflexivity|exact Hf].
Qed.
(** ... and while a loop over the global string pool is active or was left early *)
Theorem C79_loop : forall K (w : maaw K) k p g a b t v mem pal tal c ans, session w k -> glob (rw (m_prs w)) = Some p ->
  k_pools k !! p = Some g -> q_ro g <> 0 -> small_pool w k -> (size (k_reg k) <= answers ans)%nat -> maa_version a b t = Ret v ->
  maa_shutdown (a, b, t) mem pal tal c ans w = Abort \/
  (maa_shutdown (a, b, t) mem pal tal c ans w = Fatal /\ (mem = false \/ blk_alloc (pa_hash pal) 72 = false)).
Proof.
  intros K w k p g a b t v mem pal tal c ans S Hgl Hg Hro Hsmall Hans Hv. unfold maa_shutdown.
  destruct (test_lit _ _ _ 29 (ss_dbg _ _ S) ltac:(lia)) as (m & Em & Hm).
  destruct (test_lit _ _ _ 28 (ss_dbg _ _ S) ltac:(lia)) as (tm & Et & Htm).
  rewrite dbg_29, dbg_28, Em, Et. rb. rewrite !Hm.
  set (memory := lit (k_de k) 3 29) in *. set (time := lit (k_de k) 3 28) in *.
  assert (E1 : exists x, (if memory then Ret 1 else Ret tm) = Ret x) by (destruct memory; eauto).
  destruct E1 as (x & E1). rewrite E1. rb. rewrite Hv. rb.
  assert (E2 : exists o1, (if negb (x =? 0) then Ret [OVersion v] else Ret []) = Ret o1) by (destruct (negb (x =? 0)); eauto).
  destruct E2 as (o1 & E2). rewrite E2. rb. rewrite ?Hm.
  assert (E3 : (exists o2, (if memory then str_print_stats mem pal (rw (m_prs w)) else Ret []) = Ret o2) \/
    ((if memory then str_print_stats mem pal (rw (m_prs w)) else Ret []) = Fatal /\ (mem = false \/ blk_alloc (pa_hash pal) 72 = false))).
  { pose proof (print_stats_ok pal (rw (m_prs w)) (k_pools k) (prs_pool _ _ _ (ss_prs _ _ S)) Hsmall mem) as Hps.
    destruct memory; [|eauto]. destruct (str_print_stats mem pal (rw (m_prs w))); cbn [ok] in Hps; [eauto|auto|contradiction|contradiction|contradiction]. }
  destruct E3 as [(o2 & E3)|(E3 & Hf)]; rewrite E3; [rb|right; split; [reflexivity|exact Hf]].
  destruct (pr_down _ _ _ ans (ss_pr _ _ S) Hans) as (p' & L & Ep & _). rewrite Ep. rb.
  pose proof (str_destroy_ok _ _ (prs_pool _ _ _ (ss_prs _ _ S))) as D. rewrite Hgl in D. destruct D as (g' & Hg' & D).
  assert (g' = g) as -> by congruence. rewrite decide_False in D by exact Hro. rewrite D. left. reflexivity.
Qed.
Print Assumptions C79_no_total.
Print Assumptions C79_twice.
Print Assumptions C79_loop.

Lemma map_in_heap t gh kd : history penv t gh -> kd ∈ g_map gh -> exists a b, heap t !! a = Some b /\ bkey b = kd.1.
Proof.
  intros Hh Hin. destruct (history_inv penv t gh penv_good Hh) as [L [I1 I2 _ _ _ _]]. rewrite <- I2 in Hin.
  unfold pairs, ents in Hin. apply elem_of_list_fmap in Hin as (e & -> & Hin). apply elem_of_list_fmap in Hin as ([a' e'] & -> & Hin).
  apply elem_of_list_In, in_concat in Hin as (l & HL & Hl). apply elem_of_list_In in HL, Hl. apply elem_of_list_lookup in HL as (i & HL).
  pose proof (ti_rows _ _ _ _ (hi_t _ _ _ I1)) as Hr. destruct (Forall2_lookup_r _ _ _ _ _ Hr HL) as (p & _ & Hrow).
  destruct (seg_in _ _ _ _ _ _ Hrow Hl) as (n & Hb). exists a'. eexists. split; [exact Hb|]. reflexivity.
Qed.
(** ** C80: what maa_shutdown leaves dangling *)
(** concrete names: it frees the strings, not the table that refers to them *)
Theorem C80_concrete : forall K (w w' : maaw K) k ver mem pal tal c ans out nodes sym con rest, session w k -> pool_idle w k ->
  maa_shutdown ver mem pal tal c ans w = Ret (w', out, nodes) -> (sym, con) ∈ k_conc k -> str_ok sym ->
  prs_concrete (m_prs w') (sym ++ 0%N :: rest) = UB.
Proof.
  intros K w w' k ver mem pal tal c ans out nodes sym con rest S Hidle E Hin Hs.
  destruct (shutdown_parts _ _ _ _ _ _ _ _ _ _ E) as (_ & (h & Es) & Er & _).
  pose proof (prs_history_inv _ _ _ (ss_prs _ _ S)) as [Hp Ht].
  destruct (str_down _ _ _ (ss_prs _ _ S) Hidle) as (s' & Es' & _ & _ & Hgone & _). rewrite Es in Es'. injection Es' as <- _.
  unfold prs_concrete. rewrite Er. destruct (rtab (m_prs w)) as [|t|]; [rewrite Ht in Hin; by apply elem_of_nil in Hin| |reflexivity].
  destruct Ht as (_ & p & g & Hgl & Hg & (gh & Hh & _ & Hk & Hc)). rewrite c_string_spec by exact Hs. rb.
  destruct (mk_key_ok None sym Hs) as (key & Ek & _ & Hkv). rewrite Ek. rb.
  specialize (Hc key). rewrite Hkv in Hc. destruct (first_concrete sym (k_conc k)) as [c'|] eqn:Hf.
  - destruct Hc as (d & Ha & _).
    assert (Hkd : exists kd, kd ∈ g_map gh).
    { destruct (g_map gh) as [|kd l]; [discriminate Ha|]. exists kd. by left. }
    destruct Hkd as [kd Hkd]. destruct (Hk kd Hkd) as (x & Hx & Hq).
    destruct (map_in_heap t gh kd Hh Hkd) as (y & b & Hy & Hb).
    assert (Hl : keys_live (mblk (pmem (rw (m_prs w')))) t = false); [|rewrite Hl; reflexivity].
    apply not_true_is_false. intros Hl. unfold keys_live in Hl. rewrite forallb_forall in Hl.
    specialize (Hl b). rewrite Hb, Hx in Hl. unfold reads in Hl. rewrite (Hgone p g _ x Hgl Hg Hq) in Hl.
    assert (Hx2 : In b (map_to_list (heap t)).*2); [|apply Hl in Hx2; discriminate Hx2].
    apply elem_of_list_In, elem_of_list_fmap. exists (y, b). split; [reflexivity|]. by apply elem_of_map_to_list.
  - exfalso. clear -Hf Hin. induction (k_conc k) as [|[s c] R IH]; [by apply elem_of_nil in Hin|]. cbn [first_concrete] in Hf.
    destruct (decide (s = sym)) as [|Hn]; [discriminate Hf|]. apply elem_of_cons in Hin as [Hin|Hin]; [|by apply IH].
    injection Hin as -> _. contradiction.
Qed.
(** lists that were not destroyed: their length can still be asked for, but nothing can be added, and touching the elements is
    undefined; skip lists: everything is undefined, and the memory of their entries is lost *)
Theorem C80_lists : forall K (w w' : maaw K) k ver mem pal tal c ans out nodes l L, session w k ->
  maa_shutdown ver mem pal tal c ans w = Ret (w', out, nodes) -> g_lists (k_lst k) !! l = Some L ->
  lst_length (m_lst w') (Some l) = Ret (N.of_nat (length L)) /\
  (forall al dt, lst_append al (m_lst w') (Some l) dt = Abort /\ lst_push al (m_lst w') (Some l) dt = Abort) /\
  (L <> [] -> lst_top (m_lst w') (Some l) = UB /\ forall al, lst_pop al (m_lst w') (Some l) = UB /\ lst_destroy al (m_lst w') (Some l) = UB) /\
  (L = [] -> lst_top (m_lst w') (Some l) = Ret None /\ forall al, exists x, lst_destroy al (m_lst w') (Some l) = Ret x).
Proof.
  intros K w w' k ver mem pal tal c ans out nodes l L S E HL.
  destruct (shutdown_parts _ _ _ _ _ _ _ _ _ _ E) as (_ & _ & _ & El & _). pose proof (ss_lst _ _ S) as Hh. destruct (k_lst k) as [H n t].
  destruct (lst_lost _ _ _ _ _ _ _ Hh El HL) as (H1 & H2 & H3 & H4). split; [exact H1|]. split; [exact H2|]. split; [exact H4|].
  intros ->. destruct (H3 eq_refl) as [H5 H6]. split; [exact H5|]. intros al. eexists. apply H6.
Qed.
Theorem C80_skip_lists : forall K (w w' : maaw K) k ver mem pal tal c ans out nodes l g, session w k ->
  maa_shutdown ver mem pal tal c ans w = Ret (w', out, nodes) -> k_sl k !! l = Some g ->
  (forall key, sl_find (m_sl w') (Some l) key = UB) /\ (forall d, sl_delete (m_sl w') (Some l) d = UB) /\
  (forall al rnd d, sl_insert al rnd (m_sl w') (Some l) d = UB) /\ (forall al, sl_destroy al (m_sl w') (Some l) = UB) /\
  sent (m_sl w') = sent (m_sl w).
Proof.
  intros K w w' k ver mem pal tal c ans out nodes l g S E Hg.
  destruct (shutdown_parts _ _ _ _ _ _ _ _ _ _ E) as (_ & _ & _ & _ & Eq).
  destruct (sl_lost _ _ _ _ _ _ (ss_sl _ _ S) Eq Hg) as (H1 & H2 & H3 & H4 & H5). auto.
Qed.
Print Assumptions C80_concrete.
Print Assumptions C80_lists.
Print Assumptions C80_skip_lists.

(** ** C81: the version *)
(** [s] is [z] in decimal *)
Definition decimal (z : Z) (s : list N) : Prop :=
  exists d, Forall is_digit d /\ d <> [] /\ s = (if decide (z < 0) then [45%N] else []) ++ d /\ Z.of_N (dec_value d) = Z.abs z.
Theorem C81_version : forall a b c, is_int a -> is_int b -> is_int c ->
  exists s A B C, maa_version a b c = Ret s /\ s = bytes "Libmaa "%string ++ A ++ bytes "."%string ++ B ++ bytes "."%string ++ C /\
    decimal a A /\ decimal b B /\ decimal c C /\
    maa_version_major a = a /\ maa_version_minor b = b /\ maa_version_teeny c = c.
Proof.
  assert (D : forall z, is_int z -> decimal z (c_itoa z)).
  { intros z Hz. unfold is_int in Hz. unfold decimal, c_itoa. destruct (Z.ltb_spec z 0).
    - rewrite decide_True by assumption. destruct (digits_spec 10 (Z.to_N (- z)) ltac:(lia)) as (H1 & H2 & H3).
      { change (10 ^ N.of_nat 10)%N with 10000000000%N. lia. } eexists. split; [exact H1|]. split; [intros E; rewrite E in H3; cbn in H3; lia|].
      split; [reflexivity|]. rewrite H2. lia.
    - rewrite decide_False by lia. destruct (digits_spec 10 (Z.to_N z) ltac:(lia)) as (H1 & H2 & H3).
      { change (10 ^ N.of_nat 10)%N with 10000000000%N. lia. } eexists. split; [exact H1|]. split; [intros E; rewrite E in H3; cbn in H3; lia|].
      split; [reflexivity|]. rewrite H2. lia. }
  intros a b c Ha Hb Hc. exists (version_text a b c), (c_itoa a), (c_itoa b), (c_itoa c). split; [by apply version_ok|]. split; [reflexivity|].
  split; [by apply D|]. split; [by apply D|]. split; [by apply D|]. done.
Qed.
Print Assumptions C81_version.
