(** Reachable cases for C76-C81: two children, a string pool, lists and a skip list at the end of a session. *)
From Verif Require Import Base Alloc CStr ListLemmas StackModel ObjModel MemModel MemProofs MemHist ListModel ListProofs ListHist ListProps SkipModel SkipSpec SkipHist SkipProps ArgModel PrModel PrSpec PrProofs PrHist PrProps2 PrEx LogModel LogSpec LogProps.
From Verif Require Import PrimeModel HashModel HashSpec HashProofs HashOps HashHist HashFnModel HashFnProofs NameTab FlagModel FlagSpec FlagProofs FlagHist FlagProps TimerModel TimerSpec TimerProofs TimerProps.
From Verif Require Import StrModel StrProofs StrHist StrProps PrsModel PrsSpec PrsProofs PrsProps MaaModel MaaSpec MaaLists MaaSkips MaaProofs MaaProps.
From Coq Require Import String.
Notation length := List.length.
Local Open Scope Z_scope.

Lemma from_pools w G : pool_history w G -> prs_history (PRS w PNull) G [].
Proof.
  intros H. refine (rtc_ind_r (fun y : pst => prs_history (PRS y.1 PNull) y.2 []) _ _ _ _ H); [apply ph_start|].
  intros [w1 G1] [w2 G2] _ H2 IH. apply (ph_string (PRS w1 PNull) G1 [] w2 G2 IH H2). by left.
Qed.
Definition ex_al : maalloc := MaaModel.MA ex_tal (fun _ => ex_fal).
Lemma ex_al_ok : talloc_ok (ma_tim ex_al) /\ (forall i, halloc_ok (ma_dbg ex_al i)) /\
  ~ (tfail (ma_tim ex_al) \/ exists i, can_fail (ma_dbg ex_al i)).
Proof.
  split; [apply ex_tal_ok|]. split; [intros; apply bump_ok|]. intros [[[(h & H)|(n & H)]|(h & H)]|(i & [(h & H)|(n & H)])]; discriminate H.
Qed.
Definition ex_pn : list N := bytes "/usr/bin/prog"%string.
(** a session in which every module was used, before maa_init was called *)
Definition busy (wl : lworld) : maaw Z := MW ex_s3 lstart ex1 fempty a2 (PRS (wn r3) PNull) wl wc.
Lemma busy_session : exists wl k, session (busy wl) k /\ pool_idle (busy wl) k /\ small_pool (busy wl) k /\
  k_tim k = ex_M /\ k_reg k = R2 /\ k_de k = [] /\ k_dl k = None /\
  (exists L, g_lists (k_lst k) !! 1%positive = Some L /\ length L = 4%nat) /\ k_sl k !! 1%positive = Some gc.
Proof.
  destruct C28_reachable as (wl & H & n & t & Hl & _ & _ & Hl1 & _). destruct (C43_reachable false) as (l & Hf & _).
  destruct wc_history as (G & Hs & Hs1 & _). destruct ex_history as (GP & g & Hp & Hg & Hgl & Hq & Hro & _).
  exists wl, (Kn ex_M (Some l) [] None [] R2 [(op_pid b2, op_child b2); (op_pid b1, op_child b1)] GP [] (LG H n t) G 2).
  split; [|split; [|split]].
  - constructor; cbn [busy m_tim m_log m_flg m_dbg m_pr m_prs m_lst m_sl k_tim k_ul k_ue k_dl k_de k_reg k_kids k_pools k_conc k_lst k_sl k_sln].
    + exact ex_timers.
    + exact Hf.
    + apply fh_start.
    + exact (proj1 C55_history).
    + by apply from_pools.
    + exact Hl.
    + exact Hs.
  - intros p g' Hp' Hg'. cbn [busy m_prs rw] in Hp'. cbn [k_pools] in Hg'. rewrite Hgl in Hp'. injection Hp' as <-. rewrite Hg in Hg'. injection Hg' as <-. exact Hro.
  - intros p g' Hp' Hg'. cbn [busy m_prs rw] in Hp'. cbn [k_pools] in Hg'. rewrite Hgl in Hp'. injection Hp' as <-. rewrite Hg in Hg'. injection Hg' as <-. rewrite Hq. reflexivity.
  - do 4 (split; [reflexivity|]). split; [|exact Hs1]. eexists. split; [exact Hl1|reflexivity].
Qed.
Definition ex_c0 := ck 100 1 2 3 4 900000.
Definition ex_c1 := ck 107 2 3 4 5 100000.
Lemma ex_c_ok : wf_clock ex_c0 /\ wf_clock ex_c1.
Proof. split; apply ck_ok; lia. Qed.
(** maa_init, then dbg_set of ".time" *)
Definition turn_on (w : maaw Z) (n : list N) : res (maaw Z) :=
  d ← dbg_set (m_dbg w) (Some (n ++ [0%N])); Ret (MW (m_tim w) (m_log w) (m_flg w) d (m_pr w) (m_prs w) (m_lst w) (m_sl w)).
Lemma turn_on_ok w k n f l w' : session w k -> k_dl k = Some l -> find_in (Some l) n = Some f -> str_ok n -> n <> [] -> 
  n <> [110; 111; 110; 101]%N -> n <> [97; 108; 108]%N ->
  turn_on w n = Ret w' -> session w' (Kn (k_tim k) (k_ul k) (k_ue k) (Some l) (ESet f :: k_de k) (k_reg k) (k_kids k) (k_pools k) (k_conc k) (k_lst k) (k_sl k) (k_sln k)).
Proof.
  intros S Hl Hf Hn Hne H1 H2 E. unfold turn_on in E. destruct (dbg_set (m_dbg w) (Some (n ++ [0%N]))) as [d| | | |] eqn:Ed; [|discriminate E..].
  injection E as <-. destruct S. constructor; try assumption. cbn [m_dbg k_dl k_de]. rewrite Hl in ss_dbg.
  pose proof (fh_set true _ _ _ n [] d ss_dbg Hn Hne Ed) as H. unfold effect_of, dbg_effect in H. rewrite !decide_False in H by assumption.
  rewrite Hf in H. exact H.
Qed.
Lemma init_parts {K} al c (w w' : maaw K) p : maa_init al c w p = Ret w' ->
  m_prs w' = m_prs w /\ register_all (ma_dbg al) (m_dbg w) init_list = Ret (m_dbg w').
Proof.
  unfold maa_init. destruct (tim_start _ _ _ _) as [t1| | | |]; [|discriminate..]. cbn [mbind res_bind].
  destruct (err_set_program_name p (m_log w)) as [[lg x]| | | |]; [|discriminate..]. cbn [mbind res_bind]. fold init_list.
  destruct (register_all (ma_dbg al) (m_dbg w) init_list) as [d| | | |]; [|discriminate..]. intros E. injection E as <-. split; reflexivity.
Qed.
Definition d0 : fstate := getr (register_all (ma_dbg ex_al) fempty init_list) fempty.
Lemma d0_time : is_ret (dbg_set d0 (Some (bytes ".time"%string ++ [0%N]))) = true.
Proof. vm_compute. reflexivity. Qed.
Lemma turn_on_time w : register_all (ma_dbg ex_al) fempty init_list = Ret (m_dbg w) -> is_ret (turn_on w (bytes ".time"%string)) = true.
Proof.
  intros E. assert (Ed : m_dbg w = d0) by (unfold d0; rewrite E; reflexivity). pose proof d0_time as H. unfold turn_on. rewrite Ed.
  destruct (dbg_set d0 _); [reflexivity|discriminate H..].
Qed.
(** the hypotheses of C77, C79 (loop aside), C80 are met at once *)
Example C77_reachable : exists w k tot, session w k /\ k_tim k !! bytes "total"%string = Some tot /\ pool_idle w k /\ small_pool w k /\
  size (k_reg k) = 2%nat /\ lit (k_de k) 3 28 = true /\ lit (k_de k) 3 29 = false /\
  (exists L, g_lists (k_lst k) !! 1%positive = Some L /\ length L = 4%nat) /\ k_sl k !! 1%positive = Some gc /\ answers [WStatus 9; WIntr; WStatus 9] = 2%nat.
Proof.
  destruct busy_session as (wl & k & S & Hi & Hm & Ht & HR & Hd & Hdl & HL & HK). destruct ex_al_ok as (A1 & A2 & A3). destruct ex_c_ok as [C1 _].
  pose proof (C76_init Z _ _ ex_al ex_c0 (Some ex_pn) S A1 A2 C1) as H.
  destruct (maa_init ex_al ex_c0 (busy wl) (Some ex_pn)) as [w'| | | |] eqn:E; cbn [ok] in H; try contradiction. destruct H as (l & S' & Hl & _).
  assert (Hn : find_in (Some l) (bytes ".time"%string) = Some (fl 3 28)) by (rewrite Hl, Hdl; vm_compute; reflexivity).
  destruct (init_parts _ _ _ _ _ E) as [HE1 HE2].
  assert (HE4 : is_ret (turn_on w' (bytes ".time"%string)) = true) by (apply turn_on_time; exact HE2).
  destruct (turn_on w' (bytes ".time"%string)) as [w2| | | |] eqn:E2; [|discriminate HE4..].
  assert (HE3 : m_prs w2 = m_prs w').
  { clear -E2. revert E2. unfold turn_on. destruct (dbg_set (m_dbg w') _); intros E2; [|discriminate E2..]. injection E2 as <-. reflexivity. }
  assert (S2 := turn_on_ok w' _ (bytes ".time"%string) (fl 3 28) l w2 S' eq_refl Hn ltac:(by apply str_ok_b) ltac:(discriminate) ltac:(discriminate) ltac:(discriminate) E2).
  cbn [with_init k_tim k_ul k_ue k_dl k_de k_reg k_kids k_pools k_conc k_lst k_sl k_sln] in S2.
  eexists w2, _, _. split; [exact S2|]. cbn [k_tim k_ul k_ue k_dl k_de k_reg k_kids k_pools k_conc k_lst k_sl k_sln]. split; [apply lookup_insert|].
  unfold pool_idle, small_pool. rewrite HE3, HE1. cbn [k_pools]. split; [exact Hi|]. split; [exact Hm|]. split; [rewrite HR; vm_compute; reflexivity|].
  rewrite Hd. split; [reflexivity|]. split; [reflexivity|]. split; [exact HL|]. split; [exact HK|reflexivity].
Qed.

(** a short session, run: ".memory" is on; one string was found, one list is left *)
Definition run1 : res (maaw Z) :=
  w ← maa_init ex_al ex_c0 (maa_start ex_t) (Some ex_pn);
  w ← turn_on w (bytes ".memory"%string);
  '(s, _) ← str_find ex_pal (rw (m_prs w)) (sab ++ [0%N]);
  '(l, a) ← lst_create ex_lal (m_lst w);
  l ← lst_append ex_lal l (Some a) (dt 5);
  Ret (MW (m_tim w) (m_log w) (m_flg w) (m_dbg w) (m_pr w) (PRS s (rtab (m_prs w))) l (m_sl w)).
Example C77_run :
  (w ← run1; '(w', out, nodes) ← maa_shutdown (1, 4, 7) true ex_pal ex_tal ex_c1 [] w;
   Ret (lprog (m_log w'), out, lst_length (m_lst w') (Some 1%positive), lst_top (m_lst w') (Some 1%positive),
        maa_shutdown (1, 4, 7) true ex_pal ex_tal ex_c1 [] w')) =
  Ret (Some (bytes "prog"%string), [OVersion (bytes "Libmaa 1.4.7"%string); OStats (Some 1%positive) 1 3 1 0 1], Ret 1%N, UB, Abort).
Proof. vm_compute. reflexivity. Qed.
(** ... and one with ".time" and a second session *)
Example C78_run :
  (w ← maa_init ex_al ex_c0 (maa_start (K := Z) ex_t) None;
   w ← turn_on w (bytes ".time"%string);
   '(w', out, nodes) ← maa_shutdown (1, 4, 7) true ex_pal ex_tal ex_c1 [] w;
   w2 ← maa_init ex_al ex_c1 w' (Some ex_pn);
   '(w3, out2, _) ← maa_shutdown (1, 4, 7) true ex_pal ex_tal ex_c1 [] w2;
   Ret (out, out2, is_ret (turn_on w' (bytes ".time"%string)), is_ret (turn_on w2 (bytes ".time"%string)))) =
  Ret ([OVersion (bytes "Libmaa 1.4.7"%string); OTimers [(bytes "total"%string, (7, 2, 2))]], [], false, true).
Proof. vm_compute. reflexivity. Qed.
(** a loop over the global pool that was left early *)
Example C79_reachable : (w ← run1; '(_, s, code) ← str_pool_iterate (lookup_it (Some 1%positive) (fun _ _ => []) stop_at_first) 10 (rw (m_prs w)) (Some 1%positive) [];
   Ret (code, maa_shutdown (1, 4, 7) true ex_pal ex_tal ex_c1 [] (MW (m_tim w) (m_log w) (m_flg w) (m_dbg w) (m_pr w) (PRS s PNull) (m_lst w) (m_sl w)))) = Ret (1, Abort).
Proof. vm_compute. reflexivity. Qed.
(** a concrete name is left *)
Example C80_reachable : exists k : know Z, let w := MW tstart lstart fempty fempty (PrHist.started ex_t) ex_p2 lempty sempty_world in
  session w k /\ pool_idle w k /\ k_conc k = [([97]%N, [98]%N); ([97]%N, [99]%N)].
Proof.
  pose proof (C59_register true ex_pal prs_start ∅ [] [97]%N [98]%N [] [7]%N ph_start (proj1 ex_pal_ok) (ex_str1 97 ltac:(lia)) (ex_str1 98 ltac:(lia)) ex_room1) as H.
  rewrite ex_step1 in H. destruct H as (G1 & H1 & Hg0). pose proof Hg0 as Hg. apply (ex_room2 (rw ex_p1) G1) in Hg.
  pose proof (C59_register false ex_pal ex_p1 G1 [([97]%N, [98]%N)] [97]%N [99]%N [] [] H1 (proj1 ex_pal_ok) (ex_str1 97 ltac:(lia)) (ex_str1 99 ltac:(lia)) Hg) as H.
  rewrite ex_step2 in H. destruct H as (G & H & Hg2).
  exists (Kn ∅ None [] None [] ∅ [] G [([97]%N, [98]%N); ([97]%N, [99]%N)] (LG ∅ 0 0) ∅ 0). split; [|split; [|reflexivity]].
  - constructor; cbn [m_tim m_log m_flg m_dbg m_pr m_prs m_lst m_sl k_tim k_ul k_ue k_dl k_de k_reg k_kids k_pools k_conc k_lst k_sl k_sln];
      [constructor|constructor|constructor|constructor; apply ex_files|exact H|constructor|constructor].
  - intros p g Hp HG. cbn [m_prs k_pools] in Hp, HG. destruct (Hg2 g) as (g1 & Hg1 & Hr & _).
    { unfold global_of. rewrite Hp. exact HG. }
    destruct (Hg0 g1 Hg1) as (g0' & Eg & Hr0 & _). unfold global_of in Eg. cbn [prs_start rw pempty glob] in Eg. subst g0'.
    rewrite Hr, Hr0. reflexivity.
Qed.
Example C81_run : maa_version (-2147483648) (-2147483648) (-2147483648) = Ret (bytes "Libmaa -2147483648.-2147483648.-2147483648"%string).
Proof. vm_compute. reflexivity. Qed.
