(** Proofs about pipelines. *)
From Verif Require Import Base Alloc ListLemmas CStr StackModel StackProofs ObjModel ObjProofs MemModel MemProofs MemHist.
From Verif Require Import ArgModel ArgProofs ArgSpec ArgHist ArgProps PrModel PrSpec PrProofs PrHist PrRw PrProps PipeSpec.
Local Open Scope Z_scope.

Lemma stage_proper t m fdin fdout : may_start t m fdin -> proper t m STAGE (arg3 (Some fdin) (Some fdout) None).
Proof.
  intros Hm. constructor.
  - apply flags_legal. reflexivity.
  - intros s [->|[->| ->]]; cbn; try done; eauto.
  - intros s f [->|[->| ->]] (H & H' & Hn); [|discriminate H|discriminate H]. cbn in H'. injection H' as <-. destruct Hm as [->|Hm]; done.
  - intros s s' f [->|[->| ->]] [->|[->| ->]] (H & _) (H' & _); first [reflexivity|discriminate H|discriminate H'].
Qed.
Lemma handed_lookup {A} fdin (t : gmap Z A) fd : handed fdin t !! fd = if decide (fdin <> 0 /\ fd = fdin) then None else t !! fd.
Proof.
  unfold handed. repeat case_decide; try tauto.
  - destruct H0 as [_ ->]. apply lookup_delete.
  - rewrite lookup_delete_ne; [done|]. intros ->. tauto.
Qed.
Lemma stage_given fdin fdout s f : stream s -> given STAGE (arg3 (Some fdin) (Some fdout) None) s f <-> s = 0 /\ f = fdin /\ fdin <> 0.
Proof.
  intros Hs. unfold given. split.
  - intros (H & H' & Hn). destruct Hs as [->|[->| ->]]; [|discriminate H|discriminate H]. cbn in H'. injection H' as <-. done.
  - intros (-> & -> & Hn). done.
Qed.
Lemma stage_creates s : stream s -> creates STAGE s = true <-> s = 1.
Proof. intros [->|[->| ->]]; cbn; done. Qed.

Lemma stage_ok st w R C fdin fdout :
  let o := st_os st in
  pr_history (PS w R C) -> os_ok o (limit o w) -> may_start (p_tab w) (limit o w) fdin ->
  str_ok (st_cmd st) -> Z.of_nat (length (st_cmd st)) + 3 < 2 ^ 30 -> line true true (st_cmd st) (st_words st) ->
  ok (fun '(w1, p) => exists f k, op_out p = Some f /\ 3 <= f < p_max w1 /\ handed fdin (p_tab w) !! f = None /\
        p_tab w1 = <[f := REnd k]> (handed fdin (p_tab w)) /\ p_max w1 = limit o w /\ 0 < p_max w1 /\
        pr_history (PS w1 (<[f := op_pid p]> (handed fdin R)) ((op_pid p, op_child p) :: C)) /\
        op_pid p = o_fork o /\ 0 < op_pid p /\ c_words (op_child p) = st_words st /\
        c_tab (op_child p) !! 1 = Some (WEnd k) /\ c_tab (op_child p) !! 2 = p_tab w !! 2 /\
        first_input o (p_tab w) fdin (c_tab (op_child p) !! 0) /\
        (forall fd, ~ stream fd -> c_tab (op_child p) !! fd = if decide (R !! fd = None /\ fd <> fdin) then p_tab w !! fd else None) /\
        (forall e, pipe_of e = Some k -> ~ holds (p_tab w) e /\ Forall (fun c => ~ holds (c_tab c.2) e) C))
     (os_can_fail o) (pr_open o w (st_cmd st ++ 0%N :: st_rest st) STAGE (Some fdin) (Some fdout) None).
Proof.
  intros o H Ho Hm Hs Hl Hline. pose proof (history_pinv _ H) as I. cbn [ps_w ps_reg ps_kids] in I.
  pose proof (stage_proper _ _ fdin fdout Hm) as Hp. set (fds := arg3 (Some fdin) (Some fdout) None) in *.
  assert (S0 : stream 0) by (unfold stream; lia). assert (S1 : stream 1) by (unfold stream; lia). assert (S2 : stream 2) by (unfold stream; lia).
  pose proof (open_ok o w R (st_cmd st) (st_rest st) (st_words st) None STAGE (Some fdin) (Some fdout) None (i_base _ _ _ I) Ho Hp
    (polite_none _ _ _) Hs Hl Hline) as HO. fold fds in HO. unfold pr_open.
  destruct (pr_open2 o w (st_cmd st ++ 0%N :: st_rest st) None STAGE (Some fdin) (Some fdout) None) as [[w1 p]| | | |] eqn:E; try done.
  destruct HO as (B1 & Hmax & Hobj & K & T & HE & _ & HK).
  assert (HH : pr_history (PS w1 (reg_after STAGE fds p R) ((op_pid p, op_child p) :: C))).
  { eapply ph_step; [exact H|]. eapply (pc_open o w R C (st_cmd st) (st_rest st) (st_words st) None); try done. apply no_copies_none. }
  destruct (oe_new _ _ _ _ _ _ _ _ _ _ _ HE 1 S1 eq_refl) as (f & Hf & Htf & Hf3 & Htf').
  change (results p 1) with (op_out p) in Hf. change (parent_end 1 (K 1)) with (REnd (K 1)) in Htf'.
  destruct (oe_pid _ _ _ _ _ _ _ _ _ _ _ HE) as [Hpid Hpid0].
  destruct (C55_registered o None w R C STAGE fds (st_words st) w1 p K T f H Hp HE) as (Hnew & _ & _).
  pose proof (Hnew 1 S1 eq_refl Hf) as Hrf.
  assert (Hrange : 0 <= f < p_max w1 /\ 0 < p_max w1).
  { destruct (reg_range w1 _ f _ B1 Hrf) as (objs & Eo & _ & Hr & _). pose proof (b_objs _ _ B1) as B2. rewrite Eo in B2. lia. }
  assert (Hreg : reg_after STAGE fds p R = <[f := op_pid p]> (handed fdin R)).
  { apply map_eq. intros fd. destruct (C55_registered o None w R C STAGE fds (st_words st) w1 p K T fd H Hp HE) as (R1 & R2 & R3).
    destruct (decide (fd = f)) as [->|Hne].
    { rewrite lookup_insert. exact Hrf. }
    rewrite lookup_insert_ne by done. rewrite handed_lookup. case_decide as Hc.
    - apply (R2 0 S0). apply stage_given; tauto.
    - apply R3.
      + intros s Hs' Hcr Hr. apply stage_creates in Hcr; [|done]. subst s. change (results p 1) with (op_out p) in Hr. congruence.
      + intros s Hs' Hg. apply stage_given in Hg; [|done]. tauto. }
  assert (Htab : p_tab w1 = <[f := REnd (K 1)]> (handed fdin (p_tab w))).
  { apply map_eq. intros fd. destruct (decide (fd = f)) as [->|Hne].
    { rewrite lookup_insert. exact Htf'. }
    rewrite lookup_insert_ne by done. rewrite handed_lookup. case_decide as Hc.
    - apply (oe_given _ _ _ _ _ _ _ _ _ _ _ HE 0 fd S0). apply stage_given; tauto.
    - apply (oe_rest _ _ _ _ _ _ _ _ _ _ _ HE).
      + intros s Hs' Hcr Hr. apply stage_creates in Hcr; [|done]. subst s. change (results p 1) with (op_out p) in Hr. congruence.
      + intros s Hs' Hg. apply stage_given in Hg; [|done]. tauto. }
  rewrite Hreg in HH. exists f, (K 1). split; [exact Hf|]. split; [lia|]. split.
  { rewrite handed_lookup. case_decide; [done|exact Htf]. }
  split; [exact Htab|]. split; [exact Hmax|]. split; [lia|]. split; [exact HH|]. split; [exact Hpid|]. split; [exact Hpid0|].
  split; [apply (oe_words _ _ _ _ _ _ _ _ _ _ _ HE)|].
  assert (Std : forall s, stream s -> child_gets o (p_tab w) STAGE fds s (K s) (c_tab (op_child p) !! s)).
  { intros s Hs'. by apply (oe_std _ _ _ _ _ _ _ _ _ _ _ HE). }
  split; [by apply (Std 1 S1)|]. split; [by apply (Std 2 S2)|]. split.
  { destruct (Std 0 S0) as (_ & G1 & G2 & _). unfold first_input. destruct (decide (fdin = 0)) as [Hz|Hz].
    - rewrite bool_decide_eq_false_2 in G2 by lia. apply G2. split; [reflexivity|]. right. unfold fds, arg3. cbn. by rewrite Hz.
    - apply (G1 fdin). apply stage_given; tauto. }
  split.
  { intros fd Hfd. assert (Hf0 : fd <> 0) by (intros ->; tauto). case_decide as Hc.
    - destruct Hc as [HR Hne].
      assert (Hg : forall s, stream s -> ~ given STAGE fds s fd) by (intros s Hs' Hg; apply stage_given in Hg; [tauto|done]).
      destruct (decide (T !! fd = p_tab w !! fd)) as [Heq|Hneq].
      + rewrite (oe_inherit _ _ _ _ _ _ _ _ _ _ _ HE fd Hfd HR Heq Hg). exact Heq.
      + rewrite (oe_closed _ _ _ _ _ _ _ _ _ _ _ HE fd Hfd) by auto. destruct (p_tab w !! fd) eqn:Et; [|done].
        exfalso. apply Hneq. rewrite <- Et. apply (oe_fork _ _ _ _ _ _ _ _ _ _ _ HE). rewrite Et. eauto.
    - apply (oe_closed _ _ _ _ _ _ _ _ _ _ _ HE fd Hfd). destruct (R !! fd) eqn:HR; [left; eauto|].
      right. right. exists 0. split; [done|]. apply stage_given; [done|]. destruct (decide (fd = fdin)) as [->|]; tauto. }
  intros e Hk. destruct (HK 1 S1 eq_refl) as [HK1 _]. split.
  - intros [fd Hfd]. destruct (i_ends _ _ _ I fd e _ Hfd Hk). lia.
  - apply Forall_forall. intros [pid img] Hin Hh. destruct (i_kid _ _ _ I pid img e _ Hin Hh Hk). lia.
Qed.

(** ** The whole pipeline *)
Lemma limit_max o o' w w1 : p_max w1 = limit o w -> 0 < p_max w1 -> limit o' w1 = limit o w.
Proof. intros H1 H2. unfold limit at 1. rewrite decide_False by lia. exact H1. Qed.
Lemma handed_new {A} fdin (t : gmap Z A) f v : f <> 0 -> handed fdin t !! f = None -> handed f (<[f := v]> (handed fdin t)) = handed fdin t.
Proof. intros Hf Hn. unfold handed at 1. rewrite decide_False by done. by apply delete_insert. Qed.

Lemma pipeline_ok l : forall w R C fdin fdout m, l <> [] ->
  pr_history (PS w R C) -> Forall (fun s => os_ok (st_os s) m /\ limit (st_os s) w = m) l -> may_start (p_tab w) m fdin ->
  Forall (fun s => str_ok (st_cmd s) /\ Z.of_nat (length (st_cmd s)) + 3 < 2 ^ 30 /\ line true true (st_cmd s) (st_words s)) l ->
  ok (fun '(w', f, ps) => exists R' ks, piped l (p_tab w) R fdin (p_tab w') R' f ps ks /\ pr_history (PS w' R' (kids_of ps ++ C)) /\
        (forall k e, k ∈ ks -> pipe_of e = Some k -> ~ holds (p_tab w) e /\ Forall (fun c => ~ holds (c_tab c.2) e) C))
     (Exists (fun s => os_can_fail (st_os s)) l) (pipeline l w fdin fdout).
Proof.
  induction l as [|s l IH]; intros w R C fdin fdout m Hne H Hos Hm Hcmd; [done|]. clear Hne.
  inversion Hos as [|? ? [Ho Hlim] Hos']; subst. inversion Hcmd as [|? ? (Hs & Hl & Hline) Hcmd']; subst. cbn [pipeline].
  eapply ok_bind.
  { eapply ok_mono; [apply (stage_ok s w R C fdin fdout); done|intros x Hx; exact Hx|]. intros Hf. by left. }
  intros [w1 p] (f & k & Hf & Hf3 & Hnew & Htab & Hmax & Hpos & HH & Hpid & Hpid0 & Hw & H1 & H2 & H0 & Hrest & Hfresh). rewrite Hf.
  assert (HnR : handed fdin R !! f = None).
  { rewrite handed_lookup. case_decide as Hc; [done|]. destruct (R !! f) as [x|] eqn:Ex; [|done]. exfalso.
    pose proof (history_pinv _ H) as I. cbn [ps_w ps_reg ps_kids] in I. destruct (i_reg _ _ _ I f x Ex) as (e & _ & _ & He & _).
    rewrite handed_lookup, decide_False in Hnew by done. congruence. }
  destruct l as [|s2 l].
  { cbn [pipeline mbind res_bind ok]. exists (<[f := op_pid p]> (handed fdin R)), [k]. split; [|split].
    - constructor.
      + done.
      + apply NoDup_singleton.
      + split; [lia|done].
      + intros k' [= <-]. exact Htab.
      + intros p' [= <-]. done.
      + intros [|i] s' p' k' [= <-] [= <-] [= <-]. done.
      + intros s' p' [= <-] [= <-]. exact H0.
      + intros i p' k' Hp'. done.
    - exact HH.
    - intros k' e Hk' He. apply elem_of_list_singleton in Hk' as ->. by apply Hfresh. }
  set (R1 := <[f := op_pid p]> (handed fdin R)) in *.
  specialize (IH w1 R1 ((op_pid p, op_child p) :: C) f f (limit (st_os s) w) ltac:(done) HH).
  eapply ok_bind.
  { eapply ok_mono; [apply IH|intros x Hx; exact Hx|intros Hx; by right]; try done.
    - rewrite Forall_forall in Hos'. rewrite Forall_forall. intros x Hx. split; [by apply Hos'|]. by apply limit_max.
    - right. rewrite <- Hmax. split; [lia|]. rewrite Htab, lookup_insert. eauto. }
  intros [[w2 f2] ps] (R' & ks & HP & HH2 & Hfresh2). cbn [ok]. destruct HP as [[E1 E2] E3 [E4 [E4' E4'']] E5 E6 E7 E8 E9].
  assert (Hf0 : f <> 0) by lia.
  assert (Ht1 : handed f (p_tab w1) = handed fdin (p_tab w)) by (rewrite Htab; by apply handed_new).
  assert (HR1 : handed f R1 = handed fdin R) by (by apply handed_new).
  rewrite Ht1 in E4', E5. rewrite HR1 in E4'', E6.
  exists R', (k :: ks). split; [|split].
  - constructor.
    + cbn [length]. rewrite E1, E2. done.
    + constructor; [|done]. intros Hk. destruct (Hfresh2 k (WEnd k) Hk eq_refl) as [_ Hc]. inversion Hc as [|? ? Hc1 _]; subst. apply Hc1. by exists 1.
    + split; [lia|done].
    + intros k' Hk'. apply E5. destruct ks as [|k2 ks]; [cbn in E2; discriminate E2|]. exact Hk'.
    + intros p' Hp'. apply E6. destruct ps as [|p2 ps]; [cbn in E1; discriminate E1|]. exact Hp'.
    + intros [|i] s' p' k' Hs' Hp' Hk'.
      * injection Hs' as <-. injection Hp' as <-. injection Hk' as <-. done.
      * cbn in Hs', Hp', Hk'. destruct (E7 i s' p' k' Hs' Hp' Hk') as (A1 & A2 & A3 & A4 & A5 & A6).
        split; [done|]. split; [done|]. split; [done|]. split; [done|]. split.
        -- rewrite A5, Htab, lookup_insert_ne by lia. rewrite handed_lookup. case_decide as Hc; [|done]. exfalso.
           destruct Hc as [Hc1 Hc2]. destruct Hm as [->|[Hm _]]; lia.
        -- intros fd Hfd. rewrite (A6 fd Hfd). unfold R1. rewrite Htab. destruct (decide (fd = f)) as [->|Hne].
           { rewrite decide_False by tauto. rewrite handed_lookup in Hnew. case_decide as Hc.
             - destruct Hc as [_ ->]. rewrite decide_False; [done|]. tauto.
             - rewrite Hnew. by destruct (decide _). }
           rewrite !lookup_insert_ne by done. rewrite !handed_lookup. destruct (decide (fdin <> 0 /\ fd = fdin)) as [[Hc1 ->]|Hc].
           { rewrite (decide_False (P := R !! fdin = None /\ fdin <> fdin)) by tauto. by destruct (decide _). }
           assert (Hfi : fd <> fdin). { intros ->. apply Hc. split; [|done]. intros Hz. apply Hfd. rewrite Hz. unfold stream. lia. }
           destruct (R !! fd) as [x|] eqn:Ex.
           ++ rewrite !decide_False; [done|intros [? _]; done..].
           ++ rewrite !decide_True; done.
    + intros s' p' [= <-] [= <-]. exact H0.
    + intros [|i] p' k' Hp' Hk'.
      * injection Hk' as <-. assert (Hs2 : exists s2', (s2 :: l) !! 0%nat = Some s2') by (eexists; reflexivity). destruct Hs2 as [s2' Hs2].
        pose proof (E8 s2' p' Hs2 Hp') as HF. unfold first_input in HF. rewrite decide_False in HF by done. rewrite HF, Htab. apply lookup_insert.
      * cbn in Hk'. by apply (E9 i p' k').
  - unfold kids_of in *. rewrite fmap_cons, reverse_cons, <- app_assoc. exact HH2.
  - intros k' e Hk' He. apply elem_of_cons in Hk' as [->|Hk']; [by apply Hfresh|].
    destruct (Hfresh2 k' e Hk' He) as [F1 F2]. inversion F2 as [|? ? F3 F4]; subst. split; [|done].
    intros [fd Hfd]. pose proof (history_pinv _ H) as I. cbn [ps_w ps_reg ps_kids] in I.
    destruct (decide (fdin <> 0 /\ fd = fdin)) as [[Hz ->]|Hc].
    + apply F3. exists 0. cbn [snd]. unfold first_input in H0. rewrite decide_False in H0 by done. by rewrite H0.
    + apply F1. exists fd. rewrite Htab. assert (fd <> f). { intros ->. rewrite handed_lookup, decide_False in Hnew by done. congruence. }
      rewrite lookup_insert_ne by done. rewrite handed_lookup, decide_False by done. exact Hfd.
Qed.
