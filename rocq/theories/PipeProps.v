(** C96: pipelines of any length. *)
From Verif Require Import Base Alloc ListLemmas CStr StackModel StackProofs ObjModel ObjProofs MemModel MemProofs MemHist.
From Verif Require Import ArgModel ArgProofs ArgSpec ArgHist ArgProps PrModel PrSpec PrProofs PrHist PrRw PrPit PrProps PrProps2 PrEx PipeSpec PrPipe.
Local Open Scope Z_scope.

(** who holds the ends of the pipes, among the parent ([t']), the children of the pipeline and the older ones ([C]) *)
Record isolated (t' : ftab) (ps : list opened) (ks : list positive) (f : Z) (C : list (Z * image)) : Prop := {
  (* the writing end of pipe i: child i, as its stdout, and nobody else *)
  is_write : forall i k, ks !! i = Some k -> ~ holds t' (WEnd k) /\ Forall (fun c => ~ holds (c_tab c.2) (WEnd k)) C /\
    forall j q fd, ps !! j = Some q -> c_tab (op_child q) !! fd = Some (WEnd k) <-> j = i /\ fd = 1;
  (* the reading end of pipe i: child i + 1, as its stdin, and nobody else *)
  is_read : forall i k, ks !! i = Some k -> (S i < length ks)%nat -> ~ holds t' (REnd k) /\ Forall (fun c => ~ holds (c_tab c.2) (REnd k)) C /\
    forall j q fd, ps !! j = Some q -> c_tab (op_child q) !! fd = Some (REnd k) <-> j = S i /\ fd = 0;
  (* the reading end of the last pipe: the parent *)
  is_last : forall k, last ks = Some k -> (forall fd, t' !! fd = Some (REnd k) <-> fd = f) /\
    Forall (fun c => ~ holds (c_tab c.2) (REnd k)) C /\ forall j q, ps !! j = Some q -> ~ holds (c_tab (op_child q)) (REnd k) }.

Lemma kids_lookup ps (C : list (Z * image)) j q : ps !! j = Some q ->
  (kids_of ps ++ C) !! (length ps - S j)%nat = Some (op_pid q, op_child q).
Proof.
  intros H. pose proof (lookup_lt_Some _ _ _ H) as Hj. unfold kids_of. rewrite lookup_app_l by (rewrite reverse_length, fmap_length; lia).
  rewrite reverse_lookup by (rewrite fmap_length; lia). rewrite fmap_length, list_lookup_fmap.
  replace (length ps - S (length ps - S j))%nat with j by lia. by rewrite H.
Qed.
Lemma kids_old ps (C : list (Z * image)) i c : C !! i = Some c -> (kids_of ps ++ C) !! (length ps + i)%nat = Some c.
Proof.
  intros H. unfold kids_of. rewrite lookup_app_r by (rewrite reverse_length, fmap_length; lia). rewrite reverse_length, fmap_length.
  by replace (length ps + i - length ps)%nat with i by lia.
Qed.
Lemma kids_elem ps (C : list (Z * image)) q : q ∈ ps -> (op_pid q, op_child q) ∈ kids_of ps ++ C.
Proof. intros H. apply elem_of_app. left. unfold kids_of. apply elem_of_reverse, elem_of_list_fmap. by exists q. Qed.

Section iso.
  Context (w' : prw) (R' : gmap Z Z) (C : list (Z * image)) (ps : list opened).
  Hypothesis H : pr_history (PS w' R' (kids_of ps ++ C)).
  (** the end [e] is held by the child [i] *)
  Lemma one_holder i p e : ps !! i = Some p -> holds (c_tab (op_child p)) e -> pipe_of e <> None ->
    ~ holds (p_tab w') e /\ Forall (fun c => ~ holds (c_tab c.2) e) C /\ forall j q, ps !! j = Some q -> holds (c_tab (op_child q)) e -> j = i.
  Proof using H.
    intros Hp Hh He. destruct (C72_isolation _ _ _ H) as (_ & I2 & I3 & _ & _). split.
    { apply (I2 (op_pid p) (op_child p) e); [|done|done]. apply kids_elem. by eapply elem_of_list_lookup_2. }
    pose proof (kids_lookup ps C i p Hp) as Hi. pose proof (lookup_lt_Some _ _ _ Hp) as Li. split.
    - apply Forall_forall. intros c Hc Hhc. apply elem_of_list_lookup in Hc as [n Hn]. apply He.
      eapply (I3 _ _ _ _ e Hi (kids_old ps C n c Hn)); [lia|done|done].
    - intros j q Hq Hhq. destruct (decide (j = i)) as [|Hne]; [done|]. exfalso. apply He.
      pose proof (lookup_lt_Some _ _ _ Hq) as Lj. eapply (I3 _ _ _ _ e Hi (kids_lookup ps C j q Hq)); [lia|done|done].
  Qed.
  (** the end [e] is held by the parent *)
  Lemma parent_holder e : holds (p_tab w') e -> pipe_of e <> None ->
    Forall (fun c => ~ holds (c_tab c.2) e) C /\ forall j q, ps !! j = Some q -> ~ holds (c_tab (op_child q)) e.
  Proof using H.
    intros Hh He. destruct (C72_isolation _ _ _ H) as (_ & I2 & _). split.
    - apply Forall_forall. intros [pid img] Hc Hhc. eapply (I2 pid img e); [|done..]. apply elem_of_app. by right.
    - intros j q Hq Hhq. eapply (I2 (op_pid q) (op_child q) e); [|done..]. apply kids_elem. by eapply elem_of_list_lookup_2.
  Qed.
End iso.

Lemma piped_isolated l t R fdin w' R' f ps ks C : l <> [] -> piped l t R fdin (p_tab w') R' f ps ks ->
  pr_history (PS w' R' (kids_of ps ++ C)) -> (forall k e, k ∈ ks -> pipe_of e = Some k -> ~ holds t e) -> isolated (p_tab w') ps ks f C.
Proof.
  intros Hne HP H Hfresh. destruct HP as [[E1 E2] E3 [E4 [E4' _]] E5 E6 E7 E8 E9].
  destruct (C72_isolation _ _ _ H) as (I1 & _ & _ & I4 & _).
  assert (Hall : forall j k, ks !! j = Some k -> exists s p, l !! j = Some s /\ ps !! j = Some p).
  { intros j k Hk. apply lookup_lt_Some in Hk. destruct (lookup_lt_is_Some_2 l j ltac:(lia)) as [s Hs].
    destruct (lookup_lt_is_Some_2 ps j ltac:(lia)) as [p Hp]. eauto. }
  assert (Hk0 : forall i j k, ks !! i = Some k -> ks !! j = Some k -> i = j) by (intros i j k Hi Hj; by eapply NoDup_lookup).
  (* the stdin and the stderr of a child *)
  assert (In0 : forall j q k, ps !! j = Some q -> k ∈ ks -> c_tab (op_child q) !! 0 <> Some (WEnd k)).
  { intros [|j] q k Hq Hk He.
    - destruct (lookup_lt_is_Some_2 l 0%nat) as [s Hs]; [destruct l; [done|cbn; lia]|]. pose proof (E8 s q Hs Hq) as HF. unfold first_input in HF.
      destruct (decide (fdin = 0)) as [Hz|Hz].
      + destruct HF as [HF|[HF _]]; [congruence|]. apply (Hfresh k (WEnd k) Hk eq_refl). exists 0. congruence.
      + apply (Hfresh k (WEnd k) Hk eq_refl). exists fdin. congruence.
    - destruct (lookup_lt_is_Some_2 ks j) as [k' Hk']; [apply lookup_lt_Some in Hq; lia|]. rewrite (E9 j q k' Hq Hk') in He. discriminate He. }
  assert (In0' : forall j q k i, ps !! j = Some q -> ks !! i = Some k -> c_tab (op_child q) !! 0 = Some (REnd k) -> j = S i).
  { intros [|j] q k i Hq Hk He.
    - exfalso. pose proof (elem_of_list_lookup_2 _ _ _ Hk) as Hin.
      destruct (lookup_lt_is_Some_2 l 0%nat) as [s Hs]; [destruct l; [done|cbn; lia]|]. pose proof (E8 s q Hs Hq) as HF. unfold first_input in HF.
      destruct (decide (fdin = 0)) as [Hz|Hz].
      + destruct HF as [HF|[HF _]]; [congruence|]. apply (Hfresh k (REnd k) Hin eq_refl). exists 0. congruence.
      + apply (Hfresh k (REnd k) Hin eq_refl). exists fdin. congruence.
    - destruct (lookup_lt_is_Some_2 ks j) as [k' Hk']; [apply lookup_lt_Some in Hq; lia|]. rewrite (E9 j q k' Hq Hk') in He. injection He as ->.
      by rewrite (Hk0 _ _ _ Hk' Hk). }
  assert (Err : forall j q k e, ps !! j = Some q -> k ∈ ks -> pipe_of e = Some k -> c_tab (op_child q) !! 2 <> Some e).
  { intros j q k e Hq Hk Hpe He. destruct (lookup_lt_is_Some_2 ks j) as [k' Hk']; [apply lookup_lt_Some in Hq; lia|].
    destruct (Hall j k' Hk') as (s & q' & Hs & Hq'). assert (q' = q) as -> by congruence.
    destruct (E7 j s q k' Hs Hq Hk') as (_ & _ & _ & _ & A & _). apply (Hfresh k e Hk Hpe). exists 2. congruence. }
  assert (Out : forall j q, ps !! j = Some q -> exists k, ks !! j = Some k /\ c_tab (op_child q) !! 1 = Some (WEnd k)).
  { intros j q Hq. destruct (lookup_lt_is_Some_2 ks j) as [k' Hk']; [apply lookup_lt_Some in Hq; lia|].
    destruct (Hall j k' Hk') as (s & q' & Hs & Hq'). assert (q' = q) as -> by congruence.
    destruct (E7 j s q k' Hs Hq Hk') as (_ & _ & _ & A & _). eauto. }
  assert (Std : forall j q fd e, ps !! j = Some q -> c_tab (op_child q) !! fd = Some e -> pipe_of e <> None -> stream fd).
  { intros j q fd e Hq He Hpe. eapply (I4 (op_pid q) (op_child q)); [|done..]. apply kids_elem. by eapply elem_of_list_lookup_2. }
  constructor.
  - intros i k Hk. destruct (Hall i k Hk) as (s & p & Hs & Hp). destruct (Out i p Hp) as (k' & Hk' & Ho). assert (k' = k) as -> by congruence.
    destruct (one_holder _ _ _ _ H i p (WEnd k) Hp ltac:(by exists 1) ltac:(done)) as (N1 & N2 & N3). split; [done|]. split; [done|].
    intros j q fd Hq. split.
    + intros He. assert (j = i) as -> by (eapply (N3 j q Hq); by exists fd). split; [done|].
      pose proof (Std i q fd _ Hq He ltac:(done)) as [->|[->| ->]].
      * exfalso. eapply (In0 i q k Hq); [by eapply elem_of_list_lookup_2|done].
      * done.
      * exfalso. eapply (Err i q k (WEnd k) Hq); [by eapply elem_of_list_lookup_2|done|done].
    + intros [-> ->]. congruence.
  - intros i k Hk Hlt. destruct (lookup_lt_is_Some_2 ps (S i) ltac:(lia)) as [p Hp]. pose proof (E9 i p k Hp Hk) as Ho.
    destruct (one_holder _ _ _ _ H (S i) p (REnd k) Hp ltac:(by exists 0) ltac:(done)) as (N1 & N2 & N3). split; [done|]. split; [done|].
    intros j q fd Hq. split.
    + intros He. assert (j = S i) as -> by (eapply (N3 j q Hq); by exists fd). split; [done|].
      pose proof (Std (S i) q fd _ Hq He ltac:(done)) as [->|[->| ->]].
      * done.
      * exfalso. destruct (Out (S i) q Hq) as (k' & _ & Ho'). congruence.
      * exfalso. eapply (Err (S i) q k (REnd k) Hq); [by eapply elem_of_list_lookup_2|done|done].
    + intros [-> ->]. congruence.
  - intros k Hk. assert (Htf : p_tab w' !! f = Some (REnd k)) by (rewrite (E5 k Hk); apply lookup_insert).
    destruct (parent_holder _ _ _ _ H (REnd k) ltac:(by exists f) ltac:(done)) as (N1 & N2). split; [|done].
    intros fd. split; [|by intros ->]. intros He. eapply (I1 fd f); [exact He|exact Htf|done].
Qed.

(** The pipeline as a whole: what the parent and each child have, and who holds the pipes.  [m]: the limit on descriptors *)
Theorem C96_pipeline : forall l w R C fdin fdout m, l <> [] -> pr_history (PS w R C) -> may_start (p_tab w) m fdin ->
  Forall (fun s => os_ok (st_os s) m /\ limit (st_os s) w = m /\
                   str_ok (st_cmd s) /\ Z.of_nat (length (st_cmd s)) + 3 < 2 ^ 30 /\ line true true (st_cmd s) (st_words s)) l ->
  ok (fun '(w', f, ps) => exists R' ks, piped l (p_tab w) R fdin (p_tab w') R' f ps ks /\ isolated (p_tab w') ps ks f C /\
        pr_history (PS w' R' (kids_of ps ++ C)))
     (Exists (fun s => os_can_fail (st_os s)) l) (pipeline l w fdin fdout).
Proof.
  intros l w R C fdin fdout m Hne H Hm Hl. rewrite Forall_forall in Hl.
  eapply ok_mono; [apply (pipeline_ok l w R C fdin fdout m Hne H); [|exact Hm|]| |intros Hx; exact Hx].
  - apply Forall_forall. intros s Hs. destruct (Hl s Hs) as (A & B & _). done.
  - apply Forall_forall. intros s Hs. destruct (Hl s Hs) as (_ & _ & A & B & D). done.
  - intros [[w' f] ps] (R' & ks & HP & HH & Hfresh). exists R', ks. split; [done|]. split; [|done].
    eapply (piped_isolated l (p_tab w) R fdin w' R' f ps ks C Hne HP HH). intros k e Hk He. by apply (Hfresh k e).
Qed.
Print Assumptions C96_pipeline.

(** Its end: pr_close of the last descriptor gives back the descriptors
    the parent had (without the one handed over), and the status it returns is that of the wait for the last child *)
Theorem C96_close : forall l t R fdin w' R' f ps ks C ans p, piped l t R fdin (p_tab w') R' f ps ks ->
  pr_history (PS w' R' (kids_of ps ++ C)) -> last ps = Some p ->
  pr_close_nowait w' f = Ret (after_close w' f, op_pid p) /\
  match pr_close w' f ans with
  | Ret (w'', r) => p_tab w'' = handed fdin t /\ pr_history (PS w'' (handed fdin R) (kids_of ps ++ C)) /\ exists n, pr_wait ans = Ret (r, n)
  | Diverge => pr_wait ans = Diverge
  | _ => False
  end.
Proof.
  intros l t R fdin w' R' f ps ks C ans p HP H Hp.
  assert (HRf : R' !! f = Some (op_pid p)) by (rewrite (pe_reg _ _ _ _ _ _ _ _ _ HP p Hp); apply lookup_insert).
  assert (Hnew : handed fdin t !! f = None) by apply (pe_new _ _ _ _ _ _ _ _ _ HP).
  assert (HhR : handed fdin R !! f = None) by apply (pe_new _ _ _ _ _ _ _ _ _ HP).
  split.
  { pose proof (history_pinv _ H) as I. cbn [ps_w ps_reg ps_kids] in I. apply (close_nowait_ok w' R' f (op_pid p) (i_base _ _ _ I) HRf). }
  pose proof (C55_close w' R' _ f (op_pid p) ans H HRf) as HC. destruct (pr_close w' f ans) as [[w'' r]| | | |]; try done.
  destruct HC as (Ht & HH & Hw). destruct (last ks) as [k|] eqn:Ek.
  - rewrite (pe_tab _ _ _ _ _ _ _ _ _ HP k Ek) in Ht. rewrite delete_insert in Ht by done.
    rewrite (pe_reg _ _ _ _ _ _ _ _ _ HP p Hp) in HH. rewrite delete_insert in HH by done. done.
  - exfalso. destruct (pe_length _ _ _ _ _ _ _ _ _ HP) as [L1 L2]. destruct ks as [|k ks]; [|by destruct (last_is_Some (k :: ks)) as [_ [? ?]]; [|congruence]].
    destruct ps; [done|]. cbn in L1, L2. lia.
Qed.
Print Assumptions C96_close.

(** Only the last child can be reached through the library afterwards.  The pid of any other child of the pipeline (if the
    system gave it to no registered child): no descriptor leads to it, and shutdown neither kills it nor waits for it *)
Theorem C96_forgotten : forall l t R fdin w' R' f ps ks C i p q, piped l t R fdin (p_tab w') R' f ps ks ->
  pr_history (PS w' R' (kids_of ps ++ C)) -> ps !! i = Some p -> last ps = Some q -> op_pid p <> op_pid q ->
  (forall fd, R !! fd <> Some (op_pid p)) ->
  (forall fd w'', pr_close_nowait w' fd <> Ret (w'', op_pid p)) /\
  (forall ans w'' trace, pr_shutdown w' ans = Ret (w'', trace) -> Kill (op_pid p) ∉ trace /\ Wait (op_pid p) ∉ trace).
Proof.
  intros l t R fdin w' R' f ps ks C i p q HP H Hp Hq Hne HR.
  assert (Hno : forall fd, R' !! fd <> Some (op_pid p)).
  { intros fd He. rewrite (pe_reg _ _ _ _ _ _ _ _ _ HP q Hq) in He. apply lookup_insert_Some in He as [[_ He]|[_ He]]; [done|].
    rewrite handed_lookup in He. case_decide; [done|]. by apply (HR fd). }
  split.
  - intros fd w'' He. destruct (R' !! fd) as [pid|] eqn:Er.
    + destruct (C55_close_nowait w' R' _ fd pid H Er) as (w1 & E & _). rewrite E in He. injection He as _ ->. by apply (Hno fd).
    + pose proof (history_pinv _ H) as I. cbn [ps_w ps_reg ps_kids] in I.
      destruct (decide (0 <= fd < p_max w')) as [Hin|Hout].
      * destruct (C55_close_other w' R' _ fd [] H Er ltac:(done)) as [E _]. congruence.
      * destruct (p_objs w') as [objs|] eqn:Eo.
        -- rewrite (C55_close_wild w' R' _ fd H) in He; [done|rewrite Eo; eauto|lia].
        -- destruct (C55_close_other w' R' _ fd [] H Er) as [E _]; [rewrite Eo; by intros [? ?]|congruence].
  - intros ans w'' trace He. destruct (C58_shutdown w' R' _ ans H) as (L & _ & HL & HS). rewrite He in HS. destruct HS as (-> & _).
    split; intros Hin; apply elem_of_list_bind in Hin as ([fd pid] & Hx & Hin); apply HL in Hin; apply (Hno fd);
      repeat (apply elem_of_cons in Hx as [Hx|Hx]; [first [by injection Hx as <-|discriminate Hx]|]); by apply elem_of_nil in Hx.
Qed.
Print Assumptions C96_forgotten.

(** ** A case: three children, the first reading /dev/null, as in tests/pr; then the program closes the last output *)
Definition st1 : stage := Stage (ex_os 100) cmd1 [7%N] ws1.
Definition st2 : stage := Stage (ex_os 101) cmd2 [] ws2.
Definition st3 : stage := Stage (ex_os 102) cmd1 [] ws1.
Definition pl : list stage := [st1; st2; st3].
Definition o_pl := pipeline pl (started ex_t) 0 77.
Definition w_pl : prw := (getr o_pl (started ∅, 0, [])).1.1.
Definition f_pl : Z := (getr o_pl (started ∅, 0, [])).1.2.
Definition ps_pl : list opened := (getr o_pl (started ∅, 0, [])).2.
Example C96_reachable :
  o_pl = Ret (w_pl, f_pl, ps_pl) /\ map op_pid ps_pl = [100; 101; 102] /\ map (fun p => c_words (op_child p)) ps_pl = [ws1; ws2; ws1] /\
  map (fun p => map (fun fd => c_tab (op_child p) !! fd) (seqZ 0 8)) ps_pl =
    [ [Some (DevNull false); Some (WEnd 1); Some (File 3); None; None; None; None; None];
      [Some (REnd 1); Some (WEnd 2); Some (File 3); None; None; None; None; None];
      [Some (REnd 2); Some (WEnd 3); Some (File 3); None; None; None; None; None] ] /\
  map (fun fd => p_tab w_pl !! fd) (seqZ 0 8) = [Some (File 1); Some (File 2); Some (File 3); Some (REnd 3); None; None; None; None] /\ f_pl = 3.
Proof.
  split; [|vm_compute; repeat split]. unfold w_pl, f_pl, ps_pl. assert (H : is_ret o_pl = true) by (vm_compute; reflexivity).
  destruct o_pl as [[[? ?] ?]| | | |]; [reflexivity|discriminate H..].
Qed.
(** the hypotheses of C96_pipeline hold of it *)
Example C96_applies : exists u v, let l := [Stage (ex_os 100) cmd1 [7%N] u; Stage (ex_os 101) cmd2 [] v; Stage (ex_os 102) cmd1 [] u] in
  pr_history (PS (started ex_t) ∅ []) /\ may_start (p_tab (started ex_t)) 16 0 /\
  Forall (fun s => os_ok (st_os s) 16 /\ limit (st_os s) (started ex_t) = 16 /\
                   str_ok (st_cmd s) /\ Z.of_nat (length (st_cmd s)) + 3 < 2 ^ 30 /\ line true true (st_cmd s) (st_words s)) l /\
  pipeline l (started ex_t) 0 77 = Ret (w_pl, f_pl, ps_pl) /\ u = ws1 /\ v = ws2.
Proof.
  destruct line1 as [u Hu]. destruct line2 as [v Hv]. exists u, v. cbn zeta.
  assert (HH : pr_history (PS (started ex_t) ∅ [])) by (apply ph_start, ex_files).
  assert (HM : may_start (p_tab (started ex_t)) 16 0) by (by left).
  assert (Hc1 : str_ok cmd1) by (repeat constructor). assert (Hc2 : str_ok cmd2) by (repeat constructor).
  assert (HF : Forall (fun s => os_ok (st_os s) 16 /\ limit (st_os s) (started ex_t) = 16 /\
                   str_ok (st_cmd s) /\ Z.of_nat (length (st_cmd s)) + 3 < 2 ^ 30 /\ line true true (st_cmd s) (st_words s))
     [Stage (ex_os 100) cmd1 [7%N] u; Stage (ex_os 101) cmd2 [] v; Stage (ex_os 102) cmd1 [] u]).
  { repeat (constructor; [split; [apply ex_os_ok; discriminate|]; split; [reflexivity|]; split; [assumption|]; split; [reflexivity|]; assumption|]). constructor. }
  split; [exact HH|]. split; [exact HM|]. split; [exact HF|].
  assert (HE : pipeline [Stage (ex_os 100) cmd1 [7%N] u; Stage (ex_os 101) cmd2 [] v; Stage (ex_os 102) cmd1 [] u] (started ex_t) 0 77 = o_pl) by reflexivity.
  destruct C96_reachable as (E & _ & Hw & _). rewrite E in HE. clear E. revert HE Hw. generalize w_pl f_pl ps_pl. intros w0 f0 ps0 HE Hw. split; [exact HE|].
  revert HF HE. assert (Hne : [Stage (ex_os 100) cmd1 [7%N] u; Stage (ex_os 101) cmd2 [] v; Stage (ex_os 102) cmd1 [] u] <> []) by discriminate.
  revert Hne. generalize (ex_os 100) (ex_os 101) (ex_os 102). intros y1 y2 y3 Hne HF HE. revert HH HM HF HE. generalize (started ex_t). intros w HH HM HF HE.
  pose proof (C96_pipeline _ w ∅ [] 0 77 16 Hne HH HM HF) as HP. rewrite HE in HP. cbn [ok] in HP.
  destruct HP as (R' & ks & HP & _). destruct (pe_length _ _ _ _ _ _ _ _ _ HP) as [L1 L2].
  destruct ps0 as [|p1 [|p2 [|p3 [|? ?]]]]; try discriminate L1. destruct ks as [|k1 [|k2 [|k3 [|? ?]]]]; try discriminate L2.
  cbn [map] in Hw. injection Hw as W1 W2 _.
  destruct (pe_child _ _ _ _ _ _ _ _ _ HP 0%nat _ _ _ eq_refl eq_refl eq_refl) as (_ & _ & V1 & _).
  destruct (pe_child _ _ _ _ _ _ _ _ _ HP 1%nat _ _ _ eq_refl eq_refl eq_refl) as (_ & _ & V2 & _).
  cbn [st_words] in V1, V2. split; congruence.
Qed.
