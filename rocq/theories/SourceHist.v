(** Histories of source.c calls; the massage of yyerror messages. *)
From Verif Require Import Base ListLemmas CStr StackModel StackProofs ObjModel ObjProofs MemModel MemProofs MemHist PrimeModel HashModel HashFnModel HashFnProofs.
From Verif Require ArgHist.
From Verif Require Import StrModel StrProofs StrHist ArgModel ArgSpec ArgProofs ArgProps PrsModel PrsSpec PrsProofs SourceModel SourceSpec SourceProofs.
Local Open Scope Z_scope.

Lemma copy_ok name rest : 39%N ∉ name -> str_ok name -> copy_symbol (name ++ 39%N :: rest) = Ret (name, 39%N :: rest).
Proof.
  induction name as [|c name IH]; intros Hn Hs; [done|]. apply not_elem_of_cons in Hn as [H1 H2]. apply Forall_cons in Hs as [Hc Hs].
  cbn [app copy_symbol]. destruct (N.eqb_spec c 0); [lia|]. destruct (N.eqb_spec c 39); [congruence|]. cbn [orb]. rewrite IH by done. by rb.
Qed.
Lemma copy_open name rest : 39%N ∉ name -> str_ok name -> copy_symbol (name ++ 0%N :: rest) = Ret (name, 0%N :: rest).
Proof.
  induction name as [|c name IH]; intros Hn Hs; [done|]. apply not_elem_of_cons in Hn as [H1 H2]. apply Forall_cons in Hs as [Hc Hs].
  cbn [app copy_symbol]. destruct (N.eqb_spec c 0); [lia|]. destruct (N.eqb_spec c 39); [congruence|]. cbn [orb]. rewrite IH by done. by rb.
Qed.
(** the test of source.c:326 and the one of 329, as in [yy_loop] *)
Definition quoted_test (pt : list N) (c1 : N) : res bool :=
  if (c1 =? 96)%N then
    c2 ← aget pt 2;
    if (c2 =? 0)%N then Ret false else
    c3 ← aget pt 3;
    if negb (c3 =? 39)%N then Ret false else
    c4 ← aget pt 4; Ret (c4 =? 39)%N
  else Ret false.
Definition symbol_test (pt : list N) (c1 : N) : res bool :=
  if (c1 =? 84)%N then c2 ← aget pt 2; Ret (c2 =? 95)%N else Ret false.
Lemma tests_false s rest : str_ok s -> ~ constant (96%N :: s) -> ~ symbolic (96%N :: s) ->
  exists c1, aget (96%N :: s ++ 0%N :: rest) 1 = Ret c1 /\ quoted_test (96%N :: s ++ 0%N :: rest) c1 = Ret false /\
    symbol_test (96%N :: s ++ 0%N :: rest) c1 = Ret false.
Proof.
  intros Hs Hc Hy. unfold quoted_test, symbol_test. destruct s as [|c1 s]; [by exists 0%N|]. exists c1. split; [done|].
  apply Forall_cons in Hs as [H1 Hs]. split.
  - destruct (N.eqb_spec c1 96) as [->|]; [|done]. destruct s as [|c2 s]; [done|]. apply Forall_cons in Hs as [H2 Hs].
    cbn [app]. rewrite (aget_Some _ 2 c2) by done. rb. destruct (N.eqb_spec c2 0); [lia|]. destruct s as [|c3 s]; [done|].
    cbn [app]. rewrite (aget_Some _ 3 c3) by done. rb. destruct (N.eqb_spec c3 39) as [->|]; [|done]. cbn [negb].
    destruct s as [|c4 s]; [done|]. cbn [app]. rewrite (aget_Some _ 4 c4) by done. rb. destruct (N.eqb_spec c4 39) as [->|]; [|done].
    exfalso. apply Hc. exists c2, s. split; [lia|done].
  - destruct (N.eqb_spec c1 84) as [->|]; [|done]. destruct s as [|c2 s]; [done|]. apply Forall_cons in Hs as [H2 Hs].
    cbn [app]. rewrite (aget_Some _ 2 c2) by done. rb. destruct (N.eqb_spec c2 95) as [->|]; [|done].
    exfalso. apply Hy. by exists s.
Qed.
Lemma symbolic_name name : symbolic (96%N :: name ++ [39%N]) -> exists n2, name = [84; 95]%N ++ n2.
Proof.
  intros [s' E]. cbn [app] in E. injection E as E. destruct name as [|c1 [|c2 n2]]; [done|done|]. cbn [app] in E.
  injection E as -> -> _. by exists n2.
Qed.

Lemma yy_ok R s out : massage R s out -> forall p G fuel rest, prs_history p G R -> str_ok s -> (length s < fuel)%nat ->
  exists p', yy_loop fuel p (s ++ 0%N :: rest) = Ret (p', out) /\ prs_history p' G R /\ rw p' = rw p.
Proof.
  induction 1 as [|c s out Hc _ IH|c s out Hc _ IH|name s out Hn Hsym Hlen _ IH|s out Hk Hy _ IH]; intros p G fuel rest Hp Hs Hf;
    (destruct fuel as [|fuel]; [lia|]).
  - exists p. by split.
  - apply Forall_cons in Hs as [Hc0 Hs]. cbn [length] in Hf. destruct (IH p G fuel rest Hp Hs ltac:(lia)) as (p' & E & Hp' & Hr).
    exists p'. split; [|done]. cbn [app yy_loop]. rewrite (aget_Some _ 0 c) by done. rb.
    destruct (N.eqb_spec c 0); [lia|]. destruct (N.eqb_spec c 96); [done|]. cbn [skipn]. rewrite ?drop_0. rewrite E. by rb.
  - assert (Hs' : str_ok s) by (by do 5 apply Forall_cons in Hs as [_ Hs]).
    cbn [app length] in Hf. destruct (IH p G fuel rest Hp Hs' ltac:(lia)) as (p' & E & Hp' & Hr).
    exists p'. split; [|done]. cbn [app yy_loop]. rewrite (aget_Some _ 0 96%N) by done. rb.
    rewrite (aget_Some _ 1 96%N), (aget_Some _ 2 c), (aget_Some _ 3 39%N), (aget_Some _ 4 39%N) by done.
    cbn [N.eqb Pos.eqb]. rb. destruct (N.eqb_spec c 0); [done|]. cbn [negb]. rb. cbn [skipn]. rewrite ?drop_0. rewrite E. by rb.
  - apply Forall_cons in Hs as [_ Hs]. apply Forall_app in Hs as [Hsn Hs]. apply Forall_cons in Hs as [_ Hs].
    cbn [length] in Hf. rewrite app_length in Hf. cbn [length] in Hf.
    destruct (concrete_ok p G R name [] (prs_history_inv _ _ _ Hp) Hsn) as (p1 & r & E1 & _ & Hr1 & Hres).
    assert (Hp1 : prs_history p1 G R) by (eapply ph_concrete; [exact Hp|exact Hsn|exact E1]).
    destruct (IH p1 G fuel rest Hp1 Hs ltac:(lia)) as (p' & E & Hp' & Hr).
    exists p'. split; [|split; [done|by rewrite Hr]]. destruct (symbolic_name name Hsym) as [n2 En].
    cbn [app yy_loop]. rewrite (aget_Some _ 0 96%N) by done. rb. cbn [N.eqb Pos.eqb].
    assert (Ha1 : aget (96%N :: (name ++ 39%N :: s) ++ 0%N :: rest) 1 = Ret 84%N) by (rewrite En; done).
    assert (Ha2 : aget (96%N :: (name ++ 39%N :: s) ++ 0%N :: rest) 2 = Ret 95%N) by (rewrite En; done).
    rewrite Ha1. rb. cbn [N.eqb Pos.eqb]. rb. rewrite Ha2. rb. cbn [N.eqb Pos.eqb skipn]. rewrite ?drop_0.
    rewrite <- app_assoc. cbn [app]. rewrite (copy_ok name _ Hn Hsn). rb. rewrite (proj2 (N.leb_gt 1024 (N.of_nat (length name)))) by lia.
    rewrite E1. rb. cbn [skipn]. rewrite ?drop_0.
    assert (Hname : match r with Some _ => str_at (mblk (pmem (rw p1))) r | None => Ret name end = Ret (concrete_of R name)).
    { unfold concrete_of. destruct (first_concrete name R) as [c|]; [|by subst r].
      destruct Hres as (d & pp & q & -> & Hgl & Hq & Hin). rewrite Hr1. unfold str_at.
      destruct (prs_history_inv _ _ _ Hp) as [Hh _]. destruct (int_memory _ _ Hh pp q Hq c d Hin) as [Hc [rr Hm]].
      rewrite (hget_Some _ _ _ Hm). rb. by apply c_string_spec. }
    rewrite Hname. rb. rewrite E. rb. done.
  - apply Forall_cons in Hs as [_ Hs]. cbn [length] in Hf. destruct (IH p G fuel rest Hp Hs ltac:(lia)) as (p' & E & Hp' & Hr).
    exists p'. split; [|done]. destruct (tests_false s rest Hs Hk Hy) as (c1 & E1 & E2 & E3).
    cbn [app yy_loop]. rewrite (aget_Some _ 0 96%N) by done. rb. cbn [N.eqb Pos.eqb]. rewrite E1. rb.
    fold (quoted_test (96%N :: s ++ 0%N :: rest) c1). fold (symbol_test (96%N :: s ++ 0%N :: rest) c1).
    rewrite E2. rb. rewrite E3. rb. cbn [skipn]. rewrite ?drop_0. rewrite E. by rb.
Qed.
(** every message has at most one massaged form *)
Lemma yy_open p fuel pre tail : 96%N ∉ pre -> 39%N ∉ tail -> str_ok pre -> str_ok tail ->
  (length pre + 4 < fuel)%nat -> forall G R, prs_history p G R ->
  yy_loop fuel p (pre ++ [96; 84; 95]%N ++ tail ++ [0%N]) = UB.
Proof.
  intros Hpre Ht Hs1 Hs2 Hf G R Hp. revert fuel Hf. induction pre as [|c pre IH]; intros fuel Hf; (destruct fuel as [|fuel]; [cbn [length] in Hf; lia|]).
  - cbn [app yy_loop]. rewrite (aget_Some _ 0 96%N), (aget_Some _ 1 84%N), (aget_Some _ 2 95%N) by done. rb. cbn [N.eqb Pos.eqb]. rb. cbn [skipn]. rewrite ?drop_0.
    assert (Hc : copy_symbol (84%N :: 95%N :: tail ++ [0%N]) = Ret (84%N :: 95%N :: tail, [0%N])).
    { apply (copy_open (84%N :: 95%N :: tail) []).
      - intros [?|[?|?]%elem_of_cons]%elem_of_cons; try done.
      - by repeat constructor. }
    rewrite Hc. rb. destruct (1024 <=? _)%N; [done|].
    assert (Hsn : str_ok (84%N :: 95%N :: tail)) by (by repeat constructor).
    destruct (concrete_ok p G R (84%N :: 95%N :: tail) [] (prs_history_inv _ _ _ Hp) Hsn) as (p1 & r & E1 & _ & Hr1 & Hres).
    cbn [app] in E1 |- *. rewrite E1. rb.
    assert (Hname : exists nm, match r with Some _ => str_at (mblk (pmem (rw p1))) r | None => Ret (84%N :: 95%N :: tail) end = Ret nm).
    { destruct (first_concrete _ R) as [c|]; [|subst r; eauto].
      destruct Hres as (d & pp & q & -> & Hgl & Hq & Hin). rewrite Hr1. unfold str_at. exists c.
      destruct (prs_history_inv _ _ _ Hp) as [Hh _]. destruct (int_memory _ _ Hh pp q Hq c d Hin) as [Hc' [rr Hm]].
      rewrite (hget_Some _ _ _ Hm). rb. by apply c_string_spec. }
    destruct Hname as [nm ->]. rb. cbn [skipn]. rewrite ?drop_0. destruct fuel as [|fuel]; [cbn [length] in Hf; lia|]. done.
  - apply not_elem_of_cons in Hpre as [H1 H2]. apply Forall_cons in Hs1 as [Hc Hs1]. cbn [length] in Hf.
    cbn [app yy_loop]. rewrite (aget_Some _ 0 c) by done. rb. destruct (N.eqb_spec c 0); [lia|]. destruct (N.eqb_spec c 96); [congruence|].
    cbn [skipn]. rewrite ?drop_0. specialize (IH H2 Hs1 fuel ltac:(lia)). cbn [app] in IH. by rewrite IH.
Qed.
(** a symbol of 1024 characters or more *)
Lemma yy_long p fuel pre name rest : 96%N ∉ pre -> 39%N ∉ name -> str_ok pre -> str_ok name -> (1022 <= N.of_nat (length name))%N ->
  (length pre + 1 < fuel)%nat -> yy_loop fuel p (pre ++ [96; 84; 95]%N ++ name ++ 39%N :: rest) = UB.
Proof.
  intros Hpre Ht Hs1 Hs2 Hlong. revert fuel. induction pre as [|c pre IH]; intros fuel Hf; (destruct fuel as [|fuel]; [cbn [length] in Hf; lia|]).
  - cbn [app yy_loop]. rewrite (aget_Some _ 0 96%N), (aget_Some _ 1 84%N), (aget_Some _ 2 95%N) by done. rb. cbn [N.eqb Pos.eqb]. rb. cbn [skipn].
    assert (Hc : copy_symbol (84%N :: 95%N :: name ++ 39%N :: rest) = Ret (84%N :: 95%N :: name, 39%N :: rest)).
    { apply (copy_ok (84%N :: 95%N :: name) rest).
      - intros [?|[?|?]%elem_of_cons]%elem_of_cons; try done.
      - by repeat constructor. }
    rewrite ?drop_0. rewrite Hc. rb. rewrite (proj2 (N.leb_le _ _)); [done|]. cbn [length]. lia.
  - apply not_elem_of_cons in Hpre as [H1 H2]. apply Forall_cons in Hs1 as [Hc Hs1]. cbn [length] in Hf.
    cbn [app yy_loop]. rewrite (aget_Some _ 0 c) by done. rb. destruct (N.eqb_spec c 0); [lia|]. destruct (N.eqb_spec c 96); [congruence|].
    cbn [skipn]. rewrite ?drop_0. specialize (IH H2 Hs1 fuel ltac:(lia)). cbn [app] in IH. by rewrite IH.
Qed.

(** ** src_line in every state *)
Lemma line_creates al w x len : v_lines w = None -> src_line al w x len = (w1 ← src_create al w; src_line al w1 x len).
Proof.
  intros Hl. unfold src_line. rewrite Hl. unfold src_create. rewrite Hl.
  destruct (sa_vec al (8 * N.of_nat INCREMENT)); [|done].
  destruct (mem_create_strings _ _) as [[? ?]| | | |]; try done. cbn [mbind res_bind].
  destruct (mem_create_objects _ _ _) as [[? ?]| | | |]; try done.
Qed.
Lemma line_unfit al w G R g s rest len : src_inv w G R g -> salloc_ok al -> is_Some (v_lines w) -> ~ fits w ->
  0 <= len < Z.of_nat (length (s ++ 0%N :: rest)) -> line_room g len ->
  match src_line al w (s ++ 0%N :: rest) len with UB => True | Fatal => src_fail al | _ => False end.
Proof.
  intros I Hal [v Hv] Hfit Hlen (Hr1 & Hr2 & Hr3). pose proof (n_mem _ _ _ _ I) as Hm. rewrite Hv in Hm.
  destruct Hm as (i & j & D & L & [A1 A2 A3 [M IM] A5 A6 A7 A8 A9 A10 A11 A12 A13 A14 A15]).
  unfold src_line. rewrite Hv. rb. rewrite (n_line _ _ _ _ I). rewrite (sint_in (g_line g + 1)) by exact Hr3. rb.
  rewrite A2. unfold heap_of. rb.
  pose proof (strncpy_spec (sa_mem al) (w_text w) _ M i _ (s ++ 0%N :: rest) len IM (sal_mem _ Hal) (sal_node _ Hal) (lookup_singleton _ _)) as Hc.
  cbn [s_done s_bytes] in Hc. rewrite A6 in Hc. specialize (Hc ltac:(lia) ltac:(lia) A7 ltac:(lia) ltac:(lia)).
  destruct (mem_strncpy _ _ _ _ _) as [[m a]| | | |]; try done; [|right; by left]. rb. rewrite Hv. unfold aset, fits in *.
  assert ((Z.to_nat (v_used w) <? length v)%nat = false) as E by (apply Nat.ltb_ge; lia).
  destruct (v !! Z.to_nat (v_used w)) eqn:El; [apply lookup_lt_Some in El; lia|]. done.
Qed.
Lemma created_exists g : g_exists g = true -> created g = g.
Proof. intros H. unfold created. by rewrite H. Qed.
Lemma created_idem g : created (created g) = created g.
Proof. unfold created. destruct (g_exists g) eqn:E; [by rewrite E|done]. Qed.
Lemma exists_lines w G R g : src_inv w G R g -> (is_Some (v_lines w) <-> g_exists g = true).
Proof.
  intros I. pose proof (n_mem _ _ _ _ I) as Hm. destruct (v_lines w) as [v|].
  - destruct Hm as (i & j & D & L & A). split; [|eauto]. intros _. apply A.
  - pose proof (d_exists _ _ Hm). split; [by intros [? ?]|congruence].
Qed.
(** the array has room for the next line: always, unless the manager was created anew after
    1000 lines or more *)
Lemma fits_iff w G R g : src_inv w G R g -> is_Some (v_lines w) -> (fits w <-> ~ (g_lines g = [] /\ (1000 <= g_before g)%nat)).
Proof.
  intros I [v Hv]. pose proof (n_mem _ _ _ _ I) as Hm. rewrite Hv in Hm. destruct Hm as (i & j & D & L & A).
  pose proof (l_room _ _ _ _ _ _ _ _ A) as Hr. unfold fits. pose proof (n_used _ _ _ _ I) as Hu.
  destruct Hr as [[Hr1 Hr2]|(Hr1 & Hr2 & _)].
  - split; [tauto|]. intros _. rewrite Hr2. Z.div_mod_to_equations. lia.
  - rewrite Hr1 in Hu. cbn [length] in Hu. rewrite Hu, Hr2. assert (g_lines g = [] /\ (1000 <= g_before g)%nat <-> (1000 <= g_before g)%nat) as -> by tauto.
    lia.
Qed.
Lemma line_any al w G R g s rest len : src_inv w G R g -> salloc_ok al -> str_ok s ->
  Z.of_nat (length s) <= len < Z.of_nat (length (s ++ 0%N :: rest)) -> line_room (created g) len ->
  match src_line al w (s ++ 0%N :: rest) len with
  | Ret (w', a) => src_inv w' G R (lined g (tabless s) len) /\ ~ (g_lines g = [] /\ (1000 <= g_before g)%nat) /\
      (exists r, mblk (w_text w') !! a = Some (tabless s ++ 0%N :: r)) /\ w_prs w' = w_prs w
  | Fatal => src_fail al
  | UB => g_lines g = [] /\ (1000 <= g_before g)%nat
  | _ => False
  end.
Proof.
  assert (Halive : forall w g, src_inv w G R g -> salloc_ok al -> is_Some (v_lines w) -> str_ok s ->
    Z.of_nat (length s) <= len < Z.of_nat (length (s ++ 0%N :: rest)) -> line_room g len ->
    match src_line al w (s ++ 0%N :: rest) len with
    | Ret (w', a) => src_inv w' G R (lined g (tabless s) len) /\ ~ (g_lines g = [] /\ (1000 <= g_before g)%nat) /\
        (exists r, mblk (w_text w') !! a = Some (tabless s ++ 0%N :: r)) /\ w_prs w' = w_prs w
    | Fatal => src_fail al
    | UB => g_lines g = [] /\ (1000 <= g_before g)%nat
    | _ => False
    end).
  { clear w g. intros w g I Hal Hl Hs Hlen Hroom. pose proof (fits_iff w G R g I Hl) as Hiff.
    destruct (decide (v_used w < v_count w)) as [Hf|Hf].
    - pose proof (line_alive al w G R g s rest len I Hal Hl Hf Hs Hlen Hroom) as H.
      destruct (src_line al w _ len) as [[w' a]| | | |]; cbn [ok] in H; try done. destruct H as (H1 & H2 & H3 & H4). split; [done|]. split; [by apply Hiff|]. done.
    - pose proof (line_unfit al w G R g s rest len I Hal Hl Hf ltac:(lia) Hroom) as H.
      destruct (src_line al w _ len) as [[w' a]| | | |]; try done.
      destruct (decide (g_lines g = [])) as [E|E]; [destruct (decide (1000 <= g_before g)%nat); [done|]|]; exfalso; apply Hf; apply Hiff; intros [? ?]; done. }
  intros I Hal Hs Hlen Hroom. destruct (v_lines w) as [v|] eqn:El.
  - assert (Hex : g_exists g = true) by (apply (exists_lines w G R g I); rewrite El; eauto).
    rewrite (created_exists g Hex) in Hroom. by apply Halive.
  - rewrite line_creates by done. pose proof (create_inv al w G R g I Hal El) as Hc.
    pose proof (n_mem _ _ _ _ I) as Hd. rewrite El in Hd.
    destruct (src_create al w) as [w1| | | |]; cbn [ok] in Hc; try done. destruct Hc as (I1 & Hx & Hl & _ & _ & Hp & _). rb.
    specialize (Halive w1 (created g) I1 Hal Hl Hs Hlen Hroom).
    assert (Hlined : lined (created g) (tabless s) len = lined g (tabless s) len) by (unfold lined; by rewrite created_idem).
    assert (Hgl : g_lines (created g) = g_lines g) by (unfold created; rewrite Hx; cbn [g_lines]; by rewrite (d_lines _ _ Hd)).
    assert (Hgb : g_before (created g) = g_before g) by (unfold created; by rewrite Hx).
    rewrite Hlined, Hgl, Hgb, Hp in Halive. done.
Qed.

(** ** every call *)
Lemma register_files (first : bool) al s G R sym con r1 r2 p' x y a1 a2 w1 G1 G' : prs_history s G R -> palloc_ok al ->
  str_ok sym -> str_ok con -> roomy (rw s) G sym con ->
  (x, y) = (if first then ((sym, r1), (con, r2)) else ((con, r2), (sym, r1))) ->
  gfind al (rw s, G) x a1 (w1, G1) -> gfind al (w1, G1) y a2 (p', G') ->
  forall fp name, file_ok (rw s) G fp name -> file_ok p' G' fp name.
Proof.
  intros H Hal Hs1 Hs2 Hr Exy F1 F2. pose proof (prs_history_inv _ _ _ H) as [Hh _].
  assert (Hgo : forall s1 q1 s2 q2, str_ok s1 -> str_ok s2 -> roomy (rw s) G s1 s2 ->
     gfind al (rw s, G) (s1, q1) a1 (w1, G1) -> gfind al (w1, G1) (s2, q2) a2 (p', G') ->
     forall fp name, file_ok (rw s) G fp name -> file_ok p' G' fp name).
  { intros s1 q1 s2 q2 K1 K2 K3 K4 K5 fp name. destruct name as [nm|]; [|done]. intros (p0 & q0 & a0 & E1 & E2 & -> & Hin).
    assert (X1 : str_find al (rw s) (s1 ++ 0%N :: q1) = Ret (w1, a1)) by (by inversion K4).
    assert (X2 : str_find al w1 (s2 ++ 0%N :: q2) = Ret (p', a2)) by (by inversion K5).
    destruct (two_ok al (rw s) G s1 s2 q1 q2 Hh Hal K1 K2 K3) as [_ T].
    destruct (T w1 a1 p' a2 G1 G' X1 X2 K4 K5) as (_ & p & g & Hp & Hg & _ & _ & Hx).
    destruct (Hx p0 q0 E1 E2) as [-> [l El]]. exists p, g, a0. rewrite El. repeat split; try done. apply elem_of_app. by right. }
  destruct first; injection Exy as -> ->.
  - by apply (Hgo sym r1 con r2).
  - apply (Hgo con r2 sym r1); try done. intros g Hg. destruct (Hr g Hg) as (H1 & H2 & H3). split; [done|]. split; [done|]. lia.
Qed.
Lemma cpp_bound al w src n w' : src_cpp_line al w src n = Ret w' -> n < 2 ^ 31 - 1.
Proof.
  unfold src_cpp_line, sint, int_range, INT_MAX. intros E. destruct (Z.leb_spec (n + 1) (2 ^ 31 - 1)); [lia|].
  rewrite andb_false_r in E. done.
Qed.
Lemma call_inv w G R g w' G' R' g' : src_inv w G R g -> src_call (w, G, R, g) (w', G', R', g') -> src_inv w' G' R' g'.
Proof.
  intros I Hc. inversion Hc; subst.
  - match goal with E : src_create _ _ = Ret _ |- _ => rename E into Hcr end.
    destruct (v_lines w) as [v|] eqn:El; [unfold src_create in Hcr; by rewrite El in Hcr|].
    match goal with Ha : salloc_ok _ |- _ => pose proof (create_inv _ w _ _ _ I Ha El) as Hci end. rewrite Hcr in Hci. apply Hci.
  - match goal with E : src_destroy _ = Ret _, Hx : g_exists _ = true |- _ => destruct (destroy_inv _ _ _ _ I Hx) as (w1 & E1 & Hd1 & _); rewrite E in E1 end.
    by injection E1 as ->.
  - match goal with E : src_line _ _ _ _ = Ret _, Ha : salloc_ok _, Hs : str_ok _, Hl : _ <= _ < _, Hr : line_room _ _ |- _ =>
      pose proof (line_any _ _ _ _ _ _ _ _ I Ha Hs Hl Hr) as Hla; rewrite E in Hla end. apply Hla.
  - match goal with E : src_new_file _ _ _ = Ret _, Ha : salloc_ok _, Hs : str_ok _, Hr : name_room _ _ _, Hf : gfind _ _ _ _ _ |- _ =>
      exact (proj1 (new_file_inv _ _ _ _ _ _ _ _ _ _ I Ha Hs Hr E Hf)) end.
  - by apply number_inv.
  - by eapply advance_inv.
  - match goal with E : src_cpp_line ?al w ?src ?n = Ret _, Ha : salloc_ok _, Hs : str_ok ?s, Hl : line true true _ _, Hn : number _ _, Hz : is_int _ |- _ =>
      pose proof (cpp_bound _ _ _ _ _ E) as Hb; pose proof (line_chars _ true true s _ Hl Hs) as Hws;
      destruct (cpp_run al w G' R' g src n s _ I Ha ltac:(done) Hs ltac:(done) Hb Hl) as [[Hfa _]|(aw' & Haw & Er)]; [congruence|];
      rewrite Er in E; rename E into Erun; pose proof (number_atoi _ _ Hn) as Hat; rewrite (sint_in _ Hz) in Hat end.
    apply Forall_cons in Hws as [_ Hws]. apply Forall_cons in Hws as [Hv1 _]. rewrite (Hat Hv1) in Erun. cbn [mbind res_bind] in Erun.
    injection Erun as <-. apply arg_inv; [|done]. by apply number_inv.
  - match goal with E : src_cpp_line ?al w ?src ?n = Ret _, Ha : salloc_ok _, Hs : str_ok ?s, Hl : line true true _ _, Hn : number _ _, Hz : is_int _ |- _ =>
      pose proof (cpp_bound _ _ _ _ _ E) as Hb; pose proof (line_chars _ true true s _ Hl Hs) as Hws;
      destruct (cpp_run al w G R' g src n s _ I Ha ltac:(done) Hs ltac:(done) Hb Hl) as [[Hfa _]|(aw' & Haw & Er)]; [congruence|];
      rewrite Er in E; rename E into Erun; pose proof (number_atoi _ _ Hn) as Hat; rewrite (sint_in _ Hz) in Hat end.
    apply Forall_cons in Hws as [_ Hws]. apply Forall_cons in Hws as [Hv1 Hws]. apply Forall_cons in Hws as [Hv2 _].
    rewrite (Hat Hv1) in Erun. cbn [mbind res_bind] in Erun.
    match goal with _ : context [numbered g (cpp_number ?z)] |- _ => pose proof (number_inv w G R' g (cpp_number z) I) as I2 | |- context [numbered g (cpp_number ?z)] => pose proof (number_inv w G R' g (cpp_number z) I) as I2 end.
    match type of Erun with context [src_new_file ?al ?ww ?vv] => destruct (src_new_file al ww vv) as [w2| | | |] eqn:E2; try done end.
    cbn [mbind res_bind] in Erun. injection Erun as <-. apply arg_inv; [|done].
    match goal with Ha : salloc_ok _, Hr : name_room _ _ _, Hf : gfind _ _ _ _ _ |- _ =>
      exact (proj1 (new_file_inv _ _ _ _ _ _ _ _ _ _ I2 Ha Hv2 Hr E2 Hf)) end.
  - match goal with E : src_get _ _ _ = Ret _, Ha : salloc_ok _, Hr : token_room _ _ |- _ => rename E into Eg;
      pose proof (fun n => get_inv _ w _ _ _ n I Ha) as Hgi end.
    destruct (v_lines w) as [v|] eqn:El; [|unfold src_get in Eg; by rewrite El in Eg].
    match goal with Hr : token_room _ _ |- _ => specialize (Hgi _ (ex_intro _ _ eq_refl) Hr) end. rewrite Eg in Hgi. apply Hgi.
  - match goal with E : src_parse_error _ _ _ (Some (?s ++ 0%N :: ?rest)) = Ret _, Hm : massage _ _ _, Hs : str_ok _ |- _ =>
      destruct (yy_ok _ _ _ Hm (w_prs w) G' (S (length (s ++ 0%N :: rest))) rest (n_prs _ _ _ _ I) Hs ltac:(rewrite app_length; lia)) as (p' & Ey & Hp' & Hrw);
      unfold src_parse_error in E; unfold print_yyerror in E; rename E into Ep end.
    destruct (head w source); try done. cbn [mbind res_bind] in Ep. rewrite Ey in Ep. cbn [mbind res_bind] in Ep.
    destruct (print_error _ source); try done. cbn [mbind res_bind] in Ep. injection Ep as <- _.
    apply (prs_inv_step w G' R' g' p' G' R' I Hp'). intros fp name _. by rewrite Hrw.
  - match goal with Hp : pcall _ _, Ho : _ \/ _ |- _ => rename Hp into Hpc; rename Ho into Hor end.
    apply (prs_inv_step w G R' g' _ G' R' I).
    + eapply ph_string; [apply I|exact Hpc|tauto].
    + intros fp name Hnm. cbn [rw]. destruct Hor as [[_ Hn]|Hgl]; [apply file_none; by apply Hnm|]. eapply file_step; [by eapply lineage|exact Hpc|done].
  - match goal with E : prs_register_concrete _ _ _ _ _ = Ret _ |- _ => rename E into Er end.
    eapply (prs_inv_step w G R g' _ G' _ I).
    + eapply ph_register; [apply I|..]; eassumption.
    + intros fp name _. eapply register_files; [apply I| | | |eassumption|eassumption|eassumption|eassumption]; eassumption.
  - match goal with E : prs_concrete _ (?sym ++ 0%N :: ?rest) = Ret _, Hs : str_ok _ |- _ => rename E into Ec;
      destruct (concrete_ok (w_prs w) _ _ sym rest (prs_history_inv _ _ _ (n_prs _ _ _ _ I)) Hs) as (p1 & r1 & E1 & _ & Hrw & _) end.
    rewrite Ec in E1. injection E1 as <- _. eapply (prs_inv_step w _ _ _ _ _ _ I); [eapply ph_concrete; [apply I|eassumption|exact Ec]|].
    intros fp name _. by rewrite Hrw.
Qed.
Lemma later_inv x y : src_later x y -> match x, y with (w, G, R, g), (w', G', R', g') => src_inv w G R g -> src_inv w' G' R' g' end.
Proof.
  induction 1 as [[[[w G] R] g]|[[[w G] R] g] [[[w1 G1] R1] g1] [[[w2 G2] R2] g2] Hc _ IH]; [done|].
  intros I. apply IH. by eapply call_inv.
Qed.
Lemma history_inv w G R g : src_history w G R g -> src_inv w G R g.
Proof. intros H. apply (later_inv _ _ H). apply inv_start. Qed.
