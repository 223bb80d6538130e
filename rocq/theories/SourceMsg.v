(** yyerror messages in full; what the prints show; decimal numbers. *)
From Verif Require Import Base ListLemmas CStr StackModel StackProofs ObjModel ObjProofs MemModel MemProofs MemHist PrimeModel HashModel HashFnModel HashFnProofs.
From Verif Require ArgHist.
From Verif Require Import StrModel StrProofs StrHist ArgModel ArgSpec ArgProofs ArgProps PrsModel PrsSpec PrsProofs SourceModel SourceSpec SourceProofs SourceHist.
Local Open Scope Z_scope.

(** ** decimal numbers *)
Lemma value_snoc ds d : value (ds ++ [d]) = 10 * value ds + (Z.of_N d - 48).
Proof. unfold value. by rewrite fold_left_app. Qed.
Lemma digits_decimal fuel : forall n, (0 < fuel)%nat -> (n < 10 ^ N.of_nat fuel)%N ->
  Forall digit (digits fuel n) /\ value (digits fuel n) = Z.of_N n /\
  match digits fuel n with [] => False | d :: ds' => d = 48%N -> ds' = [] end /\ ((0 < n)%N -> hd_error (digits fuel n) <> Some 48%N).
Proof.
  induction fuel as [|fuel IH]; intros n Hf Hn; [lia|]. cbn [digits].
  destruct (N.ltb_spec n 10) as [Hlt|Hge].
  - split; [repeat constructor; unfold digit; lia|]. split; [unfold value; cbn [fold_left]; lia|]. split; [done|]. cbn [hd_error]. intros H [= E]. lia.
  - destruct fuel as [|fuel]; [cbn in Hn; lia|].
    assert (Hq : (n / 10 < 10 ^ N.of_nat (S fuel))%N).
    { apply N.div_lt_upper_bound; [lia|]. rewrite <- N.pow_succ_r' . by replace (N.succ (N.of_nat (S fuel))) with (N.of_nat (S (S fuel))) by lia. }
    assert (Hpos : (0 < n / 10)%N) by (apply N.div_str_pos; lia).
    destruct (IH (n / 10)%N ltac:(lia) Hq) as (I1 & I2 & I3 & I4).
    pose proof (N.mod_lt n 10 ltac:(lia)). pose proof (N.div_mod n 10 ltac:(lia)).
    split; [|split; [|split]].
    + apply Forall_app. split; [done|]. repeat constructor; unfold digit; lia.
    + rewrite value_snoc, I2. lia.
    + destruct (digits (S fuel) (n / 10)) as [|d ds]; [done|]. cbn [app]. intros ->. by specialize (I4 Hpos).
    + intros _. destruct (digits (S fuel) (n / 10)) as [|d ds]; [done|]. cbn [app hd_error]. by apply I4.
Qed.
Lemma itoa_decimal z : is_int z -> decimal z (c_itoa z).
Proof.
  intros Hz. unfold is_int in Hz. unfold decimal, c_itoa. destruct (Z.ltb_spec z 0) as [Hn|Hn].
  - destruct (digits_decimal 10 (Z.to_N (- z)) ltac:(lia)) as (H1 & H2 & H3 & _); [change (10 ^ N.of_nat 10)%N with 10000000000%N; lia|].
    exists (digits 10 (Z.to_N (- z))). rewrite decide_True by done. split; [done|]. split; [done|]. split; [rewrite H2; lia|done].
  - destruct (digits_decimal 10 (Z.to_N z) ltac:(lia)) as (H1 & H2 & H3 & _); [change (10 ^ N.of_nat 10)%N with 10000000000%N; lia|].
    exists (digits 10 (Z.to_N z)). rewrite decide_False by lia. split; [done|]. split; [done|]. split; [rewrite H2; lia|done].
Qed.

(** ** messages *)
Lemma split_quote (s : list N) : 39%N ∉ s \/ exists n r, s = n ++ 39%N :: r /\ 39%N ∉ n.
Proof.
  induction s as [|c s IH]; [left; intros H; by apply elem_of_nil in H|]. destruct (decide (c = 39%N)) as [->|Hc].
  - right. exists [], s. split; [done|]. intros H. by apply elem_of_nil in H.
  - destruct IH as [IH|(n & r & -> & IH)].
    + left. by apply not_elem_of_cons.
    + right. exists (c :: n), r. split; [done|]. by apply not_elem_of_cons.
Qed.
Lemma quote_unique (n1 n2 r1 r2 : list N) : 39%N ∉ n1 -> 39%N ∉ n2 -> n1 ++ 39%N :: r1 = n2 ++ 39%N :: r2 -> n1 = n2 /\ r1 = r2.
Proof.
  revert n2. induction n1 as [|c n1 IH]; intros [|d n2] H1 H2 E; cbn [app] in E.
  - by injection E.
  - injection E as <- _. exfalso. apply H2. left.
  - injection E as -> _. exfalso. apply H1. left.
  - injection E as <- E. apply not_elem_of_cons in H1 as [_ H1]. apply not_elem_of_cons in H2 as [_ H2]. destruct (IH n2 H1 H2 E) as [-> ->]. done.
Qed.
Lemma symbolic_snoc name : symbolic (96%N :: name ++ [39%N]) <-> symbolic (96%N :: name).
Proof.
  split.
  - intros H. destruct (symbolic_name _ H) as [n2 ->]. by exists n2.
  - intros [s' E]. cbn [app] in E. injection E as ->. by exists (s' ++ [39%N]).
Qed.
Lemma symbolic_app name s : 39%N ∉ name -> symbolic (96%N :: name ++ 39%N :: s) -> symbolic (96%N :: name).
Proof.
  intros Hn [s' E]. destruct name as [|c1 [|c2 name]]; cbn [app] in E.
  - done.
  - done.
  - injection E as -> -> _. by exists name.
Qed.
Lemma symbolic_app2 name s : symbolic (96%N :: name) -> symbolic (96%N :: name ++ s).
Proof. intros [s' E]. cbn [app] in E. injection E as ->. by exists (s' ++ s). Qed.
Lemma const_not_symbolic s : constant s -> ~ symbolic s.
Proof. intros (c & s' & _ & ->) [s2 E]. cbn [app] in E. done. Qed.
(** every message has a massaged form or runs away *)
Lemma constant_dec s : str_ok s -> {constant s} + {~ constant s}.
Proof.
  intros Hs. destruct s as [|c0 [|c1 [|c2 [|c3 [|c4 s]]]]]; try (right; intros (c & s' & _ & E); done).
  destruct (decide (c0 = 96%N /\ c1 = 96%N /\ c3 = 39%N /\ c4 = 39%N)) as [(-> & -> & -> & ->)|Hn].
  - left. exists c2, s. split; [|done]. apply Forall_cons in Hs as [_ Hs]. apply Forall_cons in Hs as [_ Hs]. apply Forall_cons in Hs as [Hs _]. lia.
  - right. intros (c & s' & _ & E). cbn [app] in E. injection E. intros. subst. tauto.
Qed.
Lemma symbolic_dec s : {symbolic s} + {~ symbolic s}.
Proof.
  destruct s as [|c0 [|c1 [|c2 s]]]; try (right; intros (s' & E); done).
  destruct (decide (c0 = 96%N /\ c1 = 84%N /\ c2 = 95%N)) as [(-> & -> & ->)|Hn].
  - left. by exists s.
  - right. intros (s' & E). cbn [app] in E. injection E. intros. subst. tauto.
Qed.
Lemma massage_or_runaway R s : str_ok s -> (exists m, massage R s m) \/ runaway s.
Proof.
  remember (length s) as n eqn:Hn. revert s Hn. induction n as [n IH] using lt_wf_ind. intros s -> Hs.
  destruct s as [|c s]; [left; exists []; constructor|].
  pose proof Hs as Hs0. apply Forall_cons in Hs as [Hc Hs].
  destruct (decide (c = 96%N)) as [->|Hc96].
  2: { destruct (IH (length s) ltac:(cbn [length]; lia) s eq_refl Hs) as [[m Hm]|Hr]; [left; eexists; by constructor|right; by constructor]. }
  destruct (constant_dec _ Hs0) as [(c2 & s' & Hc2 & E)|Hnc].
  - rewrite E in *. assert (Hs' : str_ok s') by (by apply Forall_app in Hs0 as [_ Hs0]).
    destruct (IH (length s') ltac:(rewrite app_length; cbn [length]; lia) s' eq_refl Hs') as [[m Hm]|Hr]; [left; eexists; by apply m_constant|right; by apply r_constant].
  - destruct (symbolic_dec (96%N :: s)) as [Hy|Hny].
    + destruct (split_quote s) as [Hq|(nm & r & -> & Hq)]; [right; by apply r_open|].
      pose proof (symbolic_app nm r Hq Hy) as Hy'.
      assert (Hr : str_ok r) by (apply Forall_app in Hs as [_ Hs]; by apply Forall_cons in Hs as [_ Hs]).
      destruct (N.lt_ge_cases (N.of_nat (length nm)) 1024) as [Hl|Hl]; [|right; by apply r_long].
      destruct (IH (length r) ltac:(cbn [length]; rewrite app_length; cbn [length]; lia) r eq_refl Hr) as [[m Hm]|Hrr].
      * left. eexists. apply m_symbol; [done|by apply symbolic_snoc|done|exact Hm].
      * right. by apply r_symbol.
    + destruct (IH (length s) ltac:(cbn [length]; lia) s eq_refl Hs) as [[m Hm]|Hr]; [left; eexists; by apply m_tick|right; by apply r_tick].
Qed.
Lemma massage_unique R s m : massage R s m -> forall m', massage R s m' -> m = m'.
Proof.
  induction 1 as [|c s out Hc Hm IH|c s out Hc Hm IH|name s out Hn Hsym Hlen Hm IH|s out Hk Hy Hm IH]; intros m' H'.
  - by inversion H'.
  - inversion H'; subst; try done. f_equal. by apply IH.
  - inversion H' as [|? ? ? Hx|c2 s2 out2 Hc2 Hm2 E1 E2|n2 s2 out2 Hn2 Hs2 Hl2 Hm2 E1 E2|s2 out2 Hk2 Hy2 Hm2 E1 E2]; subst.
    + done.
    + f_equal. f_equal. f_equal. by apply IH.
    + exfalso. destruct (symbolic_name _ Hs2) as [n3 ->]. done.
    + exfalso. apply Hk2. by exists c, s.
  - pose proof (symbolic_name _ Hsym) as [n3 En].
    inversion H' as [|? ? ? Hx|c2 s2 out2 Hc2 Hm2 E1 E2|n2 s2 out2 Hn2 Hs2 Hl2 Hm2 E1 E2|s2 out2 Hk2 Hy2 Hm2 E1 E2]; subst.
    + done.
    + done.
    + match goal with H : _ ++ 39%N :: _ = _ ++ 39%N :: _ |- _ => apply quote_unique in H as [-> ->]; [|done|done] end. f_equal. f_equal. f_equal. by apply IH.
    + exfalso. apply Hy2. by eexists.
  - inversion H' as [|? ? ? Hx|c2 s2 out2 Hc2 Hm2 E1 E2|n2 s2 out2 Hn2 Hs2 Hl2 Hm2 E1 E2|s2 out2 Hk2 Hy2 Hm2 E1 E2]; subst.
    + done.
    + exfalso. apply Hk. by exists c2, s2.
    + exfalso. apply Hy. destruct (symbolic_name _ Hs2) as [n3 ->]. by eexists.
    + f_equal. by apply IH.
Qed.
Lemma symbol_step p G R fuel name tail : prs_history p G R -> str_ok name -> symbolic (96%N :: name) -> (N.of_nat (length name) < 1024)%N ->
  forall rest, copy_symbol (name ++ tail :: rest) = Ret (name, tail :: rest) ->
  exists p1 nm, prs_history p1 G R /\
    yy_loop (S fuel) p (96%N :: name ++ tail :: rest) = ('(p2, out) ← yy_loop fuel p1 rest; Ret (p2, [96]%N ++ nm ++ [39]%N ++ out)).
Proof.
  intros Hp Hsn [n2 En] Hlen rest Hcp. cbn [app] in En. injection En as En.
  destruct (concrete_ok p G R name [] (prs_history_inv _ _ _ Hp) Hsn) as (p1 & r & E1 & _ & Hr1 & Hres).
  assert (Hp1 : prs_history p1 G R) by (eapply ph_concrete; [exact Hp|exact Hsn|exact E1]).
  exists p1, (concrete_of R name). split; [done|].
  cbn [yy_loop]. rewrite (aget_Some _ 0 96%N) by done. rb. cbn [N.eqb Pos.eqb].
  assert (Ha1 : aget (96%N :: name ++ tail :: rest) 1 = Ret 84%N) by (rewrite En; done).
  assert (Ha2 : aget (96%N :: name ++ tail :: rest) 2 = Ret 95%N) by (rewrite En; done).
  rewrite Ha1. rb. cbn [N.eqb Pos.eqb]. rb. rewrite Ha2. rb. cbn [N.eqb Pos.eqb skipn]. rewrite ?drop_0.
  rewrite Hcp. rb. rewrite (proj2 (N.leb_gt 1024 (N.of_nat (length name)))) by lia.
  rewrite E1. rb. cbn [skipn]. rewrite ?drop_0.
  assert (Hname : match r with Some _ => str_at (mblk (pmem (rw p1))) r | None => Ret name end = Ret (concrete_of R name)).
  { unfold concrete_of. destruct (first_concrete name R) as [c|]; [|by subst r].
    destruct Hres as (d & pp & q & -> & Hgl & Hq & Hin). rewrite Hr1. unfold str_at.
    destruct (prs_history_inv _ _ _ Hp) as [Hh _]. destruct (int_memory _ _ Hh pp q Hq c d Hin) as [Hc [rr Hm]].
    rewrite (hget_Some _ _ _ Hm). rb. by apply c_string_spec. }
  rewrite Hname. by rb.
Qed.
Lemma long_step p fuel name rest : str_ok name -> symbolic (96%N :: name) -> (1024 <= N.of_nat (length name))%N ->
  forall tail, copy_symbol (name ++ tail :: rest) = Ret (name, tail :: rest) ->
  yy_loop (S fuel) p (96%N :: name ++ tail :: rest) = UB.
Proof.
  intros Hsn [n2 En] Hlen tail Hcp. cbn [app] in En. injection En as En.
  cbn [yy_loop]. rewrite (aget_Some _ 0 96%N) by done. rb. cbn [N.eqb Pos.eqb].
  assert (Ha1 : aget (96%N :: name ++ tail :: rest) 1 = Ret 84%N) by (rewrite En; done).
  assert (Ha2 : aget (96%N :: name ++ tail :: rest) 2 = Ret 95%N) by (rewrite En; done).
  rewrite Ha1. rb. cbn [N.eqb Pos.eqb]. rb. rewrite Ha2. rb. cbn [N.eqb Pos.eqb skipn]. rewrite ?drop_0.
  rewrite Hcp. rb. by rewrite (proj2 (N.leb_le 1024 (N.of_nat (length name)))) by lia.
Qed.
(** a message that runs away and whose NUL is the last byte of its object: undefined *)
Lemma runaway_ub s : runaway s -> forall p G R fuel, prs_history p G R -> str_ok s -> (length s + 1 < fuel)%nat ->
  yy_loop fuel p (s ++ [0%N]) = UB.
Proof.
  induction 1 as [name Hq Hy|name s Hq Hy Hl|c s Hc _ IH|c s Hc _ IH|name s Hq Hy Hl _ IH|s Hk Hy _ IH]; intros p G R fuel Hp Hs Hf;
    (destruct fuel as [|fuel]; [lia|]).
  - apply Forall_cons in Hs as [_ Hs]. cbn [app].
    destruct (N.lt_ge_cases (N.of_nat (length name)) 1024) as [Hl|Hl].
    + destruct (symbol_step p G R fuel name 0%N Hp Hs Hy Hl [] (copy_open name [] Hq Hs)) as (p1 & nm & _ & ->).
      destruct fuel as [|fuel]; [cbn [length] in Hf; lia|]. done.
    + by apply (long_step p fuel name [] Hs Hy Hl 0%N), copy_open.
  - apply Forall_cons in Hs as [_ Hs]. apply Forall_app in Hs as [Hs _]. cbn [app]. rewrite <- app_assoc. cbn [app].
    by apply (long_step p fuel name _ Hs Hy Hl), copy_ok.
  - apply Forall_cons in Hs as [Hc0 Hs]. cbn [length] in Hf. cbn [app yy_loop]. rewrite (aget_Some _ 0 c) by done. rb.
    destruct (N.eqb_spec c 0); [lia|]. destruct (N.eqb_spec c 96); [done|]. cbn [skipn]. rewrite ?drop_0. by rewrite (IH p G R fuel Hp Hs ltac:(lia)).
  - assert (Hs' : str_ok s) by (by do 5 apply Forall_cons in Hs as [_ Hs]). cbn [app length] in Hf. cbn [app yy_loop].
    rewrite (aget_Some _ 0 96%N) by done. rb.
    rewrite (aget_Some _ 1 96%N), (aget_Some _ 2 c), (aget_Some _ 3 39%N), (aget_Some _ 4 39%N) by done.
    cbn [N.eqb Pos.eqb]. rb. destruct (N.eqb_spec c 0); [done|]. cbn [negb]. rb. cbn [skipn]. rewrite ?drop_0. by rewrite (IH p G R fuel Hp Hs' ltac:(lia)).
  - apply Forall_cons in Hs as [_ Hs]. apply Forall_app in Hs as [Hsn Hs]. apply Forall_cons in Hs as [_ Hs].
    cbn [length] in Hf. rewrite app_length in Hf. cbn [length] in Hf. cbn [app]. rewrite <- app_assoc. cbn [app].
    destruct (symbol_step p G R fuel name 39%N Hp Hsn Hy Hl (s ++ [0%N]) (copy_ok name _ Hq Hsn)) as (p1 & nm & Hp1 & ->).
    by rewrite (IH p1 G R fuel Hp1 Hs ltac:(lia)).
  - apply Forall_cons in Hs as [_ Hs]. cbn [length] in Hf. destruct (tests_false s [] Hs Hk Hy) as (c1 & E1 & E2 & E3).
    cbn [app yy_loop]. rewrite (aget_Some _ 0 96%N) by done. rb. cbn [N.eqb Pos.eqb]. rewrite E1. rb.
    fold (quoted_test (96%N :: s ++ [0%N]) c1). fold (symbol_test (96%N :: s ++ [0%N]) c1).
    rewrite E2. rb. rewrite E3. rb. cbn [skipn]. rewrite ?drop_0. by rewrite (IH p G R fuel Hp Hs ltac:(lia)).
Qed.
(** ** what the accessors and the prints show *)
Lemma shown_ok w G R g a t : src_inv w G R g -> g_toks g !! a = Some t -> shown w a t.
Proof.
  intros I Ha. pose proof (n_mem _ _ _ _ I) as Hm. unfold shown, src_linenumber, src_offset, src_length, src_filename, src_source_line, field.
  destruct (v_lines w) as [v|] eqn:El; [|by rewrite (d_toks _ _ Hm), lookup_empty in Ha].
  destruct Hm as (i & j & D & L & A). destruct (l_toks _ _ _ _ _ _ _ _ A a t Ha) as (x & Hx & [T1 T2 T3 T4 T5]).
  rewrite (hget_Some _ _ _ Hx). rb. rewrite T2, T3, T4. split; [done|]. split; [done|]. split; [done|]. split.
  - destruct (k_file t) as [f|].
    + destruct (file_read _ _ _ _ (lineage _ _ _ _ I) T1) as (b & rest & E & _ & Hb). exists b. rewrite E. split; [done|]. by exists rest.
    + cbn [file_ok] in T1. by rewrite T1.
  - destruct (k_text t) as [s|]; [|done]. destruct (T5 s eq_refl) as (k & Ek & Hk).
    destruct (l_line _ _ _ _ _ _ _ _ A k s Hk) as (b & rest & Hv & Hin & Hs). exists b. split.
    + unfold line_at. rewrite El, Ek. destruct (Z.ltb_spec (Z.of_nat (g_before g + k)) 0); [lia|]. rewrite Nat2Z.id.
      rewrite (aget_Some _ _ _ Hv). by rb.
    + exists rest. destruct (l_text _ _ _ _ _ _ _ _ A) as [M IM]. destruct (mi_info _ _ _ IM i _ (lookup_singleton _ _)) as (y & L2 & _ & _ & Hok).
      by apply Hok.
Qed.
Lemma text_read w G R g a t x s : src_inv w G R g -> g_toks g !! a = Some t -> oblk (w_tok w) !! a = Some x -> k_text t = Some s ->
  exists p, line_at w (t_index x) = Ret p /\ str_at (mblk (w_text w)) (Some p) = Ret s.
Proof.
  intros I Ha Hx Ht. pose proof (n_mem _ _ _ _ I) as Hm.
  destruct (v_lines w) as [v|] eqn:El; [|by rewrite (d_toks _ _ Hm), lookup_empty in Ha].
  destruct Hm as (i & j & D & L & A). destruct (l_toks _ _ _ _ _ _ _ _ A a t Ha) as (x' & Hx' & [T1 T2 T3 T4 T5]). rewrite Hx in Hx'. injection Hx' as <-.
  destruct (T5 s Ht) as (k & Ek & Hk).
  destruct (l_line _ _ _ _ _ _ _ _ A k s Hk) as (b & rest & Hv & Hin & Hs). exists b. split.
  - unfold line_at. rewrite El, Ek. destruct (Z.ltb_spec (Z.of_nat (g_before g + k)) 0); [lia|]. rewrite Nat2Z.id.
    rewrite (aget_Some _ _ _ Hv). by rb.
  - destruct (l_text _ _ _ _ _ _ _ _ A) as [M IM]. destruct (mi_info _ _ _ IM i _ (lookup_singleton _ _)) as (y & L2 & _ & _ & Hok).
    assert (Hb : mblk (w_text w) !! b = Some (s ++ 0%N :: rest)) by (by apply Hok).
    unfold str_at. rewrite (hget_Some _ _ _ Hb). rb. by apply c_string_spec.
Qed.
Lemma label_ok w G R g a t f : src_inv w G R g -> g_toks g !! a = Some t -> k_file t = Some f ->
  exists x, oblk (w_tok w) !! a = Some x /\ label w x = Ret (place f (c_itoa (k_line t))) /\
    t_offset x = k_offset t /\ t_length x = k_length t.
Proof.
  intros I Ha Hf. pose proof (n_mem _ _ _ _ I) as Hm.
  destruct (v_lines w) as [v|] eqn:El; [|by rewrite (d_toks _ _ Hm), lookup_empty in Ha].
  destruct Hm as (i & j & D & L & A). destruct (l_toks _ _ _ _ _ _ _ _ A a t Ha) as (x & Hx & [T1 T2 T3 T4 T5]).
  exists x. split; [done|]. split; [|done]. rewrite Hf in T1.
  destruct (file_read _ _ _ _ (lineage _ _ _ _ I) T1) as (b & rest & E & Hs & Hb). unfold label. rewrite E. unfold str_at.
  rewrite (hget_Some _ _ _ Hb). rb. rewrite c_string_spec by done. rb. by rewrite T2.
Qed.
(** what src_print_line and the line of carets print *)
Definition line_out (f d : list N) (s : list N) : list N := place f d ++ s.
Definition caret_out (f d : list N) (t : gtok) : list N :=
  place f d ++ replicate (Z.to_nat (k_offset t)) 32%N ++ replicate (Z.to_nat (k_length t)) 94%N ++ [10%N].
Lemma print_line_ok w G R g a t f s : src_inv w G R g -> g_toks g !! a = Some t -> k_file t = Some f -> k_text t = Some s ->
  src_print_line w (Some a) = Ret (place f (c_itoa (k_line t)) ++ s).
Proof.
  intros I Ha Hf Ht. destruct (label_ok w G R g a t f I Ha Hf) as (x & Hx & Hl & _). destruct (text_read w G R g a t x s I Ha Hx Ht) as (p & E1 & E2).
  unfold src_print_line. rewrite (hget_Some _ _ _ Hx). rb. rewrite Hl. rb. rewrite E1. rb. rewrite E2. by rb.
Qed.
Lemma print_error_ok w G R g a t f s : src_inv w G R g -> g_toks g !! a = Some t -> k_file t = Some f -> k_text t = Some s ->
  print_error w (Some a) = Ret ((place f (c_itoa (k_line t)) ++ s) ++ caret_out f (c_itoa (k_line t)) t).
Proof.
  intros I Ha Hf Ht. destruct (label_ok w G R g a t f I Ha Hf) as (x & Hx & Hl & Ho & Hn).
  unfold print_error. rewrite (print_line_ok w G R g a t f s I Ha Hf Ht). rb. rewrite (hget_Some _ _ _ Hx). rb. rewrite Hl. rb.
  by rewrite Ho, Hn.
Qed.
Lemma head_ok w G R g a t f : src_inv w G R g -> g_toks g !! a = Some t -> k_file t = Some f ->
  SourceModel.head w (Some a) = Ret (place f (c_itoa (k_line t))).
Proof.
  intros I Ha Hf. destruct (label_ok w G R g a t f I Ha Hf) as (x & Hx & Hl & _). unfold SourceModel.head.
  rewrite (hget_Some _ _ _ Hx). rb. exact Hl.
Qed.
(** line numbers are ints *)
Lemma cpp_int z : is_int z -> is_int (cpp_number z).
Proof. unfold is_int, cpp_number. intros H. destruct (Z.gtb_spec z 0); lia. Qed.
Lemma call_ints w G R g w' G' R' g' : src_call (w, G, R, g) (w', G', R', g') ->
  is_int (g_line g) /\ (forall a t, g_toks g !! a = Some t -> is_int (k_line t)) ->
  is_int (g_line g') /\ (forall a t, g_toks g' !! a = Some t -> is_int (k_line t)).
Proof.
  intros Hc [H1 H2]. inversion Hc; subst; cbn [created destroyed lined named_file numbered advanced took g_line g_toks]; try done.
  - unfold created. destruct (g_exists g); [done|]. cbn [g_line g_toks]. split; [done|]. intros a t. by rewrite lookup_empty.
  - match goal with H : line_room _ _ |- _ => destruct H as (_ & _ & Hr) end. split; [exact Hr|]. unfold created. destruct (g_exists g); [done|].
    cbn [g_toks]. intros b t. by rewrite lookup_empty.
  - split; [by apply cpp_int|done].
  - split; [by apply cpp_int|done].
  - split; [done|]. intros b t [[<- <-]|[_ Hb]]%lookup_insert_Some; [done|by eapply H2].
Qed.
Lemma later_ints x y : src_later x y -> match x, y with (w, G, R, g), (w', G', R', g') =>
  is_int (g_line g) /\ (forall a t, g_toks g !! a = Some t -> is_int (k_line t)) ->
  is_int (g_line g') /\ (forall a t, g_toks g' !! a = Some t -> is_int (k_line t)) end.
Proof.
  induction 1 as [[[[w G] R] g]|[[[w G] R] g] [[[w1 G1] R1] g1] [[[w2 G2] R2] g2] Hc _ IH]; [done|].
  intros I. apply IH. by eapply call_ints.
Qed.
Lemma history_ints w G R g : src_history w G R g -> is_int (g_line g) /\ (forall a t, g_toks g !! a = Some t -> is_int (k_line t)).
Proof. intros H. apply (later_ints _ _ H). cbn [g_start g_line g_toks]. split; [unfold is_int; lia|]. intros a t. by rewrite lookup_empty. Qed.
(** tokens stay until the manager is destroyed *)
Lemma call_keeps w G R g w' G' R' g' a t : src_inv w G R g -> src_call (w, G, R, g) (w', G', R', g') -> g_exists g' = true ->
  g_toks g !! a = Some t -> g_exists g = true -> g_toks g' !! a = Some t.
Proof.
  intros I Hc Hx Ha Hex. inversion Hc; subst; cbn [created destroyed lined named_file numbered advanced took g_exists g_toks] in *; try done.
  - unfold created. by rewrite Hex.
  - unfold created. by rewrite Hex.
  - match goal with E : src_get _ _ _ = Ret (_, ?b), Hal : salloc_ok _, Hr : token_room _ _ |- _ =>
      pose proof (get_inv _ w _ _ _ _ I Hal (proj2 (exists_lines _ _ _ _ I) Hex) Hr) as Hg; rewrite E in Hg end.
    destruct Hg as (_ & Hn & _). rewrite lookup_insert_ne; [done|]. intros ->. congruence.
Qed.
