(** Proofs about source.c: invariant and every call. *)
From Verif Require Import Base ListLemmas CStr StackModel StackProofs ObjModel ObjProofs MemModel MemProofs MemHist PrimeModel HashModel HashFnModel HashFnProofs.
From Verif Require ArgHist.
From Verif Require Import StrModel StrProofs StrHist ArgModel ArgSpec ArgProofs ArgProps PrsModel PrsSpec PrsProofs SourceModel SourceSpec.
Local Open Scope Z_scope.

Lemma sint_in z : is_int z -> sint z = Ret z.
Proof. intros H. unfold is_int in H. unfold sint, int_range, INT_MIN, INT_MAX. by rewrite !(proj2 (Z.leb_le _ _)) by lia. Qed.
Lemma aset_ok {A} (l : list A) i y : (i < length l)%nat -> exists l', aset l i y = Ret l' /\ l' = <[i := y]> l.
Proof. intros H. apply lookup_lt_is_Some in H as [x Hx]. exists (<[i := y]> l). by rewrite (aset_Some _ _ x). Qed.

(** ** file names in the string pool *)
Definition file_ok (w : pworld) (G : gmap positive pgh) (fp : ptr) (name : option (list N)) : Prop :=
  match name with
  | None => fp = None
  | Some s => exists p q a, glob w = Some p /\ G !! p = Some q /\ fp = Some a /\ (s, a) ∈ q_int q
  end.
Lemma file_read w G fp s : pool_history w G -> file_ok w G fp (Some s) ->
  exists a rest, fp = Some a /\ str_ok s /\ mblk (pmem w) !! a = Some (s ++ 0%N :: rest).
Proof.
  intros H (p & q & a & Hp & Hq & -> & Hin). destruct (int_memory w G H p q Hq s a Hin) as [Hs [rest Hm]]. eauto.
Qed.
Lemma file_step w G w' G' fp name : pool_history w G -> pcall (w, G) (w', G') -> glob w' = glob w ->
  file_ok w G fp name -> file_ok w' G' fp name.
Proof.
  intros H Hc Hgl. destruct name as [s|]; [|done]. intros (p & q & a & Hp & Hq & -> & Hin).
  destruct (StrHist.st_inv w' G' (StrHist.history_step _ _ _ _ H Hc)) as [GM I]. cbn [fst snd] in I. destruct (wi_glob _ _ _ I p) as [q' Hq']; [by rewrite Hgl|].
  destruct (pcall_keep p (w, G) (w', G') q q' (StrHist.st_inv _ _ H) Hc Hq Hq') as [[l El] _].
  exists p, q', a. rewrite Hgl. split; [done|]. split; [done|]. split; [done|]. rewrite El. apply elem_of_app. by right.
Qed.
Lemma file_none w G w' G' fp name : name = None -> file_ok w G fp name -> file_ok w' G' fp name.
Proof. by intros ->. Qed.

(** a str_find keeps the concrete names and the file names, and adds one *)
Lemma prs_find al s G R str rest a w' G' : prs_history s G R -> palloc_ok al -> str_ok str -> name_room (rw s) G str ->
  gfind al (rw s, G) (str, rest) a (w', G') ->
  prs_history (PRS w' (rtab s)) G' R /\ file_ok w' G' (Some a) (Some str) /\
  forall fp name, file_ok (rw s) G fp name -> file_ok w' G' fp name.
Proof.
  intros H Hal Hs Hroom Hf. inversion Hf as [w0 G0 s0 r0 w0' a0 p q G1 E Hp HG1 Hq X1 X2 X3 X4]. subst.
  destruct (prs_history_inv _ _ _ H) as [Hh Ht].
  destruct (gfind_inv al (rw s) G str rest a w' _ Hh Hal Hs Hroom E Hf) as (Hh' & p2 & g2 & Hp2 & Hg2 & Hin & Hm).
  rewrite Hp in Hp2. injection Hp2 as <-. rewrite lookup_insert in Hg2. injection Hg2 as Hfe.
  assert (Hnew : file_ok w' (<[p:=found q str a]> (match glob (rw s) with Some _ => G | None => <[p:=fresh_pool]> G end)) (Some a) (Some str)).
  { exists p, (found q str a), a. rewrite lookup_insert. rewrite Hfe. done. }
  unfold str_find in E. destruct (glob (rw s)) as [p0|] eqn:Hgl.
  - destruct Hm as [-> Hg0]. unfold check_global in E. rewrite Hgl in E. cbn [mbind res_bind] in E. rewrite Hgl in E.
    assert (Hc : pcall (rw s, G) (w', <[p := found q str a]> G)) by (eapply pc_find; [exact Hal|exact Hq|exact Hs|by apply Hroom; unfold global_of; rewrite Hgl|exact E]).
    assert (Hgl2 : glob w' = glob (rw s)) by (by rewrite Hgl).
    split; [|split; [done|]].
    + apply (ph_string s G R w' _ H Hc). by right.
    + intros fp name. by apply file_step.
  - assert (HR : R = []). { destruct (rtab s); [done| |done]. destruct Ht as (_ & p1 & g1 & Hx & _). congruence. }
    destruct (check_global al (rw s)) as [w1| | | |] eqn:Ec; try done. cbn [mbind res_bind] in E.
    destruct (StrHist.st_inv _ _ Hh) as [GM I]. cbn [fst snd] in I.
    destruct (global_ok al (rw s) G GM w1 I Hal Hgl Ec) as (p1 & Hp1 & HG & _ & _).
    pose proof (pc_global al (rw s) G w1 p1 Hal Hgl Ec Hp1) as Hst. pose proof (StrHist.history_step _ _ _ _ Hh Hst) as Hh1.
    rewrite Hp1 in E.
    assert (Hpp : p = p1).
    { destruct (StrHist.st_inv _ _ Hh1) as [GM1 I1]. cbn [fst snd] in I1.
      pose proof (find_ok w1 _ GM1 I1 p1 fresh_pool (lookup_insert _ _ _) al Hal str rest Hs (Hroom fresh_pool ltac:(unfold global_of; by rewrite Hgl))) as Hf2.
      rewrite E in Hf2. destruct Hf2 as (_ & Hgl' & _). congruence. }
    subst p1. rewrite lookup_insert in Hq. injection Hq as <-.
    assert (Hc : pcall (w1, <[p := fresh_pool]> G) (w', <[p := found fresh_pool str a]> (<[p := fresh_pool]> G))).
    { eapply pc_find; [exact Hal|apply lookup_insert|exact Hs|apply Hroom; unfold global_of; by rewrite Hgl|exact E]. }
    split; [|split; [done|]].
    + subst R. pose proof (ph_string s G [] w1 _ H Hst (or_introl eq_refl)) as H1.
      exact (ph_string _ _ [] w' _ H1 Hc (or_introl eq_refl)).
    + intros fp name. destruct name as [str2|]; [|done]. intros (p3 & q3 & a3 & Hx & _). congruence.
Qed.

(** ** writing a stored string *)
Lemma write_text w G M i D a b b' n : minv w G M -> G !! i = Some (SG (D ++ [(a, b)]) [] n) ->
  minv (MW (msh w) (<[a := b']> (mblk w)) (minf w)) (<[i := SG (D ++ [(a, b')]) [] n]> G) M.
Proof.
  intros I Hi. destruct (mi_info _ _ _ I i _ Hi) as (x & L & Hx & HL & Hok).
  assert (Hin : Some a ∈ L.*2).
  { apply (so_done _ _ _ _ Hok a b). cbn [s_done]. apply elem_of_app. right. by apply elem_of_list_singleton. }
  eapply (minv_update w G M i _ x L _ M _ x L I Hi Hx HL); cbn [minf msh mblk]; try done.
  - by rewrite insert_id.
  - exact (mi_stk _ _ _ I).
  - by rewrite insert_id.
  - destruct Hok as [(A & HA & Hnd & Hl) Hc Hd H1 H2 H3 H4]. cbn [s_done s_cur s_bytes] in *.
    assert (Hna : forall b0, (a, b0) ∈ D -> False).
    { intros b0 Hb0. rewrite fmap_app, NoDup_app in H1. destruct H1 as (_ & H1 & _). apply (H1 a).
      - by apply (elem_of_list_fmap_1 fst) in Hb0.
      - by apply elem_of_list_singleton. }
    constructor; cbn [s_done s_cur s_bytes]; try done.
    + exists A. split; [done|]. split; [done|]. intros c Hc'. destruct (decide (c = a)) as [->|Hne]; [rewrite lookup_insert; eauto|].
      rewrite lookup_insert_ne by done. auto.
    + intros p0 b0 [H0|H0]%elem_of_app.
      * assert (p0 <> a) by (intros ->; eauto). rewrite lookup_insert_ne by done. apply Hd. apply elem_of_app. by left.
      * apply elem_of_list_singleton in H0. injection H0 as -> ->. rewrite lookup_insert. split; [|done]. done.
    + by rewrite fmap_app in *.
    + rewrite app_length in *. done.
  - intros c Hc. by left.
  - intros c Hc _. assert (c <> a) by (intros ->; done). by rewrite lookup_insert_ne.
Qed.

(** ** the invariant *)
Definition idx_ok (g : gsrc) (i : Z) (t : list N) : Prop := exists k, i = Z.of_nat (g_before g + k) /\ g_lines g !! k = Some t.
Record tok_ok (w : pworld) (G : gmap positive pgh) (g : gsrc) (x : token) (t : gtok) : Prop := {
  tk_file : file_ok w G (t_file x) (k_file t);
  tk_line : t_line x = k_line t; tk_offset : t_offset x = k_offset t; tk_length : t_length x = k_length t;
  tk_text : forall s, k_text t = Some s -> idx_ok g (t_index x) s }.
Definition any_tok : Z -> token -> Prop := fun _ _ => True.
Record alive (w : srcw) (G : gmap positive pgh) (g : gsrc) (v : list ptr) (i j : positive) (D : list (positive * list N)) (L : list positive) : Prop := {
  l_exists : g_exists g = true;
  l_strings : v_strings w = Some i; l_tokens : v_tokens w = Some j;
  l_text : exists M, minv (w_text w) {[i := SG D [] (g_bytes g)]} M;
  l_tok : exists M, oinv any_tok (w_tok w) {[j := ObjProofs.Pool 24 L (dom (g_toks g))]} M;
  l_D : length D = length (g_lines g); l_bytes : 0 <= g_bytes g;
  l_count : Z.of_nat (length v) = v_count w; l_min : 1000 <= v_count w;
  l_room : (g_lines g <> [] /\ v_count w = 1000 * (v_used w / 1000 + 1)) \/ (g_lines g = [] /\ v_count w = 1000 /\ v = replicate 1000 None);
  l_line : forall k t, g_lines g !! k = Some t -> exists a rest, v !! (g_before g + k)%nat = Some (Some a) /\ (a, t ++ 0%N :: rest) ∈ D /\ str_ok t;
  l_last : forall t, last (g_lines g) = Some t -> idx_ok g (t_index (v_info w)) t;
  l_nodup : NoDup L; l_live : forall a, a ∈ L <-> a ∈ dom (g_toks g);
  l_toks : forall a t, g_toks g !! a = Some t -> exists x, oblk (w_tok w) !! a = Some x /\ tok_ok (rw (w_prs w)) G g x t }.
Record dead (w : srcw) (g : gsrc) : Prop := {
  d_exists : g_exists g = false; d_strings : v_strings w = None; d_tokens : v_tokens w = None;
  d_text : exists M, minv (w_text w) ∅ M; d_tok : exists M, oinv any_tok (w_tok w) ∅ M;
  d_lines : g_lines g = []; d_toks : g_toks g = ∅ }.
Record src_inv (w : srcw) (G : gmap positive pgh) (R : list (list N * list N)) (g : gsrc) : Prop := {
  n_prs : prs_history (w_prs w) G R;
  n_arg : ArgHist.arg_history (w_arg w) ∅;
  n_used : v_used w = Z.of_nat (g_before g + length (g_lines g));
  n_line : t_line (v_info w) = g_line g; n_offset : t_offset (v_info w) = g_offset g;
  n_file : file_ok (rw (w_prs w)) G (t_file (v_info w)) (g_file g);
  n_named : g_named g = false -> g_file g = None /\ forall a t, g_toks g !! a = Some t -> k_file t = None;
  n_mem : match v_lines w with
          | None => dead w g
          | Some v => exists i j D L, alive w G g v i j D L
          end }.
Lemma inv_start : src_inv src_start ∅ [] g_start.
Proof.
  constructor; cbn [src_start w_prs w_arg v_used v_lines v_info t_line t_offset t_file g_start g_before g_lines g_line g_offset g_file g_named g_toks]; try done.
  - apply ph_start.
  - apply rtc_refl.
  - constructor; try done; [exists ∅; apply minv_empty|exists ∅; apply oinv_empty].
Qed.
Lemma lineage w G R g : src_inv w G R g -> pool_history (rw (w_prs w)) G.
Proof. intros I. by destruct (prs_history_inv _ _ _ (n_prs _ _ _ _ I)). Qed.

(** ** creation and destruction *)
Definition src_fail (al : salloc) : Prop :=
  (exists n, sa_vec al n = false) \/ may_fail (sa_mem al) \/ (exists h, m_info (sa_mem al) h = None) \/
  (exists h, m_stk (sa_mem al) h = None) \/ (exists h, al_info (sa_obj al) h = None) \/
  (exists h, al_stk (sa_obj al) h = None) \/ (exists n h, al_blk (sa_obj al) n h = None).
Lemma create_inv al w G R g : src_inv w G R g -> salloc_ok al -> v_lines w = None ->
  ok (fun w' => src_inv w' G R (created g) /\ g_exists g = false /\ is_Some (v_lines w') /\ v_used w' = v_used w /\
        v_info w' = v_info w /\ w_prs w' = w_prs w /\ w_arg w' = w_arg w)
     (src_fail al) (src_create al w).
Proof.
  intros I Hal Hl. unfold src_create. rewrite Hl. pose proof (n_mem _ _ _ _ I) as Hd. rewrite Hl in Hd.
  destruct (sa_vec al (8 * N.of_nat INCREMENT)) eqn:Ev; [|left; eauto].
  destruct (d_text _ _ Hd) as [M IM]. destruct (d_tok _ _ Hd) as [Mo IO].
  eapply ok_bind.
  { eapply ok_mono; [apply (create_str_spec (sa_mem al) (w_text w) ∅ M IM (sal_mem _ Hal))| |].
    - intros x Hx. exact Hx.
    - intros [Hf|Hf]; right; right; [left|right; left]; eauto. }
  intros [m i] (M1 & _ & IM1 & _). cbv beta iota.
  eapply ok_bind.
  { eapply ok_mono; [apply (create_obj_spec any_tok (sa_obj al) (w_tok w) ∅ Mo 24 IO (sal_obj _ Hal))| |].
    - intros x Hx. exact Hx.
    - intros [Hf|Hf]; right; right; right; right; [left|right; left]; eauto. }
  intros [o j] (M2 & _ & IO2 & _). cbv beta iota. cbn [ok].
  unfold created. rewrite (d_exists _ _ Hd). split; [|by repeat split; eauto].
  destruct I as [I1 I2 I3 I4 I5 I6 I7 I8].
  constructor; cbn [w_prs w_arg v_used v_info v_lines g_before g_lines g_line g_offset g_file g_named g_toks]; try done.
  - rewrite I3, (d_lines _ _ Hd). done.
  - intros Hn. destruct (I7 Hn) as [H1 _]. split; [done|]. intros a t. by rewrite lookup_empty.
  - exists i, j, [], []. constructor; cbn [g_exists v_strings v_tokens w_text w_tok g_bytes g_toks g_lines v_count v_info v_used]; try done.
    + exists M1. by rewrite insert_empty in IM1.
    + exists M2. rewrite insert_empty in IO2. by rewrite dom_empty_L.
    + by right.
    + constructor.
    + intros a. rewrite dom_empty_L. split; intros H; [by apply elem_of_nil in H|by apply elem_of_empty in H].
Qed.
Lemma destroy_inv w G R g : src_inv w G R g -> g_exists g = true ->
  exists w', src_destroy w = Ret w' /\ src_inv w' G R (destroyed g) /\
    mblk (w_text w') = ∅ /\ oblk (w_tok w') = ∅ /\ v_lines w' = None.
Proof.
  intros I Hex. pose proof (n_mem _ _ _ _ I) as Hm. unfold src_destroy.
  destruct (v_lines w) as [v|] eqn:El; [|pose proof (d_exists _ _ Hm); congruence].
  destruct Hm as (i & j & D & L & A). rewrite (l_tokens _ _ _ _ _ _ _ _ A), (l_strings _ _ _ _ _ _ _ _ A).
  destruct (l_text _ _ _ _ _ _ _ _ A) as [M IM]. destruct (l_tok _ _ _ _ _ _ _ _ A) as [Mo IO]. unfold heap_of. rb.
  destruct (destroy_obj_spec any_tok _ _ _ j _ IO (lookup_singleton _ _)) as (o & Mo' & Eo & IO' & Hob & _). rewrite Eo. rb.

  destruct (destroy_str_spec _ _ _ i _ IM (lookup_singleton _ _)) as (m & M' & Em & IM' & _). rewrite Em. rb.
  rewrite delete_singleton in IO'. rewrite delete_singleton in IM'. eexists. split; [reflexivity|].
  split; [|split; [|split]]; cbn [w_text w_tok v_lines]; try done.
  - destruct I as [I1 I2 I3 I4 I5 I6 I7 I8].
    constructor; cbn [w_prs w_arg v_used v_info v_lines g_before g_lines g_line g_offset g_file g_named g_toks destroyed]; try done.
    + rewrite I3. cbn [length]. lia.
    + intros Hn. destruct (I7 Hn) as [H1 _]. split; [done|]. intros a t. by rewrite lookup_empty.
    + constructor; cbn [g_exists v_strings v_tokens w_text w_tok g_lines g_toks]; eauto.
  - apply map_empty. intros a. apply eq_None_not_Some. intros Ha. destruct (mi_blkall _ _ _ IM' a Ha) as (s & L2 & HL & _).
    destruct (mi_stkall _ _ _ IM' s (ex_intro _ _ HL)) as (i2 & x & Hx & _).
    assert (Hs : is_Some (minf m !! i2)) by eauto. apply (mi_dom _ _ _ IM') in Hs. rewrite lookup_empty in Hs. by destruct Hs.
  - apply map_empty. intros a. apply eq_None_not_Some. intros Ha. destruct (oi_blkall _ _ _ _ IO' a Ha) as (i2 & p & Hp & _).
    by rewrite lookup_empty in Hp.
Qed.

(** ** storing a line *)
Lemma detab_ok s rest : str_ok s -> detab (s ++ 0%N :: rest) = Ret (tabless s ++ 0%N :: rest).
Proof.
  induction 1 as [|c s Hc Hs IH]; [done|]. cbn [app detab]. destruct (N.eqb_spec c 0) as [->|_]; [lia|].
  rewrite IH. rb. unfold tabless. rewrite fmap_cons. cbn [app].
  destruct (N.eqb_spec c 9) as [->|Hne]; [by rewrite decide_True|by rewrite decide_False].
Qed.
Lemma detab_none b : 0%N ∉ b -> detab b = UB.
Proof.
  induction b as [|c b IH]; [done|]. intros Hn. apply not_elem_of_cons in Hn as [H1 H2]. cbn [detab].
  destruct (N.eqb_spec c 0) as [->|_]; [done|]. by rewrite IH.
Qed.
Lemma tabless_ok s : str_ok s -> str_ok (tabless s).
Proof. intros H. unfold tabless. apply Forall_fmap. eapply Forall_impl; [exact H|]. intros c Hc. cbn. by destruct (decide _). Qed.
Lemma idx_mono g t n i s : idx_ok g i s -> idx_ok (GS true (g_file g) n 0 (g_before g) (g_lines g ++ [t]) (g_bytes g) (g_toks g) (g_named g)) i s.
Proof. intros (k & -> & Hk). exists k. split; [done|]. by apply lookup_app_l_Some. Qed.

(** the line is written within the array *)
Definition fits (w : srcw) : Prop := v_used w < v_count w.
Lemma line_alive al w G R g s rest len : src_inv w G R g -> salloc_ok al -> is_Some (v_lines w) -> fits w ->
  str_ok s -> Z.of_nat (length s) <= len < Z.of_nat (length (s ++ 0%N :: rest)) -> line_room g len ->
  ok (fun '(w', a) => src_inv w' G R (lined g (tabless s) len) /\ w_prs w' = w_prs w /\ w_arg w' = w_arg w /\
        exists r, mblk (w_text w') !! a = Some (tabless s ++ 0%N :: r))
     (src_fail al) (src_line al w (s ++ 0%N :: rest) len).
Proof.
  intros I Hal [v Hv] Hfit Hs Hlen (Hr1 & Hr2 & Hr3). pose proof (n_mem _ _ _ _ I) as Hm. rewrite Hv in Hm.
  destruct Hm as (i & j & D & L & A). pose proof A as A0. destruct A as [A1 A2 A3 [M IM] A5 A6 A7 A8 A9 A10 A11 A12 A13 A14 A15].
  unfold src_line. rewrite Hv. rb. rewrite (n_line _ _ _ _ I). rewrite (sint_in (g_line g + 1)) by exact Hr3. rb.
  rewrite A2. unfold heap_of. rb. rewrite (n_used _ _ _ _ I) in *. set (u := (g_before g + length (g_lines g))%nat) in *.
  assert (Hu0 : (length (g_lines g) <= u)%nat) by (unfold u; lia).
  eapply ok_bind.
  { eapply ok_mono; [eapply (strncpy_spec (sa_mem al) (w_text w) _ M i _ (s ++ 0%N :: rest) len IM (sal_mem _ Hal) (sal_node _ Hal) (lookup_singleton _ _))| |].
    - lia.
    - cbn [s_done]. rewrite A6. lia.
    - exact A7.
    - cbn [s_bytes]. lia.
    - lia.
    - intros x Hx; exact Hx.
    - intros Hf. right. by left. }
  intros [m a] (M1 & IM1 & Hfresh & Hblk). cbv beta iota.
  unfold fits in Hfit. rewrite (n_used _ _ _ _ I) in Hfit. rewrite Nat2Z.id.
  rewrite Hv.   destruct (aset_ok v u (Some a)) as (v1 & Ev1 & Hv1); [lia|]. rewrite Ev1. rb.
  assert (Etk : exists r0, take (Z.to_nat len + 1) (s ++ 0%N :: rest) = s ++ 0%N :: r0).
  { exists (take (Z.to_nat len - length s) rest). rewrite take_app_ge by lia. f_equal.
    replace (Z.to_nat len + 1 - length s)%nat with (S (Z.to_nat len - length s)) by lia. done. }
  destruct Etk as [r0 Etk]. rewrite Etk in *.
  rewrite (hget_Some _ _ (s ++ 0%N :: r0)) by (rewrite Hblk; apply lookup_insert). rb.
  rewrite (detab_ok s r0 Hs). rb. rewrite (sint_in (Z.of_nat u + 1)) by (unfold is_int; lia). rb.
  rewrite insert_singleton in IM1.
  pose proof (write_text m _ M1 i D a (s ++ 0%N :: r0) (tabless s ++ 0%N :: r0) _ IM1 (lookup_singleton _ _)) as IM2.
  rewrite insert_singleton in IM2. cbn [s_done s_bytes] in IM2.
  assert (Hlen1 : length v1 = length v) by (rewrite Hv1; by rewrite insert_length).
  (* the array after growing *)
  assert (Hgrow : ok (fun '(c, v2) => Z.of_nat (length v2) = c /\ 1000 <= c /\ Z.of_nat u + 1 < c /\ c = 1000 * ((Z.of_nat u + 1) / 1000 + 1) /\ (forall k, (k < length v)%nat -> v2 !! k = v1 !! k))
     (src_fail al)
     (if Z.of_nat u + 1 >=? v_count w then
        c ← sint (v_count w + Z.of_nat INCREMENT);
        if sa_vec al (size_t (8 * c)) then Ret (c, take (Z.to_nat c) v1 ++ replicate (Z.to_nat c - length v1) None) else Fatal
      else Ret (v_count w, v1))).
  { assert (Hcw0 : v_count w = 1000 * (Z.of_nat u / 1000 + 1)).
    { destruct A10 as [[_ HA]|(_ & HA & _)]; [exact HA|]. rewrite HA. unfold fits in Hfit. rewrite HA in Hfit.
      Z.div_mod_to_equations. lia. }
    destruct (Z.geb_spec (Z.of_nat u + 1) (v_count w)) as [Hge|Hlt].
    - assert (v_count w = Z.of_nat u + 1) as Hcw by lia. rewrite sint_in by (unfold is_int, INCREMENT in *; lia). rb.
      destruct (sa_vec al _) eqn:Ev; [|left; eauto]. cbn [ok]. rewrite app_length, take_length, replicate_length.
      unfold INCREMENT in *. split; [lia|]. split; [lia|]. split; [lia|].
      split; [clear - Hcw Hcw0; Z.div_mod_to_equations; lia|]. intros k Hk.
      rewrite lookup_app_l by (rewrite take_length; lia). by rewrite lookup_take by lia.
    - cbn [ok]. split; [lia|]. split; [done|]. split; [lia|]. split; [clear - Hlt Hcw0; Z.div_mod_to_equations; lia|]. done. }
  eapply ok_bind; [exact Hgrow|]. intros [c v2] (Hc1 & Hc2 & Hc3 & Hc4 & Hsame). cbv beta iota.
  assert (Hul : (u < length v)%nat) by lia.
  assert (Hvu : v2 !! u = Some (Some a)) by (rewrite Hsame by done; rewrite Hv1; by apply list_lookup_insert).
  replace (Z.to_nat (Z.of_nat u + 1 - 1)) with u by lia. rewrite (aget_Some _ _ _ Hvu). rb. cbn [ok].
  split; [|split; [done|split; [done|]]].
  2: { exists r0. cbn [w_text mblk]. by rewrite lookup_insert. }
  unfold lined, created. rewrite A1.
  destruct I as [I1 I2 I3 I4 I5 I6 I7 I8].
  constructor; cbn [w_prs w_arg v_used v_info v_lines g_before g_lines g_line g_offset g_file g_named g_toks t_line t_offset t_file]; try done.
  - rewrite app_length. cbn [length]. unfold u. lia.
  - exists i, j, (D ++ [(a, tabless s ++ 0%N :: r0)]), L.
    constructor; cbn [g_exists v_strings v_tokens w_text w_tok g_bytes g_toks g_lines v_count v_info v_used g_before t_index w_prs]; try done.
    + eauto.
    + rewrite !app_length. cbn [length]. lia.
    + lia.
    + left. split; [by destruct (g_lines g)|]. exact Hc4.
    + intros k t Hk. apply lookup_app_Some in Hk as [Hk|[Hk1 Hk2]].
      * destruct (A11 k t Hk) as (a0 & rr & E1 & E2 & E3). pose proof (lookup_lt_Some _ _ _ E1) as Hlt.
        pose proof (lookup_lt_Some _ _ _ Hk) as Hkl.
        exists a0, rr. split; [|split; [apply elem_of_app; by left|done]]. rewrite Hsame by done. rewrite Hv1.
        rewrite list_lookup_insert_ne; [done|]. unfold u. lia.
      * apply list_lookup_singleton_Some in Hk2 as [Hk2 <-]. exists a, r0.
        replace (g_before g + k)%nat with u by (unfold u; lia). split; [done|]. split; [|by apply tabless_ok].
        apply elem_of_app. right. by apply elem_of_list_singleton.
    + intros t Hlast. rewrite last_snoc in Hlast. injection Hlast as <-. exists (length (g_lines g)). split; [done|].
      cbn [g_lines]. rewrite lookup_app_r by lia. by rewrite Nat.sub_diag.
    + intros b t Ht. destruct (A15 b t Ht) as (x & Hx & [T1 T2 T3 T4 T5]). exists x. split; [done|]. constructor; try done.
      intros s0 Hs0. destruct (T5 s0 Hs0) as (k & E & Hk). exists k. split; [done|]. by apply lookup_app_l_Some.
Qed.

(** ** calls that move the current place, or only touch the string pool *)
Lemma place_inv w G R g p' G' R' aw' f l o n fi nm : src_inv w G R g ->
  prs_history p' G' R' -> ArgHist.arg_history aw' ∅ ->
  (forall a t fp, g_toks g !! a = Some t -> file_ok (rw (w_prs w)) G fp (k_file t) -> file_ok (rw p') G' fp (k_file t)) ->
  file_ok (rw p') G' f fi ->
  (nm = false -> g_named g = false /\ fi = None) ->
  src_inv (SRC (v_lines w) (v_count w) (v_used w) (Tok f l o n (t_index (v_info w))) (v_strings w) (v_tokens w) (w_text w) (w_tok w) p' aw')
    G' R' (GS (g_exists g) fi l o (g_before g) (g_lines g) (g_bytes g) (g_toks g) nm).
Proof.
  intros [I1 I2 I3 I4 I5 I6 I7 I8] Hp Ha Ht Hf Hn.
  constructor; cbn [w_prs w_arg v_used v_info v_lines g_before g_lines g_line g_offset g_file g_named g_toks t_line t_offset t_file]; try done.
  - intros Hnm. destruct (Hn Hnm) as [H1 H2]. split; [done|]. by apply I7.
  - destruct (v_lines w) as [v|].
    + destruct I8 as (i & j & D & L & [A1 A2 A3 A4 A5 A6 A7 A8 A9 A10 A11 A12 A13 A14 A15]). exists i, j, D, L.
      constructor; cbn [g_exists v_strings v_tokens w_text w_tok g_bytes g_toks g_lines v_count v_info v_used g_before t_index w_prs]; try done.
      intros a t Hat. destruct (A15 a t Hat) as (x & Hx & [T1 T2 T3 T4 T5]). exists x. split; [done|]. constructor; try done. by eapply Ht.
    + destruct I8 as [B1 B2 B3 B4 B5 B6 B7]. by constructor.
Qed.
Lemma number_inv w G R g l : src_inv w G R g -> src_inv (src_new_line w l) G R (numbered g l).
Proof.
  intros I. pose proof (place_inv w G R g (w_prs w) G R (w_arg w) (t_file (v_info w)) l (t_offset (v_info w)) (t_length (v_info w)) (g_file g) (g_named g)) as H.
  rewrite (n_offset _ _ _ _ I) in H at 2. apply H; try done; try apply I. intros Hn. split; [done|]. by apply I.
Qed.
Lemma advance_inv w G R g n w' : src_inv w G R g -> src_advance w n = Ret w' -> src_inv w' G R (advanced g n).
Proof.
  intros I E. unfold src_advance in E. unfold sint in E. destruct (int_range _); [|done]. cbn [mbind res_bind] in E. injection E as <-.
  unfold advanced, set_info. rewrite <- (n_offset _ _ _ _ I), <- (n_line _ _ _ _ I).
  apply (place_inv w G R g); try done; try apply I. intros Hn. split; [done|]. by apply I.
Qed.
Lemma new_file_inv al w G R g s rest w' a G' : src_inv w G R g -> salloc_ok al -> str_ok s -> name_room (rw (w_prs w)) G s ->
  src_new_file al w (s ++ 0%N :: rest) = Ret w' ->
  gfind (sa_str al) (rw (w_prs w), G) (s, rest) a (rw (w_prs w'), G') ->
  src_inv w' G' R (named_file g s) /\ v_lines w' = v_lines w.
Proof.
  intros I Hal Hs Hr E Hf. unfold src_new_file in E.
  destruct (str_find (sa_str al) (rw (w_prs w)) (s ++ 0%N :: rest)) as [[p1 a1]| | | |] eqn:E1; try done. cbn [mbind res_bind] in E.
  injection E as <-. cbn [w_prs rw] in Hf.
  assert (a1 = a) as -> by (inversion Hf; subst; congruence).
  destruct (prs_find (sa_str al) (w_prs w) G R s rest a p1 G' (n_prs _ _ _ _ I) (sal_str _ Hal) Hs Hr Hf) as (H1 & H2 & H3).
  split; [|done]. unfold named_file. rewrite <- (n_offset _ _ _ _ I), <- (n_line _ _ _ _ I).
  apply (place_inv w G R g); try done; try apply I. intros b t fp _. apply H3.
Qed.
(** a call on the string pool or on the concrete names *)
Lemma prs_inv_step w G R g p' G' R' : src_inv w G R g -> prs_history p' G' R' ->
  (forall fp name, (g_named g = false -> name = None) -> file_ok (rw (w_prs w)) G fp name -> file_ok (rw p') G' fp name) ->
  src_inv (set_prs w p') G' R' g.
Proof.
  intros I Hp Hk. unfold set_prs.
  pose proof (place_inv w G R g p' G' R' (w_arg w) (t_file (v_info w)) (t_line (v_info w)) (t_offset (v_info w)) (t_length (v_info w)) (g_file g) (g_named g) I Hp (n_arg _ _ _ _ I)) as H.
  rewrite (n_line _ _ _ _ I), (n_offset _ _ _ _ I) in H at 2. destruct (v_info w) as [f l o n ix] eqn:Ei. destruct g as [x1 x2 x3 x4 x5 x6 x7 x8 x9] eqn:Eg.
  cbn [t_file t_line t_offset t_length t_index g_exists g_file g_line g_offset g_before g_lines g_bytes g_toks g_named] in *. 
  apply H.
  - intros a t fp Hat. apply Hk. intros Hn. exact (proj2 (n_named _ _ _ _ I Hn) a t Hat).
  - apply Hk; [intros Hn; exact (proj1 (n_named _ _ _ _ I Hn))|]. pose proof (n_file _ _ _ _ I) as Hf. by rewrite Ei in Hf.
  - intros Hn. split; [done|]. exact (proj1 (n_named _ _ _ _ I Hn)).
Qed.

(** ** tokens *)
Lemma log_size (L : list positive) (T : gmap positive gtok) : NoDup L -> (forall a, a ∈ L <-> a ∈ dom T) -> length L = size T.
Proof.
  intros Hn Hl. rewrite <- (size_dom (D := gset positive)).
  assert (Hs : dom T = list_to_set (C := gset positive) L) by (apply set_eq; intros a; by rewrite elem_of_list_to_set, Hl).
  rewrite Hs. by rewrite size_list_to_set.
Qed.
Lemma get_inv al w G R g n : src_inv w G R g -> salloc_ok al -> is_Some (v_lines w) -> token_room g n ->
  ok (fun '(w', a) => src_inv w' G R (took g a n) /\ g_toks g !! a = None /\ v_lines w' = v_lines w /\ w_prs w' = w_prs w)
     (src_fail al) (src_get al w n).
Proof.
  intros I Hal [v Hv] [Hr1 Hr2]. pose proof (n_mem _ _ _ _ I) as Hm. unfold src_get. rewrite Hv in *.
  destruct Hm as (i & j & D & L & [A1 A2 A3 A4 [Mo IO] A6 A7 A8 A9 A10 A11 A12 A13 A14 A15]). rewrite A3. unfold heap_of. rb.
  pose proof (log_size L (g_toks g) A13 A14) as Hsz.
  eapply ok_bind.
  { eapply ok_mono; [apply (get_spec any_tok (sa_obj al) (w_tok w) _ Mo j _ IO (sal_obj _ Hal) (lookup_singleton _ _) (sal_onode _ Hal _))| |].
    - cbn [p_log]. lia.
    - intros x Hx. exact Hx.
    - intros Hf. do 6 right. eauto. }
  intros [o a] (M' & IO' & Hnl & Hblk). cbv beta iota.
  rewrite insert_singleton in IO'. cbn [p_size p_log p_live] in *.
  pose proof (Hnl j _ (lookup_singleton _ _)) as Hna. cbn [p_live] in Hna.
  assert (HaL : a ∉ L) by (by rewrite A14).
  destruct (oi_blk _ _ _ _ IO' j _ a (lookup_singleton _ _)) as (b & Hb & _); [cbn [p_log]; apply elem_of_app; right; by apply elem_of_list_singleton|].
  rewrite (hget_Some _ _ _ Hb). rb. unfold src_advance. cbn [v_info t_offset t_file t_line t_length t_index].
  rewrite (n_offset _ _ _ _ I). rewrite (sint_in (g_offset g + n)) by exact Hr2. rb. cbn [ok set_info v_lines w_prs].
  assert (Hnone : g_toks g !! a = None) by (by apply not_elem_of_dom). split; [|done].
  set (x0 := Tok (t_file (v_info w)) (t_line (v_info w)) (g_offset g) n (t_index (v_info w))).
  pose proof (write_spec any_tok _ _ _ j _ a x0 IO' (lookup_singleton _ _) ltac:(cbn [p_log]; apply elem_of_app; right; by apply elem_of_list_singleton) Logic.I) as IO2.
  destruct I as [I1 I2 I3 I4 I5 I6 I7 I8].
  constructor; cbn [set_info took w_prs w_arg v_used v_info v_lines g_before g_lines g_line g_offset g_file g_named g_toks t_line t_offset t_file]; try done.
  - intros Hn. destruct (I7 Hn) as [H1 H2]. split; [done|]. intros b' t Hb'. apply lookup_insert_Some in Hb' as [[<- <-]|[_ Hb']]; [done|by eapply H2].
  - exists i, j, D, (L ++ [a]).
    constructor; cbn [set_info took g_exists v_strings v_tokens w_text w_tok g_bytes g_toks g_lines v_count v_info v_used g_before t_index w_prs]; try done.
    + exists M'. rewrite dom_insert_L. exact IO2.
    + apply NoDup_app. split; [done|]. split; [|apply NoDup_singleton]. intros c Hc ->%elem_of_list_singleton. done.
    + intros c. rewrite elem_of_app, elem_of_list_singleton, dom_insert_L, elem_of_union, elem_of_singleton, A14. tauto.
    + intros c t Hc. cbn [w_tok oblk]. apply lookup_insert_Some in Hc as [[<- <-]|[Hne Hc]].
      * exists x0. rewrite lookup_insert. split; [done|]. constructor; try done.
      * destruct (A15 c t Hc) as (x & Hx & [T1 T2 T3 T4 T5]). exists x. rewrite lookup_insert_ne by done.
        split; [|by constructor].
        destruct Hblk as [[_ ->]|(_ & _ & b2 & _ & ->)]; [done|]. by rewrite lookup_insert_ne.
Qed.

(** ** cpp lines *)
Lemma strncpy_text src n s : first_bytes src n s -> str_ok s ->
  exists z, c_strncpy src (Z.to_nat n) = Ret (s ++ z) /\ Forall (eq 0%N) z /\ 0 <= n.
Proof.
  intros (tl & -> & Hn) Hs.
  assert (H : forall m, (m = length s \/ ((length s < m)%nat /\ exists tl', tl = 0%N :: tl')) ->
     c_strncpy (s ++ tl) m = Ret (s ++ replicate (m - length s) 0%N)).
  { clear Hn. induction Hs as [|c s Hc Hs IH]; intros m Hm.
    - cbn [app length] in *. rewrite Nat.sub_0_r. destruct Hm as [->|[Hm [tl' ->]]]; [done|]. by destruct m; [lia|].
    - cbn [length] in Hm. destruct m as [|m]; [lia|]. cbn [app c_strncpy length]. destruct (N.eqb_spec c 0); [lia|].
      rewrite IH; [done|]. destruct Hm as [Hm|[Hm1 Hm2]]; [left; lia|right; split; [lia|done]]. }
  exists (replicate (Z.to_nat n - length s) 0%N). split; [|split].
  - apply H. destruct Hn as [->|[Hn He]]; [left; lia|right; split; [lia|done]].
  - apply Forall_replicate. done.
  - destruct Hn as [->|[Hn _]]; lia.
Qed.
Lemma number_atoi v z : number v z -> str_ok v -> c_atoi (v ++ [0%N]) = sint z.
Proof.
  assert (Hsp : forall sp r, Forall space sp -> skip_space (sp ++ r) = skip_space r).
  { induction 1 as [|c sp Hc _ IH]; [done|]. cbn [app skip_space]. assert (is_space c = true) as ->; [|done].
    unfold is_space, space in *. destruct Hc as [->|Hc]; [done|]. apply orb_true_iff. right.
    apply andb_true_iff. split; apply N.leb_le; lia. }
  assert (Hnd : forall c, ~ digit c -> is_digit c = false).
  { intros c Hc. unfold is_digit, digit in *. destruct (N.leb_spec 48 c), (N.leb_spec c 57); try done. lia. }
  assert (Hrd : forall ds r acc, Forall digit ds -> match r with [] => False | c :: _ => ~ digit c end ->
     read_digits (ds ++ r) acc = Ret (fold_left (fun n d => 10 * n + (Z.of_N d - 48)) ds acc)).
  { induction ds as [|d ds IH]; intros r acc Hds Hr; cbn [app read_digits fold_left].
    - destruct r as [|c r]; [done|]. cbn [read_digits]. by rewrite Hnd.
    - apply Forall_cons in Hds as [Hd Hds]. assert (is_digit d = true) as ->.
      { unfold is_digit, digit in *. apply andb_true_iff. split; apply N.leb_le; lia. }
      rewrite IH by done. f_equal. f_equal. lia. }
  assert (Hns : forall c, ~ space c -> is_space c = false).
  { intros c Hc. unfold is_space, space in *. destruct (N.eqb_spec c 32); [tauto|]. destruct (N.leb_spec 9 c), (N.leb_spec c 13); try done. exfalso. apply Hc. lia. }
  assert (Hdns : forall c, digit c -> is_space c = false).
  { intros c Hc. apply Hns. unfold space, digit in *. lia. }
  assert (Htl : forall tl, match tl with [] => True | c :: _ => ~ digit c end -> match tl ++ [0%N] with [] => False | c :: _ => ~ digit c end).
  { intros [|c tl]; cbn [app]; [|done]. intros _. unfold digit. lia. }
  intros Hn Hv. unfold c_atoi. destruct Hn as [sp sg ds tl Hspa Hsg Hds Htl' Hfirst|sp ds tl Hspa Hds Htl'].
  - rewrite <- !app_assoc, Hsp by done. destruct Hsg as [->| ->].
    + cbn [app]. destruct ds as [|d ds].
      * cbn [app]. specialize (Hfirst eq_refl eq_refl). destruct tl as [|c tl]; [done|]. cbn [app skip_space]. destruct Hfirst as (F1 & F2 & F3).
        rewrite Hns by done. destruct (N.eqb_spec c 45); [done|]. destruct (N.eqb_spec c 43); [done|].
        pose proof (Hrd [] (c :: tl ++ [0%N]) 0 (Forall_nil_2 _) Htl') as Hx. cbn [app] in Hx. rewrite Hx. by rb.
      * apply Forall_cons in Hds as [Hd Hds]. cbn [app skip_space]. rewrite Hdns by done.
        destruct (N.eqb_spec d 45) as [->|]; [unfold digit in Hd; lia|]. destruct (N.eqb_spec d 43) as [->|]; [unfold digit in Hd; lia|].
        pose proof (Hrd (d :: ds) (tl ++ [0%N]) 0 ltac:(by constructor) ltac:(by apply Htl)) as Hx. cbn [app] in Hx. rewrite Hx. by rb.
    + cbn [app skip_space]. change (is_space 43) with false. cbn iota. change (43 =? 45)%N with false. cbn iota.
      change (43 =? 43)%N with true. cbn iota. rewrite Hrd; [|done|by apply Htl]. by rb.
  - rewrite <- !app_assoc, Hsp by done. cbn [app skip_space]. rewrite <- !app_assoc.
    change (is_space 45) with false. cbn iota. change (45 =? 45)%N with true. cbn iota. rewrite Hrd; [|done|by apply Htl]. by rb.
Qed.

Lemma line_chars (P : N -> Prop) esc quo s ws : line esc quo s ws -> Forall P s -> Forall (Forall P) ws.
Proof.
  assert (Hp : forall t v, piece esc quo t v -> Forall P t -> Forall P v).
  { intros t v [c _ _|c _|u _ _|u _ _] H; [done|by apply Forall_cons in H as [_ H]| |];
      apply Forall_cons in H as [_ H]; by apply Forall_app in H as [H _]. }
  assert (Hw : forall t v, word esc quo t v -> Forall P t -> Forall P v).
  { induction 1 as [t v H|t v t' v' H _ IH]; intros Ht; [by eapply Hp|]. apply Forall_app in Ht as [H1 H2]. apply Forall_app. split; [by eapply Hp|by apply IH]. }
  assert (Hlw : forall t v, last_word esc quo t v -> Forall P t -> Forall P v).
  { induction 1 as [t v H|t v H|t v t' v' H _ IH]; intros Ht; [by eapply Hw| |].
    - destruct H as [_|u _ _|u _ _]; [constructor| |]; by apply Forall_cons in Ht as [_ Ht].
    - apply Forall_app in Ht as [H1 H2]. apply Forall_app. split; [by eapply Hp|by apply IH]. }
  induction 1 as [|c s ws _ _ IH|t v H|t v c s ws H _ _ IH]; intros Hs.
  - constructor.
  - apply IH. by apply Forall_cons in Hs as [_ Hs].
  - constructor; [by eapply Hlw|constructor].
  - apply Forall_app in Hs as [H1 H2]. apply Forall_cons in H2 as [_ H2]. constructor; [by eapply Hw|by apply IH].
Qed.
Definition set_arg (s : srcw) (aw : aworld) : srcw :=
  SRC (v_lines s) (v_count s) (v_used s) (v_info s) (v_strings s) (v_tokens s) (w_text s) (w_tok s) (w_prs s) aw.
Lemma cpp_run al w G R g src n s ws : src_inv w G R g -> salloc_ok al -> first_bytes src n s -> str_ok s ->
  Z.of_nat (length s) + 3 < 2 ^ 30 -> n < 2 ^ 31 - 1 -> line true true s ws ->
  (src_cpp_line al w src n = Fatal /\ afail (sa_arg al)) \/
  exists aw', ArgHist.arg_history aw' ∅ /\ src_cpp_line al w src n =
    match ws with
    | v0 :: v1 :: vs =>
        l ← c_atoi (v1 ++ [0%N]);
        s2 ← match vs with
             | [] => Ret (src_new_line w (cpp_number l))
             | v2 :: _ => src_new_file al (src_new_line w (cpp_number l)) (v2 ++ [0%N])
             end;
        Ret (set_arg s2 aw')
    | _ => Abort
    end.
Proof.
  intros I Hal Hfb Hs Hl Hn Hline. destruct (strncpy_text src n s Hfb Hs) as (z & Ez & Hz & Hn0).
  unfold src_cpp_line. rewrite (sint_in (n + 1)) by (unfold is_int; lia). rb.
  destruct (Z.ltb_spec n 0); [lia|]. rewrite Ez. rb.
  assert (exists r, (s ++ z) ++ [0%N] = s ++ 0%N :: r) as [r ->].
  { rewrite <- app_assoc. destruct z as [|c z]; [by exists []|]. apply Forall_cons in Hz as [<- _]. by exists (z ++ [0%N]). }
  pose proof (C41_argify (w_arg w) ∅ (sa_arg al) s r 0 ws (n_arg _ _ _ _ I) (sal_arg _ Hal) Hs Hl Hline) as Ha.
  destruct (arg_argify (sa_arg al) (w_arg w) (s ++ 0%N :: r) 0) as [[aw p]| | | |] eqn:Ea; try done; [|by left].
  right. destruct Ha as (_ & [ga Hga] & Hcount & Hget). rb.
  destruct (C40_destroy aw _ p ga Hga (lookup_insert _ _ _)) as (aw' & Ed & Hd & _).
  exists aw'. split; [by rewrite delete_insert in Hd by apply lookup_empty|].
  assert (Hbytes : forall i v, ws !! i = Some v -> exists q, arg_get aw (Some p) (Z.of_nat i) = Ret q /\ arg_bytes aw q = Ret (v ++ [0%N])).
  { intros i v Hi. destruct (Hget i v Hi) as (q & E1 & E2). exists (Some q). split; [done|]. unfold arg_bytes. by apply hget_Some. }
  assert (Hshort : (length ws <= 1)%nat -> arg_get aw (Some p) 1 = Abort).
  { intros Hw. eapply (C40_get_range aw _ p ga 1 Hga (lookup_insert _ _ _)).
    destruct (C40_vector aw _ p ga Hga (lookup_insert _ _ _)) as (Hc & _). rewrite Hcount in Hc. injection Hc as Hc. right. lia. }
  destruct ws as [|v0 [|v1 vs]].
  - by rewrite (Hshort ltac:(cbn [length]; lia)).
  - by rewrite (Hshort ltac:(cbn [length]; lia)).
  - destruct (Hbytes 1%nat v1 eq_refl) as (q1 & E1 & E2). change (Z.of_nat 1) with 1 in E1. rewrite E1. rb. rewrite E2. rb.
    destruct (c_atoi (v1 ++ [0%N])) as [l| | | |]; try done. rb. rewrite Hcount. rb. fold (cpp_number l).
    destruct vs as [|v2 vs].
    + cbn [length Z.of_nat Pos.of_succ_nat Pos.succ Z.eqb Pos.eqb]. rb. rewrite Ed. by rb.
    + assert ((Z.of_nat (length (v0 :: v1 :: v2 :: vs)) =? 2) = false) as -> by (apply Z.eqb_neq; cbn [length]; lia).
      destruct (Hbytes 2%nat v2 eq_refl) as (q2 & E3 & E4). change (Z.of_nat 2) with 2 in E3. rewrite E3. rb. rewrite E4. rb.
      destruct (src_new_file _ _ _); try done. rb. rewrite Ed. by rb.
Qed.
Lemma arg_inv w G R g aw : src_inv w G R g -> ArgHist.arg_history aw ∅ -> src_inv (set_arg w aw) G R g.
Proof.
  intros [I1 I2 I3 I4 I5 I6 I7 I8] Ha. constructor; try done. cbn [set_arg v_lines]. destruct (v_lines w) as [v|].
  - destruct I8 as (i & j & D & L & [A1 A2 A3 A4 A5 A6 A7 A8 A9 A10 A11 A12 A13 A14 A15]). exists i, j, D, L. by constructor.
  - destruct I8 as [B1 B2 B3 B4 B5 B6 B7]. by constructor.
Qed.
