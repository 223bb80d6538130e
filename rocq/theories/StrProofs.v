(** String pools: the invariant of every history, one lemma per call. *)
From Verif Require Import Base ListLemmas CStr StackModel StackProofs ObjModel ObjProofs MemModel MemProofs MemHist.
From Verif Require Import PrimeModel HashModel HashSpec HashProofs HashOps HashOps2 HashIter HashHist HashFnModel HashFnProofs StrModel.
Local Open Scope Z_scope.

(** ** What the calls alone say about a pool *)
(** interned strings with their addresses, newest first; the string memory (handed-out
    strings, growing bytes, bytes); readonly flag; lookups, failed lookups *)
Record pgh := PG { q_int : list (list N * positive); q_mem : sgh; q_ro : Z; q_retr : N; q_miss : N }.

Fixpoint assoc (s : list N) (l : list (list N * positive)) : option positive :=
  match l with
  | [] => None
  | (s', a) :: l' => if decide (s' = s) then Some a else assoc s l'
  end.

Lemma assoc_in s l a : assoc s l = Some a -> (s, a) ∈ l.
Proof.
  induction l as [|[s' b] l IH]; [done|]. cbn [assoc]. destruct (decide (s' = s)) as [->|]; [intros [= ->]; left|].
  intros H. right. auto.
Qed.
Lemma in_assoc s l a : NoDup (l : list (list N * positive)).*1 -> (s, a) ∈ l -> assoc s l = Some a.
Proof.
  induction l as [|[s' b] l IH]; [intros _ H; by apply elem_of_nil in H|].
  rewrite fmap_cons, NoDup_cons. intros [Hn Hd] [[= <- <-]|H]%elem_of_cons; cbn [assoc].
  - by rewrite decide_True.
  - rewrite decide_False; [auto|]. intros ->. apply Hn. apply elem_of_list_fmap. by exists (s, a).
Qed.
Lemma assoc_None s l : assoc s l = None <-> s ∉ (l : list (list N * positive)).*1.
Proof.
  induction l as [|[s' b] l IH]; cbn [assoc].
  - split; [intros _ H; by apply elem_of_nil in H|done].
  - rewrite fmap_cons, not_elem_of_cons. cbn [fst]. destruct (decide (s' = s)) as [->|Hne].
    + split; [done|]. by intros [? _].
    + rewrite IH. split; [intros H; split; [congruence|done]|by intros [_ ?]].
Qed.

(** ** Keys *)
Lemma penv_good : good penv.
Proof.
  constructor; cbn [penv hashf cmpf].
  - intros a. apply scmp_refl.
  - intros [pa [a Ha]] [pb [b Hb]]; cbn [kval kstr proj1_sig]. rewrite !scmp_eq by done. done.
  - intros [pa [a Ha]] [pb [b Hb]] [pc [c Hc]]; cbn [kval kstr proj1_sig]. rewrite !scmp_eq by done. congruence.
  - intros [pa [a Ha]] [pb [b Hb]]; cbn [kval kstr proj1_sig]. rewrite !scmp_eq by done. by intros ->.
Qed.
Lemma kval_ok k : str_ok (kval k).
Proof. destruct k as [a [s Hs]]. done. Qed.
Lemma penv_cmp a b : cmpf penv a b = 0 <-> kval a = kval b.
Proof. cbn [penv cmpf]. apply scmp_eq; apply kval_ok. Qed.

(** how a table's map is seen from the ghost *)
Definition view (m : list (key * ptr)) : list (list N * positive) :=
  (fun kd => (kval kd.1, default 1%positive kd.2)) <$> m.
Definition own_keys (m : list (key * ptr)) : Prop :=
  forall kd, kd ∈ m -> exists a, kaddr kd.1 = Some a /\ kd.2 = Some a.

Lemma afind_view k m : own_keys m -> afind (cmpf penv) k m = Some <$> assoc (kval k) (view m).
Proof.
  induction m as [|[k' d] m IH]; intros Ho; [done|]. cbn [afind view fmap list_fmap assoc].
  destruct (Ho (k', d)) as (a & Ha & Hd); [left|]. cbn [fst snd] in *. subst d. cbn [default].
  destruct (decide (kval k' = kval k)) as [E|E].
  - apply penv_cmp in E. apply Z.eqb_eq in E. by rewrite E.
  - rewrite (proj2 (Z.eqb_neq _ _)) by (by rewrite penv_cmp). apply IH. intros kd Hkd. apply Ho. by right.
Qed.

Lemma mk_key_ok a s : str_ok s -> exists k, mk_key a s = Ret k /\ kaddr k = a /\ kval k = s.
Proof. unfold mk_key. intros Hs. destruct (decide (str_ok s)) as [H|H]; [|done]. eexists. done. Qed.
Lemma reads_ok bl a s rest : str_ok s -> bl !! a = Some (s ++ 0%N :: rest) -> reads bl a s = true.
Proof.
  intros Hs Ha. unfold reads. rewrite Ha, c_string_spec by done. by apply bool_decide_eq_true_2.
Qed.
Lemma key_at_ok bl a s rest : str_ok s -> bl !! a = Some (s ++ 0%N :: rest) ->
  exists k, key_at bl a = Ret k /\ kaddr k = Some a /\ kval k = s.
Proof.
  intros Hs Ha. unfold key_at. rewrite (hget_Some _ _ _ Ha). rb. rewrite c_string_spec by done. rb. by apply mk_key_ok.
Qed.

Lemma heap_in_map t gh a b : history penv t gh -> heap t !! a = Some b -> (bkey b, bdatum b) ∈ g_map gh.
Proof.
  intros Hh Ha. destruct (history_inv penv t gh penv_good Hh) as [L [I1 I2 _ _ _ _]]. rewrite <- I2.
  pose proof (proj1 (hi_own _ _ _ I1 a) ltac:(eauto)) as Hin.
  unfold addrs in Hin. apply elem_of_list_fmap in Hin as ([a' e] & -> & Hin). cbn [fst] in *.
  apply elem_of_list_In, in_concat in Hin as (l & HL & Hl). apply elem_of_list_In in HL, Hl. apply elem_of_list_lookup in HL as (i & HL).
  pose proof (ti_rows _ _ _ _ (hi_t _ _ _ I1)) as Hr.
  destruct (Forall2_lookup_r _ _ _ _ _ Hr HL) as (p & _ & Hrow).
  destruct (seg_in _ _ _ _ _ _ Hrow Hl) as (n & Hb). rewrite Ha in Hb. injection Hb as ->.
  unfold pairs, ents. apply elem_of_list_fmap. exists e. split; [by destruct e|].
  apply elem_of_list_fmap. exists (a', e). split; [done|].
  by eapply elem_of_concat.
Qed.
Lemma keys_live_ok bl t gh : history penv t gh -> own_keys (g_map gh) ->
  (forall s a, (s, a) ∈ view (g_map gh) -> exists rest, bl !! a = Some (s ++ 0%N :: rest)) ->
  keys_live bl t = true.
Proof.
  intros Hh Ho Hm. unfold keys_live. apply forallb_forall. intros b Hb.
  apply elem_of_list_In, elem_of_list_fmap in Hb as ([a b'] & -> & Hb). cbn [snd].
  apply elem_of_map_to_list in Hb. pose proof (heap_in_map t gh a b' Hh Hb) as Hin.
  destruct (Ho _ Hin) as (c & Hk & Hd). cbn [fst snd] in Hk, Hd. rewrite Hk.
  destruct (Hm (kval (bkey b')) c) as [rest Hr].
  { unfold view. apply elem_of_list_fmap. eexists. split; [|exact Hin]. cbn [fst snd]. by rewrite Hd. }
  eapply reads_ok; [apply kval_ok|exact Hr].
Qed.

(** ** One pool *)
Record pool_ok (GM : gmap positive sgh) (x : pool) (g : pgh) : Prop := {
  po_mem : GM !! pstr x = Some (q_mem g);
  po_hash : exists gh, history penv (phash x) gh /\ own_keys (g_map gh) /\ view (g_map gh) = q_int g /\
              g_ro gh = q_ro g /\ g_retr gh = q_retr g /\ g_miss gh = q_miss g;
  po_done : forall s a, (s, a) ∈ q_int g -> exists rest, (a, s ++ 0%N :: rest) ∈ s_done (q_mem g);
  po_nd1 : NoDup (q_int g).*1;
  po_nd2 : NoDup (q_int g).*2;
  po_bytes : Forall byte_ok (s_cur (q_mem g)) }.

Lemma po_str GM x g s a : pool_ok GM x g -> (s, a) ∈ q_int g -> str_ok s.
Proof.
  intros Ho Hin. destruct (po_hash _ _ _ Ho) as (gh & _ & _ & Hv & _). rewrite <- Hv in Hin.
  unfold view in Hin. apply elem_of_list_fmap in Hin as (kd & [= -> _] & _). apply kval_ok.
Qed.

Definition asked (g : pgh) (s : list N) : pgh :=
  PG (q_int g) (q_mem g) (q_ro g) (q_retr g + 1)
     (match assoc s (q_int g) with Some _ => q_miss g | None => q_miss g + 1 end)%N.
Definition entered (g : pgh) (s : list N) (a : positive) : pgh :=
  PG (match assoc s (q_int g) with Some _ => q_int g | None => (s, a) :: q_int g end)
     (q_mem g) (q_ro g) (q_retr g) (q_miss g).
Definition set_mem (g : pgh) (m : sgh) : pgh := PG (q_int g) m (q_ro g) (q_retr g) (q_miss g).
Definition set_ro (g : pgh) (f : Z) : pgh := PG (q_int g) (q_mem g) f (q_retr g) (q_miss g).

Section one.
Context (m : mworld) (GM : gmap positive sgh) (Hm : str_history m GM) (x : pool) (g : pgh) (Ho : pool_ok GM x g).

Lemma live : keys_live (mblk m) (phash x) = true.
Proof.
  destruct (po_hash _ _ _ Ho) as (gh & Hh & Hk & Hv & _). eapply keys_live_ok; [done..|].
  intros s a Hin. rewrite Hv in Hin. destruct (po_done _ _ _ Ho s a Hin) as [rest Hr].
  exists rest. exact (sh_done m GM Hm _ _ _ _ (po_mem _ _ _ Ho) Hr).
Qed.

Lemma retrieve_ok k : exists t, hsh_retrieve penv (phash x) k = Ret (t, assoc (kval k) (q_int g)) /\
  pool_ok GM (Pool (pstr x) t) (asked g (kval k)).
Proof.
  destruct (po_hash _ _ _ Ho) as (gh & Hh & Hk & Hv & Hr & H1 & H2).
  destruct (P_retrieve penv (phash x) gh k penv_good Hh) as [t E]. exists t.
  rewrite afind_view, Hv in E by done.
  assert (E' : hsh_retrieve penv (phash x) k = Ret (t, assoc (kval k) (q_int g))).
  { rewrite E. do 2 f_equal. by destruct (assoc (kval k) (q_int g)). }
  split; [done|]. split; cbn [pstr phash asked q_int q_mem]; try apply Ho.
  eexists. split; [eapply h_retrieve; [exact Hh|exact E]|]. cbn [g_map g_ro g_retr g_miss asked q_int q_ro q_retr q_miss].
  split; [done|]. split; [done|]. split; [done|]. split; [by rewrite H1|].
  rewrite afind_view, Hv by done. by destruct (assoc (kval k) (q_int g)); rewrite H2.
Qed.

Lemma insert_ok al k a : halloc_ok al -> q_ro g = 0 -> kaddr k = Some a ->
  a ∉ (q_int g).*2 -> (exists rest, (a, kval k ++ 0%N :: rest) ∈ s_done (q_mem g)) ->
  ok (fun '(t, _) => pool_ok GM (Pool (pstr x) t) (entered g (kval k) a)) (can_fail al)
     (hsh_insert penv al (phash x) k (Some a)).
Proof.
  intros Hal Hro Hka Ha2 Hdone. destruct (po_hash _ _ _ Ho) as (gh & Hh & Hk & Hv & Hr & H1 & H2).
  pose proof (P_insert penv (phash x) gh al k (Some a) penv_good Hh Hal ltac:(congruence)) as Hi.
  destruct (hsh_insert _ _ _ _ _) as [[t r]| | | |] eqn:E; cbn [ok] in *; try done.
  pose proof (h_insert penv al _ _ _ _ _ _ Hh Hal E) as Hh'. clear Hi.
  rewrite afind_view, Hv in Hh' by done. unfold entered.
  destruct (assoc (kval k) (q_int g)) as [b|] eqn:Ea; cbn [fmap option_fmap option_map] in Hh'.
  - split; cbn [pstr phash q_int q_mem]; try apply Ho.
    eexists. split; [exact Hh'|]. done.
  - split; cbn [pstr phash q_int q_mem]; try apply Ho.
    + eexists. split; [exact Hh'|]. cbn [g_map g_ro g_retr g_miss asked q_int q_ro q_retr q_miss].
      split; [|split; [|done]].
      * intros kd [->|Hin]%elem_of_cons; [by exists a|by apply Hk].
      * unfold view. rewrite fmap_cons. cbn [fst snd default]. f_equal. exact Hv.
    + intros s b [[= -> ->]|Hin]%elem_of_cons; [done|by apply Ho].
    + rewrite fmap_cons. constructor; [|apply Ho]. by apply assoc_None.
    + rewrite fmap_cons. constructor; [done|apply Ho].
Qed.
Lemma insert_abort al k a : q_ro g <> 0 -> hsh_insert penv al (phash x) k (Some a) = Abort.
Proof.
  intros Hro. destruct (po_hash _ _ _ Ho) as (gh & Hh & Hk & Hv & Hr & _).
  apply (P_readonly penv (phash x) gh penv_good Hh). congruence.
Qed.
End one.

Lemma pool_ok_mem GM GM' x g : pool_ok GM x g -> GM' !! pstr x = Some (q_mem g) -> pool_ok GM' x g.
Proof. intros [? ? ? ? ? ?] H. by split. Qed.
(** the string memory of the pool has grown *)
Lemma pool_ok_set_mem GM x g gm : pool_ok GM x g -> s_done (q_mem g) ⊆ s_done gm -> Forall byte_ok (s_cur gm) ->
  pool_ok (<[pstr x := gm]> GM) x (set_mem g gm).
Proof.
  intros [H1 H2 H3 H4 H5 H6] Hs Hb. split; cbn [set_mem q_int q_mem]; try done.
  - by rewrite lookup_insert.
  - intros s a Hin. destruct (H3 s a Hin) as [rest Hr]. exists rest. by apply Hs.
Qed.

(** ** The whole world *)
Record winv (w : pworld) (G : gmap positive pgh) (GM : gmap positive sgh) : Prop := {
  wi_mem : str_history (pmem w) GM;
  wi_pool : forall p g, G !! p = Some g -> exists x, pools w !! p = Some x /\ pool_ok GM x g;
  wi_dom : forall p x, pools w !! p = Some x -> is_Some (G !! p);
  wi_inj : forall p q x y, pools w !! p = Some x -> pools w !! q = Some y -> pstr x = pstr y -> p = q;
  wi_all : forall i, is_Some (GM !! i) -> exists p x, pools w !! p = Some x /\ pstr x = i;
  wi_glob : forall p, glob w = Some p -> is_Some (G !! p);
  wi_uniq : 1 <= uniq w }.

(** replacing the table of one pool *)
Lemma winv_hash w G GM p x g t g' : winv w G GM -> pools w !! p = Some x ->
  G !! p = Some g -> pool_ok GM (Pool (pstr x) t) g' -> winv (upd_hash w p x t) (<[p := g']> G) GM.
Proof.
  intros [H1 H2 H3 H4 H5 H6 H7] Hx Hg Ho. unfold upd_hash. split; cbn [pmem pools glob uniq]; try done.
  - intros q g2. destruct (decide (q = p)) as [->|Hne].
    + rewrite !lookup_insert. intros [= <-]. eauto.
    + rewrite !lookup_insert_ne by done. apply H2.
  - intros q y. destruct (decide (q = p)) as [->|Hne]; [rewrite !lookup_insert; eauto|].
    rewrite !lookup_insert_ne by done. apply H3.
  - intros q r y z. destruct (decide (q = p)) as [->|Hq], (decide (r = p)) as [->|Hr];
      rewrite ?lookup_insert, ?lookup_insert_ne by done; try done.
    + intros [= <-] Hz E. cbn [pstr] in E. symmetry in E. symmetry. eapply H4; eauto.
    + intros Hy [= <-] E. cbn [pstr] in E. eapply H4; eauto.
    + apply H4.
  - intros i Hi. destruct (H5 i Hi) as (q & y & Hy & E). destruct (decide (q = p)) as [->|Hne].
    + exists p. rewrite lookup_insert. eexists. split; [done|]. cbn [pstr]. congruence.
    + exists q, y. rewrite lookup_insert_ne by done. done.
  - intros q Hq. destruct (decide (q = p)) as [->|Hne]; [rewrite lookup_insert; eauto|].
    rewrite lookup_insert_ne by done. auto.
Qed.
(** replacing the string memory of one pool *)
Lemma winv_mem w G GM p x g m gm : winv w G GM -> pools w !! p = Some x -> G !! p = Some g ->
  str_history m (<[pstr x := gm]> GM) -> s_done (q_mem g) ⊆ s_done gm -> Forall byte_ok (s_cur gm) ->
  winv (upd_mem w m) (<[p := set_mem g gm]> G) (<[pstr x := gm]> GM).
Proof.
  intros [H1 H2 H3 H4 H5 H6 H7] Hx Hg Hm Hs Hb. unfold upd_mem. split; cbn [pmem pools glob uniq]; try done.
  - intros q g2. destruct (decide (q = p)) as [->|Hne].
    + rewrite !lookup_insert. intros [= <-]. exists x. split; [done|].
      destruct (H2 p g Hg) as (x' & Hx' & Ho). rewrite Hx in Hx'. injection Hx' as <-. by apply pool_ok_set_mem.
    + rewrite !lookup_insert_ne by done. intros Hg2. destruct (H2 q g2 Hg2) as (y & Hy & Ho).
      exists y. split; [done|]. eapply pool_ok_mem; [exact Ho|]. rewrite lookup_insert_ne; [apply Ho|].
      intros E. apply Hne. symmetry. eapply H4; eauto.
  - intros q y Hy. destruct (decide (q = p)) as [->|Hne]; [rewrite lookup_insert; eauto|].
    rewrite lookup_insert_ne by done. eauto.
  - intros i Hi. destruct (decide (i = pstr x)) as [->|Hne]; [eauto|]. rewrite lookup_insert_ne in Hi by done. auto.
  - intros q Hq. destruct (decide (q = p)) as [->|Hne]; [rewrite lookup_insert; eauto|].
    rewrite lookup_insert_ne by done. auto.
Qed.

Record palloc_ok (al : palloc) : Prop := {
  pal_pool : malloc_ok (pa_pool al);
  pal_mem : malloc_good (pa_mem al);
  pal_node : nodes_ok (pa_mem al);
  pal_hash : halloc_ok (pa_hash al) }.
Definition pfail (al : palloc) : Prop := may_fail (pa_mem al) \/ can_fail (pa_hash al).
(** some allocation of a call that may first have to create a pool can fail *)
Definition gfail (al : palloc) : Prop :=
  pfail al \/ (exists h, pa_pool al h = None) \/ (exists h, m_info (pa_mem al) h = None) \/ (exists h, m_stk (pa_mem al) h = None).
Lemma create_gfail al w : (pa_pool al (pools w) = None \/ m_info (pa_mem al) (minf (pmem w)) = None \/
      m_stk (pa_mem al) (stks (msh (pmem w))) = None \/ can_fail (pa_hash al)) -> gfail al.
Proof. intros [H|[H|[H|H]]]; [right; left; eauto|right; right; left; eauto|right; right; right; eauto|left; by right]. Qed.

Definition found (g : pgh) (s : list N) (a : positive) : pgh :=
  match assoc s (q_int g) with
  | Some _ => asked g s
  | None => entered (set_mem (asked g s) (stored (q_mem g) a (s ++ [0%N]) (Z.of_nat (length s) + 1))) s a
  end.
(** the part of a byte list before the first NUL *)
Fixpoint upto_nul (b : list N) : list N :=
  match b with [] => [] | x :: b' => if (x =? 0)%N then [] else x :: upto_nul b' end.
Lemma upto_nul_spec b : Forall byte_ok b -> str_ok (upto_nul b) /\
  forall t, exists rest, b ++ 0%N :: t = upto_nul b ++ 0%N :: rest.
Proof.
  induction b as [|x b IH]; intros Hb; cbn [upto_nul].
  - split; [constructor|]. intros t. by exists t.
  - apply Forall_cons in Hb as [Hx Hb]. destruct (IH Hb) as [I1 I2]. destruct (N.eqb_spec x 0) as [->|Hne].
    + split; [constructor|]. intros t. by eexists.
    + split; [constructor; [unfold byte_ok in Hx; lia|done]|]. intros t. destruct (I2 t) as [rest E].
      exists rest. cbn [app]. by rewrite E.
Qed.
Lemma upto_nul_id s : str_ok s -> upto_nul s = s.
Proof.
  induction 1 as [|x s Hx Hs IH]; [done|]. cbn [upto_nul]. destruct (N.eqb_spec x 0); [lia|]. by rewrite IH.
Qed.
Definition finished (g : pgh) (a : positive) : pgh :=
  entered (set_mem g (stored (MemHist.grown (q_mem g) [0%N] 1) a (s_cur (q_mem g) ++ [0; 0]%N) 1)) (upto_nul (s_cur (q_mem g))) a.

Section ops.
Context (w : pworld) (G : gmap positive pgh) (GM : gmap positive sgh) (I : winv w G GM).
Context (p : positive) (g : pgh) (Hg : G !! p = Some g).

Lemma get_pool : exists x, pools w !! p = Some x /\ pool_ok GM x g /\ ppool w (Some p) = Ret (p, x).
Proof.
  destruct (wi_pool _ _ _ I p g Hg) as (x & Hx & Ho). exists x. split; [done|]. split; [done|].
  unfold ppool. by rewrite (hget_Some _ _ _ Hx).
Qed.

Lemma pool_retrieve_ok x s rest : pools w !! p = Some x -> pool_ok GM x g -> str_ok s ->
  exists t, pool_retrieve w p x (s ++ 0%N :: rest) = Ret (upd_hash w p x t, assoc s (q_int g)) /\
    pool_ok GM (Pool (pstr x) t) (asked g s) /\ winv (upd_hash w p x t) (<[p := asked g s]> G) GM.
Proof.
  intros Hx Ho Hs. unfold pool_retrieve. rewrite c_string_spec by done. rb.
  destruct (mk_key_ok None s Hs) as (k & Ek & _ & Hk). rewrite Ek. rb.
  rewrite (live (pmem w) GM (wi_mem _ _ _ I) x g Ho).
  destruct (retrieve_ok GM x g Ho k) as (t & E & Ht). rewrite Hk in *. rewrite E. rb.
  exists t. split; [done|]. split; [done|]. by eapply winv_hash.
Qed.

Lemma exists_ok s rest : str_ok s ->
  exists w', str_pool_exists w (Some p) (s ++ 0%N :: rest) =
      Ret (w', match assoc s (q_int g) with Some _ => 1 | None => 0 end) /\
    winv w' (<[p := asked g s]> G) GM /\ glob w' = glob w /\ uniq w' = uniq w /\ pmem w' = pmem w.
Proof.
  intros Hs. destruct get_pool as (x & Hx & Ho & E). unfold str_pool_exists. rewrite E. rb.
  destruct (pool_retrieve_ok x s rest Hx Ho Hs) as (t & E1 & _ & Hw). rewrite E1. rb.
  exists (upd_hash w p x t). done.
Qed.
End ops.

(** inserting a pool string into the pool's table *)
Lemma pool_insert_ok al w G GM p g x a s rest : palloc_ok al -> winv w G GM -> G !! p = Some g ->
  pools w !! p = Some x -> pool_ok GM x g -> q_ro g = 0 -> str_ok s ->
  a ∉ (q_int g).*2 -> (a, s ++ 0%N :: rest) ∈ s_done (q_mem g) ->
  ok (fun w' => winv w' (<[p := entered g s a]> G) GM /\ glob w' = glob w /\ uniq w' = uniq w /\ pmem w' = pmem w)
     (pfail al) (pool_insert al w p a).
Proof.
  intros Hal I Hg Hx Ho Hro Hs Ha Hin. unfold pool_insert. rewrite (hget_Some _ _ _ Hx). rb.
  pose proof (sh_done _ _ (wi_mem _ _ _ I) _ _ _ _ (po_mem _ _ _ Ho) Hin) as Hb.
  destruct (key_at_ok _ _ s rest Hs Hb) as (k & Ek & Hka & Hk). rewrite Ek. rb.
  rewrite (live (pmem w) GM (wi_mem _ _ _ I) x g Ho).
  eapply ok_bind.
  - eapply ok_mono; [apply (insert_ok GM x g Ho (pa_hash al) k a); [apply Hal|done|done|done|rewrite Hk; eauto]| |].
    + intros tr Htr. exact Htr.
    + by right.
  - intros [t r] Ht. cbn [ok]. rewrite Hk in Ht. split; [|done]. by eapply winv_hash.
Qed.
Lemma pool_insert_abort al w G GM p g x a s rest : winv w G GM -> G !! p = Some g ->
  pools w !! p = Some x -> pool_ok GM x g -> q_ro g <> 0 -> str_ok s ->
  (a, s ++ 0%N :: rest) ∈ s_done (q_mem g) -> pool_insert al w p a = Abort.
Proof.
  intros I Hg Hx Ho Hro Hs Hin. unfold pool_insert. rewrite (hget_Some _ _ _ Hx). rb.
  pose proof (sh_done _ _ (wi_mem _ _ _ I) _ _ _ _ (po_mem _ _ _ Ho) Hin) as Hb.
  destruct (key_at_ok _ _ s rest Hs Hb) as (k & Ek & Hka & Hk). rewrite Ek. rb.
  rewrite (live (pmem w) GM (wi_mem _ _ _ I) x g Ho).
  by rewrite (insert_abort GM x g Ho (pa_hash al) k a Hro).
Qed.

Lemma addr_done GM x g a : pool_ok GM x g -> a ∈ (q_int g).*2 -> a ∈ (s_done (q_mem g)).*1.
Proof.
  intros Ho ([s b] & -> & Hin)%elem_of_list_fmap. destruct (po_done _ _ _ Ho s b Hin) as [rest Hr].
  apply elem_of_list_fmap. by eexists (b, _).
Qed.
Lemma sub_app {A} (l l' : list A) : l ⊆ l ++ l'.
Proof. intros a Ha. apply elem_of_app. by left. Qed.

Section ops2.
Context (w : pworld) (G : gmap positive pgh) (GM : gmap positive sgh) (I : winv w G GM).
Context (p : positive) (g : pgh) (Hg : G !! p = Some g) (al : palloc) (Hal : palloc_ok al).

Lemma find_ok s rest : str_ok s ->
  (assoc s (q_int g) = None -> q_ro g = 0 /\ room (q_mem g) (Z.of_nat (length s) + 1)) ->
  ok (fun '(w', a) =>
        (exists GM', winv w' (<[p := found g s a]> G) GM') /\ glob w' = glob w /\ uniq w' = uniq w /\
        match assoc s (q_int g) with
        | Some b => a = b /\ pmem w' = pmem w
        | None => mblk (pmem w) !! a = None /\ mblk (pmem w') = <[a := s ++ [0%N]]> (mblk (pmem w))
        end)
     (pfail al) (str_pool_find al w (Some p) (s ++ 0%N :: rest)).
Proof.
  intros Hs Hro. destruct (get_pool w G GM I p g Hg) as (x & Hx & Ho & E).
  unfold str_pool_find. rewrite E. rb.
  destruct (pool_retrieve_ok w G GM I p g Hg x s rest Hx Ho Hs) as (t & E1 & Ht & Hw). rewrite E1. rb.
  unfold found. destruct (assoc s (q_int g)) as [b|] eqn:Ea.
  - cbn [ok]. split; [by exists GM|]. done.
  - specialize (Hro eq_refl) as [Hro' Hr]. rename Hro' into Hro.
    eapply ok_bind.
    + eapply ok_mono; [apply (sh_strcpy_ok (pmem w) GM (wi_mem _ _ _ I) (pa_mem al) (pstr x) (q_mem g) s rest
         (pal_mem _ Hal) (pal_node _ Hal) (po_mem _ _ _ Ho) Hs Hr)| |].
      * intros ma Hma. exact Hma.
      * by left.
    + intros [m a] (Hm & Hfresh & Hbl). cbv beta iota.
      set (gm := stored (q_mem g) a (s ++ [0%N]) (Z.of_nat (length s) + 1)) in *.
      assert (Hx1 : pools (upd_hash w p x t) !! p = Some (Pool (pstr x) t)) by apply lookup_insert.
      pose proof (winv_mem (upd_hash w p x t) _ GM p (Pool (pstr x) t) (asked g s) m gm Hw Hx1
        (lookup_insert _ _ _) Hm (sub_app _ _) (Forall_nil_2 _)) as Hw2.
      rewrite insert_insert in Hw2. set (w2 := upd_mem _ m) in *.
      assert (Hx2 : pools w2 !! p = Some (Pool (pstr x) t)) by exact Hx1.
      destruct (wi_pool _ _ _ Hw2 p _ (lookup_insert _ _ _)) as (x2 & Hx2' & Ho2).
      rewrite Hx2 in Hx2'. injection Hx2' as <-.
      eapply ok_bind.
      * apply (pool_insert_ok al w2 _ _ p (set_mem (asked g s) gm) (Pool (pstr x) t) a s [] Hal Hw2 (lookup_insert _ _ _) Hx2 Ho2 Hro Hs).
        -- intros Hin. cbn [set_mem asked q_int] in Hin. pose proof (addr_done _ _ _ _ Ho Hin) as Hd.
           apply elem_of_list_fmap in Hd as ([a' b'] & -> & Hd). cbn [fst] in Hfresh.
           rewrite (sh_done _ _ (wi_mem _ _ _ I) _ _ _ _ (po_mem _ _ _ Ho) Hd) in Hfresh. done.
        -- cbn [set_mem q_mem gm stored s_done]. apply elem_of_app. right. left.
      * intros w3 (Hw3 & G3 & U3 & M3). cbn [ok]. rewrite insert_insert in Hw3.
        split; [eexists; exact Hw3|]. rewrite G3, U3, M3. done.
Qed.
Lemma find_abort s rest : str_ok s -> room (q_mem g) (Z.of_nat (length s) + 1) -> ~ may_fail (pa_mem al) ->
  assoc s (q_int g) = None -> q_ro g <> 0 -> str_pool_find al w (Some p) (s ++ 0%N :: rest) = Abort.
Proof.
  intros Hs Hr Hnf Ea Hro. destruct (get_pool w G GM I p g Hg) as (x & Hx & Ho & E).
  unfold str_pool_find. rewrite E. rb.
  destruct (pool_retrieve_ok w G GM I p g Hg x s rest Hx Ho Hs) as (t & E1 & Ht & Hw). rewrite E1, Ea. rb.
  pose proof (sh_strcpy_ok (pmem w) GM (wi_mem _ _ _ I) (pa_mem al) (pstr x) (q_mem g) s rest
         (pal_mem _ Hal) (pal_node _ Hal) (po_mem _ _ _ Ho) Hs Hr) as Hc.
  cbn [upd_hash pmem].
  destruct (mem_strcpy _ _ _ _) as [[m a]| | | |] eqn:Ec; cbn [ok] in Hc; try done. rb.
  destruct Hc as (Hm & Hfresh & Hbl).
  set (gm := stored (q_mem g) a (s ++ [0%N]) (Z.of_nat (length s) + 1)) in *.
  assert (Hx1 : pools (upd_hash w p x t) !! p = Some (Pool (pstr x) t)) by apply lookup_insert.
  pose proof (winv_mem (upd_hash w p x t) _ GM p (Pool (pstr x) t) (asked g s) m gm Hw Hx1
    (lookup_insert _ _ _) Hm (sub_app _ _) (Forall_nil_2 _)) as Hw2.
  destruct (wi_pool _ _ _ Hw2 p _ (lookup_insert _ _ _)) as (x2 & Hx2' & Ho2).
  cbn [upd_mem pools] in Hx2'. rewrite Hx1 in Hx2'. injection Hx2' as <-.
  rewrite (pool_insert_abort al _ _ _ p _ _ a s [] Hw2 (lookup_insert _ _ _) Hx1 Ho2 Hro Hs); [done|].
  cbn [set_mem q_mem gm stored s_done]. apply elem_of_app. right. left.
Qed.

Lemma copy_ok s rest : str_ok s -> room (q_mem g) (Z.of_nat (length s) + 1) ->
  ok (fun '(w', a) => (exists GM', winv w' (<[p := set_mem g (stored (q_mem g) a (s ++ [0%N]) (Z.of_nat (length s) + 1))]> G) GM') /\
        mblk (pmem w) !! a = None /\ mblk (pmem w') = <[a := s ++ [0%N]]> (mblk (pmem w)))
     (pfail al) (str_pool_copy al w (Some p) (s ++ 0%N :: rest)).
Proof.
  intros Hs Hr. destruct (get_pool w G GM I p g Hg) as (x & Hx & Ho & E).
  unfold str_pool_copy. rewrite E. rb. eapply ok_bind.
  - eapply ok_mono; [apply (sh_strcpy_ok (pmem w) GM (wi_mem _ _ _ I) (pa_mem al) (pstr x) (q_mem g) s rest
         (pal_mem _ Hal) (pal_node _ Hal) (po_mem _ _ _ Ho) Hs Hr)| |].
    + intros ma Hma. exact Hma.
    + by left.
  - intros [m a] (Hm & Hfresh & Hbl). cbn [ok]. split; [|done]. eexists.
    apply (winv_mem w G GM p x g m _ I Hx Hg Hm (sub_app _ _) (Forall_nil_2 _)).
Qed.
Lemma copyn_ok src len : 0 <= len < Z.of_nat (length src) -> room (q_mem g) (len + 1) ->
  ok (fun '(w', a) => (exists GM', winv w' (<[p := set_mem g (stored (q_mem g) a (take (Z.to_nat len + 1) src) (len + 1))]> G) GM') /\
        mblk (pmem w) !! a = None /\ mblk (pmem w') = <[a := take (Z.to_nat len + 1) src]> (mblk (pmem w)))
     (pfail al) (str_pool_copyn al w (Some p) src len).
Proof.
  intros Hs Hr. destruct (get_pool w G GM I p g Hg) as (x & Hx & Ho & E).
  unfold str_pool_copyn. rewrite E. rb. eapply ok_bind.
  - eapply ok_mono; [apply (sh_strncpy_ok (pmem w) GM (wi_mem _ _ _ I) (pa_mem al) (pstr x) (q_mem g) src len
         (pal_mem _ Hal) (pal_node _ Hal) (po_mem _ _ _ Ho) Hs Hr)| |].
    + intros ma Hma. exact Hma.
    + by left.
  - intros [m a] (Hm & Hfresh & Hbl). cbn [ok]. split; [|done]. eexists.
    apply (winv_mem w G GM p x g m _ I Hx Hg Hm (sub_app _ _) (Forall_nil_2 _)).
Qed.
Lemma grow_ok src len : 0 <= len <= Z.of_nat (length src) -> room (q_mem g) len ->
  Forall byte_ok (take (Z.to_nat len) src) ->
  ok (fun w' => exists GM', winv w' (<[p := set_mem g (MemHist.grown (q_mem g) (take (Z.to_nat len) src) len)]> G) GM')
     (pfail al) (str_pool_grow al w (Some p) src len).
Proof.
  intros Hs Hr Hb. destruct (get_pool w G GM I p g Hg) as (x & Hx & Ho & E).
  unfold str_pool_grow. rewrite E. rb. eapply ok_bind.
  - eapply ok_mono; [apply (sh_grow_ok (pmem w) GM (wi_mem _ _ _ I) (pa_mem al) (pstr x) (q_mem g) src len
         (pal_mem _ Hal) (pal_node _ Hal) (po_mem _ _ _ Ho) Hs Hr)| |].
    + intros ma Hma. exact Hma.
    + by left.
  - intros m Hm. cbn [ok]. eexists.
    apply (winv_mem w G GM p x g m _ I Hx Hg Hm); cbn [MemHist.grown s_done s_cur]; [done|].
    apply Forall_app. split; [apply Ho|done].
Qed.

Lemma finish_ok : room (q_mem g) 2 -> q_ro g = 0 ->
  ok (fun '(w', a) => (exists GM', winv w' (<[p := finished g a]> G) GM') /\
        a ∉ (s_done (q_mem g)).*1)
     (pfail al) (str_pool_finish al w (Some p)).
Proof.
  intros Hr Hro. destruct (get_pool w G GM I p g Hg) as (x & Hx & Ho & E).
  unfold str_pool_finish. rewrite E. rb. eapply ok_bind.
  { eapply ok_mono; [apply (sh_grow_ok (pmem w) GM (wi_mem _ _ _ I) (pa_mem al) (pstr x) (q_mem g) [0; 0]%N 1
         (pal_mem _ Hal) (pal_node _ Hal) (po_mem _ _ _ Ho))| |].
    - cbn. lia.
    - destruct Hr. split; lia.
    - intros ma Hma. exact Hma.
    - by left. }
  intros m1 H1. cbv beta. eapply ok_bind.
  { eapply ok_mono; [apply (sh_finish_ok m1 _ H1 (pa_mem al) (pstr x) _ (pal_mem _ Hal) (pal_node _ Hal) (lookup_insert _ _ _))| |].
    - destruct Hr. split; cbn [MemHist.grown s_done s_bytes]; lia.
    - intros ma Hma. exact Hma.
    - by left. }
  intros [m2 d] (a & -> & H2). cbv beta iota. rewrite insert_insert in H2.
  cbn [MemHist.grown s_cur] in H2. replace (take (Z.to_nat 1) [0; 0]%N) with [0%N] in H2 by reflexivity.
  rewrite <- app_assoc in H2. cbn [app] in H2.
  change (SG (s_done (q_mem g)) (s_cur (q_mem g) ++ [0%N]) (s_bytes (q_mem g) + 1)) with (MemHist.grown (q_mem g) [0%N] 1) in H2.
  assert (Ha : a ∉ (s_done (q_mem g)).*1).
  { pose proof (sh_nodup _ _ H2 (pstr x) _ (lookup_insert _ _ _)) as Hnd. cbn [stored MemHist.grown s_done] in Hnd.
    rewrite fmap_app in Hnd. apply NoDup_app in Hnd as (_ & Hd & _). intros Hin. apply (Hd a Hin). left. }
  pose proof (winv_mem w G GM p x g m2 _ I Hx Hg H2 (sub_app _ _) (Forall_nil_2 _)) as Hw2.
  destruct (wi_pool _ _ _ Hw2 p _ (lookup_insert _ _ _)) as (x2 & Hx2' & Ho2).
  cbn [upd_mem pools] in Hx2'. rewrite Hx in Hx2'. injection Hx2' as <-.
  destruct (upto_nul_spec (s_cur (q_mem g)) (po_bytes _ _ _ Ho)) as [Hs Hrest]. destruct (Hrest [0%N]) as [rest Er].
  eapply ok_bind.
  - apply (pool_insert_ok al _ _ _ p _ x a _ rest Hal Hw2 (lookup_insert _ _ _) Hx Ho2 Hro Hs).
    + intros Hin. cbn [set_mem q_int] in Hin. apply Ha. by eapply addr_done.
    + cbn [set_mem q_mem stored s_done]. rewrite <- Er. apply elem_of_app. right. left.
  - intros w3 (Hw3 & _). cbn [ok]. rewrite insert_insert in Hw3. split; [eexists; exact Hw3|done].
Qed.
End ops2.

(** creating and destroying pools *)
Definition fresh_pool : pgh := PG [] (SG [] [] 0) 0 0 0.
Lemma pool_create_ok w G GM al : winv w G GM -> palloc_ok al ->
  ok (fun '(w', p) => (exists GM', winv w' (<[p := fresh_pool]> G) GM') /\ G !! p = None /\
        glob w' = glob w /\ uniq w' = uniq w /\ pools w !! p = None)
     (pa_pool al (pools w) = None \/ m_info (pa_mem al) (minf (pmem w)) = None \/
      m_stk (pa_mem al) (stks (msh (pmem w))) = None \/ can_fail (pa_hash al)) (str_pool_create al w).
Proof.
  intros I Hal. unfold str_pool_create.
  destruct (pa_pool al (pools w)) as [p|] eqn:Ep; [|by left].
  assert (Hp : pools w !! p = None) by (eapply (pal_pool _ Hal); eauto).
  eapply ok_bind.
  { eapply ok_mono; [apply (sh_create_ok (pmem w) GM (wi_mem _ _ _ I) (pa_mem al) (pal_mem _ Hal))| |].
    - intros mi Hmi. exact Hmi.
    - naive_solver. }
  intros [m i] [Hi Hm]. cbv beta iota. eapply ok_bind.
  { eapply ok_mono; [apply (P_create penv (pa_hash al) (pal_hash _ Hal))| |].
    - intros t Ht. exact Ht.
    - auto. }
  intros t Ht. cbn [ok]. destruct I as [H1 H2 H3 H4 H5 H6 H7].
  assert (HG : G !! p = None).
  { apply eq_None_not_Some. intros [g Hg]. destruct (H2 p g Hg) as (x & Hx & _). congruence. }
  split; [|done]. exists (<[i := SG [] [] 0]> GM). split; cbn [pmem pools glob uniq]; try done.
  - intros q g2. destruct (decide (q = p)) as [->|Hne].
    + rewrite !lookup_insert. intros [= <-]. eexists. split; [done|].
      split; cbn [pstr phash fresh_pool q_int q_mem s_cur]; try constructor.
      * by rewrite lookup_insert.
      * eexists. split; [exact Ht|]. cbn [g_map g_ro g_retr g_miss]. split; [|done].
        intros kd Hkd. by apply elem_of_nil in Hkd.
      * intros s a Hin. by apply elem_of_nil in Hin.
    + rewrite !lookup_insert_ne by done. intros Hg2. destruct (H2 q g2 Hg2) as (y & Hy & Ho).
      exists y. split; [done|]. eapply pool_ok_mem; [exact Ho|]. rewrite lookup_insert_ne; [apply Ho|].
      intros E. pose proof (po_mem _ _ _ Ho) as E2. congruence.
  - intros q y. destruct (decide (q = p)) as [->|Hne]; [rewrite !lookup_insert; eauto|].
    rewrite !lookup_insert_ne by done. apply H3.
  - assert (Hold : forall q y, pools w !! q = Some y -> pstr y <> i).
    { intros q y Hy E. destruct (H3 q y Hy) as [g Hg]. destruct (H2 q g Hg) as (y' & Hy' & Ho).
      rewrite Hy in Hy'. injection Hy' as <-. pose proof (po_mem _ _ _ Ho) as E2. congruence. }
    intros q r y z. destruct (decide (q = p)) as [->|Hq], (decide (r = p)) as [->|Hr];
      rewrite ?lookup_insert, ?lookup_insert_ne by done; try done.
    + intros [= <-] Hz E. cbn [pstr] in E. symmetry in E. by destruct (Hold r z Hz).
    + intros Hy [= <-] E. cbn [pstr] in E. by destruct (Hold q y Hy).
    + apply H4.
  - intros j Hj. destruct (decide (j = i)) as [->|Hne].
    + exists p. rewrite lookup_insert. by eexists.
    + rewrite lookup_insert_ne in Hj by done. destruct (H5 j Hj) as (q & y & Hy & E). exists q, y.
      rewrite lookup_insert_ne by congruence. done.
  - intros q Hq. destruct (decide (q = p)) as [->|Hne]; [rewrite lookup_insert; eauto|].
    rewrite lookup_insert_ne by done. auto.
Qed.

Lemma pool_destroy_ok w G GM p g : winv w G GM -> G !! p = Some g ->
  if decide (q_ro g = 0) then
    exists w' GM', str_pool_destroy w (Some p) = Ret (w', ∅) /\ pools w' = delete p (pools w) /\
      glob w' = glob w /\ uniq w' = uniq w /\
      (forall a b, (a, b) ∈ s_done (q_mem g) -> mblk (pmem w') !! a = None) /\
      winv (PW (pmem w') (pools w') (if decide (glob w = Some p) then None else glob w) (uniq w')) (delete p G) GM'
  else str_pool_destroy w (Some p) = Abort.
Proof.
  intros I Hg. destruct (get_pool w G GM I p g Hg) as (x & Hx & Ho & _).
  unfold str_pool_destroy. rewrite (hget_Some _ _ _ Hx). rb.
  destruct (sh_destroy_ok (pmem w) GM (wi_mem _ _ _ I) (pstr x) _ (po_mem _ _ _ Ho)) as (m & E & Hm & _ & Hgone & Hkeep).
  rewrite E. rb. destruct (po_hash _ _ _ Ho) as (gh & Hh & Hk & Hv & Hr & _).
  destruct (decide (q_ro g = 0)) as [Hro|Hro].
  - rewrite (proj2 (P_nodes penv (phash x) gh penv_good Hh)) by congruence. rb.
    rewrite (hfree_Some _ _ _ Hx). rb. eexists. exists (delete (pstr x) GM). split; [done|].
    cbn [pmem pools glob uniq]. split; [done|]. split; [done|]. split; [done|]. split; [done|].
    destruct I as [H1 H2 H3 H4 H5 H6 H7]. split; cbn [pmem pools glob uniq]; try done.
    + intros q g2. destruct (decide (q = p)) as [->|Hne]; [by rewrite lookup_delete|].
      rewrite !lookup_delete_ne by done. intros Hg2. destruct (H2 q g2 Hg2) as (y & Hy & Hoy).
      exists y. split; [done|]. eapply pool_ok_mem; [exact Hoy|]. rewrite lookup_delete_ne; [apply Hoy|].
      intros E'. apply Hne. symmetry. eapply H4; eauto.
    + intros q y. destruct (decide (q = p)) as [->|Hne]; [by rewrite lookup_delete|].
      rewrite !lookup_delete_ne by done. apply H3.
    + intros q r y z. rewrite !lookup_delete_Some. intros [_ Hy] [_ Hz]. by apply H4.
    + intros j [gm Hj]. apply lookup_delete_Some in Hj as [Hne Hj]. destruct (H5 j ltac:(eauto)) as (q & y & Hy & E').
      exists q, y. split; [|done]. rewrite lookup_delete_ne; [done|]. intros ->. rewrite Hx in Hy. injection Hy as <-. done.
    + intros q. destruct (decide (glob w = Some p)) as [Hp|Hp]; [done|]. intros Hq.
      rewrite lookup_delete_ne; [auto|]. congruence.
  - rewrite (proj1 (proj2 (proj2 (P_readonly penv (phash x) gh penv_good Hh ltac:(congruence))))). done.
Qed.
