(** C97: the order in which a string pool is iterated, over whole programs. *)
From Verif Require Import Base Trace ListLemmas CStr StackModel StackProofs ObjModel ObjProofs MemModel MemProofs MemHist.
From Verif Require Import PrimeModel HashModel HashSpec HashProofs HashOps HashOps2 HashIter HashHist HashTop HashGrow HashOrder HashStat.
From Verif Require Import HashFnModel HashFnProofs StrModel StrProofs StrHist StrTrace.
Local Open Scope nat_scope.

(** ** specification: with each pool the number of buckets of its table, its strings in the order of iteration,
    and how often it grew and was asked ([counts], HashStat.v) *)
Notation sorder := (N * list (list N) * counts)%type.
Definition keyed (l : list (list N)) : list (list N * unit) := (fun s => (s, tt)) <$> l.
(** the string comes to the front of its bucket, if it is there *)
Definition looked (s : list N) (o : sorder) : sorder :=
  (o.1.1, (after_lookup strhash CStr.scmp o.1.1 s (keyed o.1.2)).*1, HashStat.asked strhash CStr.scmp o.1.1 (keyed o.1.2) o.2 s).
(** the table grows if it is crowded; then a string that is not there is put at the front of its bucket *)
Definition entered_at (s : list N) (o : sorder) : res sorder :=
  '(p, m) ← after_insert strhash CStr.scmp s tt o.1.1 (keyed o.1.2);
  Ret (p, m.*1, if crowded o.1.1 (keyed o.1.2) then grown o.2 else o.2).
Definition reorder (c : pop) (P : psp) (o : sorder) : res sorder :=
  match c with
  | PFind _ _ s _ => match interned P !! s with Some _ => Ret (looked s o) | None => entered_at s (looked s o) end
  | PExists _ s _ => Ret (looked s o)
  | PFinish _ _ => entered_at (upto_nul (growing P)) o
  | _ => Ret o
  end.
(** the pool a call is about *)
Definition pool_of (c : pop) : option nat :=
  match c with
  | PCreate _ => None
  | PDestroy i | PFind _ i _ _ | PExists i _ _ | PCopy _ i _ _ | PCopyn _ i _ _ | PGrow _ i _ _ | PFinish _ i | PRead i _ | PAll i | PStats _ i => Some i
  end.
(** The state of the specification: that of StrTrace.v, and the orders.  An iteration gives the strings in their order *)
Definition pospec (st : list (option psp) * list sorder) (c : pop) : res (list (option psp) * list sorder * pres) :=
  let '(L, Os) := st in
  '(L', r) ← pspec L c;
  match pool_of c with
  | None => Ret (L', Os ++ [(1%N, [], no_counts)], r)
  | Some i =>
      match L !! i, Os !! i with
      | Some (Some P), Some o =>
          o' ← reorder c P o;
          Ret (L', <[i := o']> Os, match c with PAll _ => PNames ((fun s => default 0 (interned P !! s)) <$> o.1.2) | _ => r end)
      | _, _ => UB
      end
  end.

(** ** the order does not depend on where the strings are *)
Section Map.
Context {K D K' D' : Type} (f : K -> K') (g : D -> D') (hf : K' -> N) (cmp : K' -> K' -> Z).
Notation phi := (fun kd : K * D => (f kd.1, g kd.2)).
Notation hf0 := (fun k => hf (f k)).
Notation cmp0 := (fun a b => cmp (f a) (f b)).
Lemma filter_phi (P : K' * D' -> Prop) `{!forall x, Decision (P x)} (Q : K * D -> Prop) `{!forall x, Decision (Q x)} (m : list (K * D)) :
  (forall x, Q x <-> P (phi x)) -> phi <$> filter Q m = filter P (phi <$> m).
Proof.
  intros HE. induction m as [|x m IH]; [done|]. rewrite fmap_cons, !filter_cons. destruct (decide (Q x)) as [HQ|HQ], (decide (P (phi x))) as [HP|HP].
  - rewrite fmap_cons. by rewrite IH.
  - by apply HE in HQ.
  - by apply HE in HP.
  - done.
Qed.
Lemma buckets_phi p F : phi <$> buckets_of p F = buckets_of p (fun i => phi <$> F i).
Proof. unfold buckets_of. generalize (seq 0 (N.to_nat p)). intros l. induction l as [|i l IH]; [done|]. cbn [fmap list_fmap List.concat]. rewrite fmap_app. by rewrite <- IH. Qed.
Lemma row_phi p i (m : list (K * D)) : phi <$> filter (in_row hf0 p i) m = filter (in_row hf p i) (phi <$> m).
Proof. by apply filter_phi. Qed.
Lemma rehash_phi p (m : list (K * D)) : phi <$> rehash hf0 p m = rehash hf p (phi <$> m).
Proof. unfold rehash. rewrite buckets_phi. apply buckets_of_ext. intros i _. rewrite fmap_reverse, row_phi. done. Qed.
Lemma put_phi p k d (m : list (K * D)) : phi <$> put hf0 p k d m = put hf p (f k) (g d) (phi <$> m).
Proof. unfold put. rewrite buckets_phi. apply buckets_of_ext. intros i _. rewrite fmap_app, row_phi. f_equal. by destruct (decide _). Qed.
Lemma afind_phi k (m : list (K * D)) : afind cmp (f k) (phi <$> m) = g <$> afind cmp0 k m.
Proof. induction m as [|[k' d] m IH]; [done|]. cbn. destruct (cmp (f k') (f k) =? 0)%Z; done. Qed.
Lemma lookup_phi p k (m : list (K * D)) : phi <$> after_lookup hf0 cmp0 p k m = after_lookup hf cmp p (f k) (phi <$> m).
Proof.
  unfold after_lookup. generalize (seq 0 (N.to_nat p)). intros l. induction l as [|i l IH]; [done|]. cbn [fmap list_fmap List.concat]. rewrite fmap_app. f_equal; [|by rewrite <- IH].
  cbn zeta. rewrite <- (row_phi p i m). destruct (decide _); [|done]. unfold to_front. rewrite fmap_app. f_equal; by apply filter_phi.
Qed.
Lemma insert_phi p k d (m m' : list (K * D)) p' : after_insert hf0 cmp0 k d p m = Ret (p', m') ->
  after_insert hf cmp (f k) (g d) p (phi <$> m) = Ret (p', phi <$> m').
Proof.
  unfold after_insert, crowded. rewrite fmap_length. set (r := next_size p).
  assert (H : forall q (m0 : list (K * D)), phi <$> match afind cmp0 k m0 with Some _ => m0 | None => put hf0 q k d m0 end =
    match afind cmp (f k) (phi <$> m0) with Some _ => phi <$> m0 | None => put hf q (f k) (g d) (phi <$> m0) end).
  { intros q m0. rewrite afind_phi. destruct (afind cmp0 k m0); cbn; [done|]. by rewrite put_phi. }
  destruct (p <? u64 (2 * N.of_nat (length m)))%N; [destruct r as [q| | | |]; try done|]; cbn [mbind res_bind]; intros [= <- <-]; rewrite H; [by rewrite rehash_phi|done].
Qed.
Lemma first_phi p k (m : list (K * D)) : first_there hf cmp p (f k) (phi <$> m) = first_there hf0 cmp0 p k m.
Proof. unfold first_there. rewrite <- row_phi. by destruct (filter _ m) as [|[k' d] l]. Qed.
Lemma asked_phi p k (m : list (K * D)) c : HashStat.asked hf cmp p (phi <$> m) c (f k) = HashStat.asked hf0 cmp0 p m c k.
Proof. unfold HashStat.asked. rewrite first_phi, afind_phi. by destruct (afind cmp0 k m). Qed.
End Map.

(** ** tables *)
Definition sorts (t : hst key ptr) (o : sorder) : Prop :=
  exists L, hinv penv t L /\ prime (tab t) = o.1.1 /\ (fun kd => kval kd.1) <$> pairs L = o.1.2 /\ readonly (tab t) = 0%Z /\ counted (tab t) o.2.
Lemma keyed_pairs (m : list (key * ptr)) : keyed ((fun kd => kval kd.1) <$> m) = (fun kd => (kval kd.1, tt)) <$> m.
Proof. unfold keyed. rewrite <- list_fmap_compose. done. Qed.
Lemma fst_pairs (m : list (key * ptr)) : ((fun kd => (kval kd.1, tt)) <$> m).*1 = (fun kd => kval kd.1) <$> m.
Proof. rewrite <- list_fmap_compose. done. Qed.
Lemma retrieve_sorts t o k t' d : sorts t o -> hsh_retrieve penv t k = Ret (t', d) -> sorts t' (looked (kval k) o).
Proof.
  intros (L & HI & Hp & Ho & Hro & Hn) E. pose proof (retrieve_counted penv t L k o.2 t' d HI penv_good Hn E) as Hn'. destruct (retrieve_order penv t L k HI penv_good) as (t1 & L' & E1 & J1 & J2 & J3 & _).
  destruct (hsh_retrieve_spec penv t L k HI penv_good) as (t2 & L2 & E2 & _ & _ & _ & _ & J4 & _). rewrite E1 in E, E2. injection E as -> _. injection E2 as <-.
  exists L'. split; [done|]. split; [by rewrite J2|]. unfold looked. cbn [fst snd]. rewrite <- Ho, <- Hp, keyed_pairs. split; [|split; [congruence|]].
  - rewrite decide_True in J3 by done. rewrite J3. rewrite <- (lookup_phi kval (fun _ : ptr => tt) strhash CStr.scmp). by rewrite fst_pairs.
  - rewrite (asked_phi kval (fun _ : ptr => tt) strhash CStr.scmp). exact Hn'.
Qed.
Lemma insert_sorts al t o k d t' z : sorts t o -> halloc_ok al -> hsh_insert penv al t k d = Ret (t', z) ->
  exists o', entered_at (kval k) o = Ret o' /\ sorts t' o'.
Proof.
  intros (L & HI & Hp & Ho & Hro & Hn) Hal E. pose proof (insert_counted penv al t L k d o.2 HI penv_good Hal Hro Hn) as Hn'. rewrite E in Hn'. cbn [ok] in Hn'. pose proof (insert_order penv al t L k d HI penv_good Hal Hro) as Hc. rewrite E in Hc.
  destruct Hc as (L' & J1 & J2 & _ & J3). exists (prime (tab t'), (fun kd => kval kd.1) <$> pairs L', if crowded (prime (tab t)) (pairs L) then grown o.2 else o.2).
  split; [|exists L'; done].
  unfold entered_at. rewrite <- Ho, <- Hp, keyed_pairs.
  rewrite (insert_phi kval (fun _ : ptr => tt) strhash CStr.scmp _ _ _ _ _ _ J3). cbn [mbind res_bind]. rewrite fst_pairs. unfold crowded. by rewrite fmap_length.
Qed.
(** ** pools *)
Definition sorted_at (w : pworld) (p : positive) (o : sorder) : Prop := exists x, pools w !! p = Some x /\ sorts (phash x) o.
Lemma sorted_frame w w' p o : pools w' !! p = pools w !! p -> sorted_at w p o -> sorted_at w' p o.
Proof. intros E (x & Hx & Ho). exists x. by rewrite E. Qed.
Definition others (p : positive) (w w' : pworld) : Prop := forall q, q <> p -> pools w' !! q = pools w !! q.
Lemma upd_sorted w p x t o : sorts t o -> sorted_at (upd_hash w p x t) p o /\ others p w (upd_hash w p x t).
Proof. intros H. split; [exists (Pool (pstr x) t); split; [apply lookup_insert|done]|]. intros q Hq. cbn. by rewrite lookup_insert_ne. Qed.
Lemma mk_key_val a s k : mk_key a s = Ret k -> kval k = s.
Proof. unfold mk_key. destruct (decide (str_ok s)); [|done]. by intros [= <-]. Qed.
Lemma pool_retrieve_sorts w p x s rest w' d o : pools w !! p = Some x -> sorts (phash x) o -> str_ok s ->
  pool_retrieve w p x (s ++ 0%N :: rest) = Ret (w', d) -> sorted_at w' p (looked s o) /\ others p w w'.
Proof.
  intros Hx Ho Hs E. unfold pool_retrieve in E. rewrite (c_string_spec s rest Hs) in E. cbn [mbind res_bind] in E.
  destruct (mk_key None s) as [k| | | |] eqn:Ek; try discriminate E. cbn [mbind res_bind] in E. destruct (keys_live _ _); [|discriminate E].
  destruct (hsh_retrieve penv (phash x) k) as [[t d']| | | |] eqn:Er; try discriminate E. cbn [mbind res_bind] in E. injection E as <- <-.
  apply upd_sorted. rewrite <- (mk_key_val _ _ _ Ek). by eapply retrieve_sorts.
Qed.
Lemma pool_insert_sorts al w p a w' o s : halloc_ok (pa_hash al) -> sorted_at w p o -> (exists rest, mblk (pmem w) !! a = Some (s ++ 0%N :: rest)) -> str_ok s ->
  pool_insert al w p a = Ret w' -> exists o', entered_at s o = Ret o' /\ sorted_at w' p o' /\ others p w w'.
Proof.
  intros Hal (x & Hx & Ho) [rest Ha] Hs E. unfold pool_insert in E. rewrite (hget_Some _ _ _ Hx) in E. unfold key_at in E. rewrite (hget_Some _ _ _ Ha) in E.
  cbn [mbind res_bind] in E. rewrite (c_string_spec s rest Hs) in E. cbn [mbind res_bind] in E.
  destruct (mk_key (Some a) s) as [k| | | |] eqn:Ek; try discriminate E. cbn [mbind res_bind] in E. destruct (keys_live _ _); [|discriminate E].
  destruct (hsh_insert penv (pa_hash al) (phash x) k (Some a)) as [[t z]| | | |] eqn:Er; try discriminate E. cbn [mbind res_bind] in E. injection E as <-.
  destruct (insert_sorts _ _ _ _ _ _ _ Ho Hal Er) as (o' & E1 & Ho'). exists o'. rewrite <- (mk_key_val _ _ _ Ek). split; [done|]. by apply upd_sorted.
Qed.
Lemma insert_mem al w p a w' : pool_insert al w p a = Ret w' -> pmem w' = pmem w.
Proof.
  unfold pool_insert. destruct (hget (pools w) p) as [x| | | |]; try done. cbn [mbind res_bind]. destruct (key_at _ _) as [k| | | |]; try done. cbn [mbind res_bind].
  destruct (keys_live _ _); [|done]. destruct (hsh_insert _ _ _ _ _) as [[t z]| | | |]; try done. cbn [mbind res_bind]. by intros [= <-].
Qed.
Section Calls.
Context (w : pworld) (G : gmap positive pgh) (Hh : pool_history w G) (p : positive) (g : pgh) (Hg : G !! p = Some g) (o : sorder) (Ho : sorted_at w p o).
Lemma exists_sorts s rest w' z : str_ok s -> str_pool_exists w (Some p) (s ++ 0%N :: rest) = Ret (w', z) ->
  sorted_at w' p (looked s o) /\ others p w w'.
Proof using Hh Hg Ho.
  intros Hs E. destruct Ho as (x & Hx & Hx'). unfold str_pool_exists, ppool in E. rewrite (hget_Some _ _ _ Hx) in E. cbn [mbind res_bind] in E.
  destruct (pool_retrieve w p x (s ++ 0%N :: rest)) as [[w1 d]| | | |] eqn:Er; try discriminate E. cbn [mbind res_bind] in E. injection E as <- _.
  by eapply pool_retrieve_sorts.
Qed.
Lemma find_sorts al s rest w' a : palloc_ok al -> str_ok s ->
  (assoc s (q_int g) = None -> q_ro g = 0%Z /\ room (q_mem g) (Z.of_nat (length s) + 1)) ->
  str_pool_find al w (Some p) (s ++ 0%N :: rest) = Ret (w', a) ->
  others p w w' /\ match assoc s (q_int g) with
                   | Some _ => sorted_at w' p (looked s o)
                   | None => exists o', entered_at s (looked s o) = Ret o' /\ sorted_at w' p o'
                   end.
Proof using Hh Hg Ho.
  intros Hal Hs Hro E. destruct (pool_history_inv w G Hh) as [GM I].
  pose proof (find_ok w G GM I p g Hg al Hal s rest Hs Hro) as Hf. rewrite E in Hf. destruct Hf as (_ & _ & _ & Hm).
  destruct (get_pool w G GM I p g Hg) as (x & Hx & Hok & Ep). unfold str_pool_find in E. rewrite Ep in E. cbn [mbind res_bind] in E.
  destruct (pool_retrieve_ok w G GM I p g Hg x s rest Hx Hok Hs) as (t & E1 & _). rewrite E1 in E. cbn [mbind res_bind] in E.
  destruct Ho as (x' & Hx' & Hs'). rewrite Hx in Hx'. injection Hx' as <-.
  destruct (pool_retrieve_sorts w p x s rest _ _ o Hx Hs' Hs E1) as [S1 S2].
  destruct (assoc s (q_int g)) as [b|] eqn:Ea.
  - injection E as <- <-. done.
  - destruct (mem_strcpy _ _ _ _) as [[m d]| | | |] eqn:Em; try discriminate E. cbn [mbind res_bind] in E.
    destruct (pool_insert al _ p d) as [w3| | | |] eqn:Ei; try discriminate E. cbn [mbind res_bind] in E. injection E as <- <-.
    destruct Hm as [_ Hm]. pose proof (insert_mem _ _ _ _ _ Ei) as Hpm.
    destruct (pool_insert_sorts al (upd_mem (upd_hash w p x t) m) p d w3 (looked s o) s (pal_hash _ Hal) S1) as (o' & E2 & S3 & S4); [|done|exact Ei|].
    { exists []. rewrite <- Hpm, Hm. apply lookup_insert. }
    split; [|eauto]. intros q Hq. rewrite (S4 q Hq). by apply S2.
Qed.
Lemma finish_sorts al w' a : palloc_ok al -> room (q_mem g) 2 -> q_ro g = 0%Z -> str_pool_finish al w (Some p) = Ret (w', a) ->
  others p w w' /\ exists o', entered_at (upto_nul (s_cur (q_mem g))) o = Ret o' /\ sorted_at w' p o'.
Proof using Hh Hg Ho.
  intros Hal Hr Hro E. pose proof (hist_finish w G Hh p g Hg al Hal Hr Hro) as Hf. rewrite E in Hf. destruct Hf as (_ & _ & Hm).
  destruct (pool_history_inv w G Hh) as [GM I]. destruct (get_pool w G GM I p g Hg) as (x & Hx & Hok & Ep).
  destruct (upto_nul_spec (s_cur (q_mem g)) (po_bytes _ _ _ Hok)) as [Hs Hrest]. destruct (Hrest [0%N]) as [rest Er].
  unfold str_pool_finish in E. rewrite Ep in E. cbn [mbind res_bind] in E.
  destruct (mem_grow _ _ _ _ _) as [m1| | | |]; try discriminate E. cbn [mbind res_bind] in E.
  destruct (mem_finish _ _ _) as [[m2 [d|]]| | | |]; try discriminate E. cbn [mbind res_bind] in E.
  destruct (pool_insert al _ p d) as [w3| | | |] eqn:Ei; try discriminate E. cbn [mbind res_bind] in E. injection E as <- <-.
  destruct (pool_insert_sorts al (upd_mem w m2) p d w3 o (upto_nul (s_cur (q_mem g))) (pal_hash _ Hal) Ho) as (o' & E2 & S3 & S4); [|done|exact Ei|].
  { exists rest. rewrite <- (insert_mem _ _ _ _ _ Ei), Hm. by rewrite <- Er. }
  split; [exact S4|eauto].
Qed.
(** an iteration leaves the order alone and follows it *)
Lemma loop_sorts L : own_keys (pairs L) -> forall n i w0 x u, i <= length (pairs L) -> length (pairs L) - i < n ->
  pools w0 !! p = Some x -> hinv penv (phash x) L -> (readonly (tab (phash x)) = 0%Z \/ i < length (pairs L)) ->
  exists w' x', keys_loop collect n w0 (Some p) (pos_at L i) u = Ret (u ++ ((fun kd => kaddr kd.1) <$> drop i (pairs L)), w', false) /\
    pools w' !! p = Some x' /\ hinv penv (phash x') L /\ readonly (tab (phash x')) = 0%Z /\ prime (tab (phash x')) = prime (tab (phash x)) /\ others p w0 w' /\
    (forall n, counted (tab (phash x)) n -> counted (tab (phash x')) n).
Proof using.
  intros Hown n. assert (Hlc : length (pairs L) = length (concat L)) by (unfold pairs, ents; by rewrite !fmap_length).
  induction n as [|n IH]; intros i w0 x u Hi Hn Hx HI Hro; [lia|].
  destruct (decide (i < length (pairs L))) as [Hlt|Hge].
  - destruct (lookup_lt_is_Some_2 (pairs L) i Hlt) as [[k d] Hkd].
    destruct (Hown (k, d)) as (a & Hka & Hd); [by eapply elem_of_list_lookup_2|]. cbn [fst snd] in Hka, Hd. subst d.
    assert (Hpos : exists b, pos_at L i = Some b).
    { unfold pos_at. destruct (lookup_lt_is_Some_2 (concat L) i) as [y Hy]; [lia|]. rewrite Hy. eauto. }
    destruct Hpos as [b Hpos]. rewrite Hpos. cbn [keys_loop]. rewrite <- Hpos.
    assert (Egp : str_pool_get_position w0 (Some p) (pos_at L i) = Ret (Some a)).
    { unfold str_pool_get_position, ppool. rewrite (hget_Some _ _ _ Hx). rb.
      rewrite (hsh_get_position_spec penv (phash x) L i HI), Hkd. rb. by rewrite Hka. }
    set (t2 := match pos_at L (S i) with Some _ => phash x | None => MkH (heap (phash x)) (set_readonly (tab (phash x)) 0) end).
    assert (En : str_pool_next_position w0 (Some p) (pos_at L i) = Ret (upd_hash w0 p x t2, pos_at L (S i))).
    { unfold str_pool_next_position, ppool. rewrite (hget_Some _ _ _ Hx). rb. rewrite (hsh_next_position_spec penv (phash x) L i HI) by lia. rb. done. }
    rewrite Egp. rb. change (collect u w0 (Some a)) with (Ret (u ++ [Some a], w0, 0%Z) : res (list ptr * pworld * Z)). rb. cbn [Z.eqb negb]. rewrite En. rb.
    assert (Ht2 : hinv penv t2 L) by (subst t2; destruct (pos_at L (S i)); [done|by apply hinv_flag]).
    assert (Hp2 : prime (tab t2) = prime (tab (phash x))) by (subst t2; by destruct (pos_at L (S i))).
    assert (Hc2 : forall n0, counted (tab (phash x)) n0 -> counted (tab t2) n0) by (intros n0; subst t2; by destruct (pos_at L (S i))).
    destruct (IH (S i) (upd_hash w0 p x t2) (Pool (pstr x) t2) (u ++ [Some a])) as (w' & x' & E & A1 & A2 & A3 & A4 & A5 & A6); try done; try lia.
    + apply lookup_insert.
    + cbn [phash]. destruct (decide (S i < length (pairs L))) as [|Hge]; [by right|left]. subst t2. unfold pos_at. rewrite lookup_ge_None_2 by lia. done.
    + exists w', x'. rewrite E. split; [|split; [done|split; [done|split; [done|split; [by rewrite A4|split]]]]].
      * rewrite (drop_S _ _ _ Hkd). cbn [fmap list_fmap fst]. rewrite <- app_assoc, Hka. done.
      * intros q Hq. rewrite (A5 q Hq). cbn. by rewrite lookup_insert_ne.
      * intros n0 Hn0. by apply A6, Hc2.
  - assert (Hend : pos_at L i = None) by (unfold pos_at; rewrite lookup_ge_None_2 by lia; done).
    rewrite Hend, drop_ge by lia. exists w0, x. split; [cbn; by rewrite app_nil_r|]. split; [done|]. split; [done|].
    split; [destruct Hro; [done|lia]|]. done.
Qed.
Lemma all_sorts : exists w' as_, str_pool_iterate collect (pool_fuel w p) w (Some p) [] = Ret (Some <$> as_, w', 0%Z) /\
  Forall2 (fun s a => assoc s (q_int g) = Some a) o.1.2 as_ /\ sorted_at w' p o /\ others p w w'.
Proof using Hh Hg Ho.
  destruct Ho as (x & Hx & L & HI & Hp & Hl & Hro & Hcn). destruct (pool_history_inv w G Hh) as [GM I].
  destruct (get_pool w G GM I p g Hg) as (x1 & Hx1 & Hok & Ep). rewrite Hx in Hx1. injection Hx1 as <-.
  destruct (po_hash _ _ _ Hok) as (gh & Hhist & Hown & Hv & _). destruct (history_inv _ _ _ penv_good Hhist) as [L' J].
  assert (L' = L) as -> by (apply (rows_unique (heap (phash x)) (buckets (tab (phash x)))); [apply (hi_t _ _ _ (hh_inv _ _ _ _ J))|apply (hi_t _ _ _ HI)]).
  assert (HownL : own_keys (pairs L)) by (intros kd Hkd; apply Hown; by rewrite <- (hh_map _ _ _ _ J)).
  set (t0 := match pos_at L 0 with Some _ => MkH (heap (phash x)) (set_readonly (tab (phash x)) 1) | None => phash x end).
  assert (Ei : str_pool_init_position w (Some p) = Ret (upd_hash w p x t0, pos_at L 0)).
  { unfold str_pool_init_position. rewrite Ep. rb. rewrite (hsh_init_position_spec penv (phash x) L HI). rb. done. }
  assert (Hlc : length (pairs L) = length (concat L)) by (unfold pairs, ents; by rewrite !fmap_length).
  assert (Hlen : length (pairs L) = length (q_int g)).
  { rewrite <- Hv. unfold view. rewrite fmap_length. by rewrite (hh_map _ _ _ _ J). }
  destruct (loop_sorts L HownL (pool_fuel w p) 0 (upd_hash w p x t0) (Pool (pstr x) t0) []) as (w' & x' & E & A1 & A2 & A3 & A4 & A5 & A6).
  - lia.
  - rewrite (fuel_ok w G p g Hh Hg). lia.
  - apply lookup_insert.
  - cbn [phash]. subst t0. destruct (pos_at L 0); [by apply hinv_flag|done].
  - cbn [phash]. destruct (decide (0 < length (pairs L))) as [|Hge]; [by right|left]. subst t0. unfold pos_at. rewrite lookup_ge_None_2 by lia. done.
  - exists w', ((fun kd : key * ptr => default xH kd.2) <$> pairs L). unfold str_pool_iterate. rewrite Ei. rb. rewrite E. rb. rewrite drop_0. cbn [app].
    split; [|split; [|split]].
    + f_equal. f_equal. f_equal. rewrite <- list_fmap_compose. apply list_fmap_ext. intros j kd Hkd. destruct (HownL kd) as (a & E1 & E2); [by eapply elem_of_list_lookup_2|].
      cbn. by rewrite E1, E2.
    + rewrite <- Hl. apply Forall2_fmap_2, Forall_Forall2_diag, Forall_forall. intros kd Hkd. destruct (HownL kd Hkd) as (a & E1 & E2). rewrite E2. cbn [default].
      apply in_assoc; [apply (int_nodup w G Hh p g Hg)|]. rewrite <- Hv. unfold view. apply elem_of_list_fmap. exists kd. rewrite E2. split; [done|]. by rewrite <- (hh_map _ _ _ _ J).
    + exists x'. split; [done|]. exists L. split; [done|]. split; [|split; [done|split; [done|]]].
      * rewrite A4. cbn [phash]. subst t0. by destruct (pos_at L 0).
      * apply A6. cbn [phash]. subst t0. by destruct (pos_at L 0).
    + intros q Hq. rewrite (A5 q Hq). cbn. by rewrite lookup_insert_ne.
Qed.
End Calls.

(** ** whole programs *)
Definition orel (st : pstate) (sp : list (option psp) * list sorder) : Prop :=
  prel st sp.1 /\ length sp.2 = length sp.1 /\
  forall i p P o, st.1.1 !! i = Some p -> sp.1 !! i = Some (Some P) -> sp.2 !! i = Some o -> sorted_at st.2 p o.
Lemma pspec_frame L c L' r i : pspec L c = Ret (L', r) -> pool_of c = Some i ->
  alive L i /\ length L' = length L /\ (forall j, j <> i -> L' !! j = L !! j) /\ (c = PDestroy i -> L' !! i = Some None).
Proof.
  intros E Hi. unfold pspec, Trace.live in E.
  destruct c; cbn [pool_of] in Hi; try discriminate Hi; injection Hi as ->;
    (destruct (L !! i) as [[P|]|] eqn:EL; [|discriminate E|discriminate E]); (split; [by exists P|]);
    try (destruct (objs P !! n); try discriminate E); try (destruct (interned P !! s)); injection E as <- <-;
    rewrite ?insert_length; (split; [done|]); (split; [intros j Hj; by rewrite ?list_lookup_insert_ne by done|]); try discriminate.
  intros _. apply list_lookup_insert. by eapply lookup_lt_Some.
Qed.
Lemma same_pools w w' p o : pools w' = pools w -> sorted_at w p o -> others p w w' /\ sorted_at w' p o.
Proof. intros E H. split; [intros q _; by rewrite E|]. eapply sorted_frame; [|exact H]. by rewrite E. Qed.
(** the pool a call is about is reordered, the others are left alone *)
Lemma moved vs ns w G L c i p g o st' r : prelG (vs, ns, w) L G -> plegal L c -> pool_of c = Some i ->
  vs !! i = Some p -> G !! p = Some g -> L !! i = Some (Some (absp g)) -> sorted_at w p o ->
  pstep (vs, ns, w) c = Ret (st', r) ->
  st'.1.1 = vs /\ others p w st'.2 /\ exists o', reorder c (absp g) o = Ret o' /\ (c <> PDestroy i -> sorted_at st'.2 p o').
Proof.
  intros [Hh Hn Hlen Hs Hro Hgl] Hl Hi Hp Hg HL Ho E. cbn [fst snd] in *.
  pose proof (int_nodup w G Hh p g Hg) as [Hnd _].
  assert (Hroom : forall n, proom L i n -> room (q_mem g) n).
  { intros n (P & HP & H1 & H2). rewrite HP in HL. injection HL as ->. unfold absp in H1, H2. cbn [objs nbytes] in H1, H2. rewrite fmap_length in H1. by split. }
  unfold pstep, var, str_var in E.
  destruct c as [al|j|al j s rest|j s rest|al j s rest|al j src len|al j src len|al j|j n|j|al j];
    cbn [pool_of] in Hi; try discriminate Hi; injection Hi as ->; cbn [plegal reorder] in *; rewrite ?Hp in E.
  - (* destroy *)
    ib E x E1. destruct x as [w' h]. injection E as <- <-. cbn [fst snd]. split; [done|]. split.
    + unfold str_pool_destroy in E1. ib E1 x E2. ib E1 m E3. ib E1 h' E4. ib E1 ps E5. injection E1 as <- <-. intros q Hq. cbn.
      unfold hfree in E5. destruct (pools w !! p); [|discriminate E5]. injection E5 as <-. by rewrite lookup_delete_ne.
    + eexists. split; [done|]. by intros [].
  - (* find *)
    ib E x E1. destruct x as [w' a]. destruct Hl as (Hal & Hok & Hr).
    destruct (find_sorts w G Hh p g Hg o Ho al s rest w' a Hal Hok) as [S1 S2]; [by intros _; split; [by apply (Hro p)|apply Hroom]|exact E1|].
    cbn [fst snd] in E. destruct (ns !! i) as [l|]; [|discriminate E]. destruct (known l a) as [l' n]. injection E as <- <-. cbn [fst snd].
    split; [done|]. split; [done|]. rewrite (absp_int g Hnd). destruct (assoc s (q_int g)); cbn [fmap option_fmap option_map]; [eauto|].
    destruct S2 as (o' & ? & ?). eauto.
  - (* exists *)
    ib E x E1. destruct x as [w' z]. injection E as <- <-. cbn [fst snd]. destruct Hl as [Hok _].
    destruct (exists_sorts w G Hh p g Hg o Ho s rest w' z Hok E1) as [S1 S2]. eauto.
  - (* copy *)
    ib E x E1. destruct x as [w' a]. cbn [fst snd] in E. destruct (ns !! i) as [l|]; [|discriminate E]. destruct (known l a) as [l' n]. injection E as <- <-. cbn [fst snd].
    split; [done|]. unfold str_pool_copy in E1. ib E1 bx E2. destruct bx as [b x]. ib E1 md E3. destruct md as [m d]. injection E1 as <- <-.
    destruct (same_pools w (upd_mem w m) p o eq_refl Ho). eauto.
  - (* copyn *)
    ib E x E1. destruct x as [w' a]. cbn [fst snd] in E. destruct (ns !! i) as [l|]; [|discriminate E]. destruct (known l a) as [l' n]. injection E as <- <-. cbn [fst snd].
    split; [done|]. unfold str_pool_copyn in E1. ib E1 bx E2. destruct bx as [b x]. ib E1 md E3. destruct md as [m d]. injection E1 as <- <-.
    destruct (same_pools w (upd_mem w m) p o eq_refl Ho). eauto.
  - (* grow *)
    ib E w' E1. injection E as <- <-. cbn [fst snd].
    split; [done|]. unfold str_pool_grow in E1. ib E1 bx E2. destruct bx as [b x]. ib E1 m E3. injection E1 as <-.
    destruct (same_pools w (upd_mem w m) p o eq_refl Ho). eauto.
  - (* finish *)
    ib E x E1. destruct x as [w' a]. destruct Hl as (Hal & Hr).
    destruct (finish_sorts w G Hh p g Hg o Ho al w' a Hal (Hroom _ Hr) (Hro p g Hg) E1) as (S1 & o' & S2 & S3).
    cbn [fst snd] in E. destruct (ns !! i) as [l|]; [|discriminate E]. destruct (known l a) as [l' n]. injection E as <- <-. cbn [fst snd].
    eauto.
  - (* read *)
    destruct (ns !! i) as [l|]; [|discriminate E]. destruct (l !! n) as [a|]; [|discriminate E]. ib E b E1. injection E as <- <-. cbn [fst snd].
    split; [done|]. destruct (same_pools w w p o eq_refl Ho). eauto.
  - (* all *)
    destruct (all_sorts w G Hh p g Hg o Ho) as (w' & as_ & E1 & _ & S1 & S2). rewrite E1 in E. cbn [mbind res_bind] in E.
    destruct (ns !! i) as [l|]; [|discriminate E]. injection E as <- <-. cbn [fst snd]. eauto.
  - (* stats *)
    ib E x E1. destruct x as [[[[cnt b] ?] ?] ?]. injection E as <- <-. cbn [fst snd].
    split; [done|]. destruct (same_pools w w p o eq_refl Ho). eauto.
Qed.
(** an iteration gives the numbers of the strings in their order *)
Lemma listed vs ns w G L i p g o st' r : prelG (vs, ns, w) L G -> vs !! i = Some p -> G !! p = Some g -> L !! i = Some (Some (absp g)) -> sorted_at w p o ->
  pstep (vs, ns, w) (PAll i) = Ret (st', r) -> r = PNames ((fun s => default 0 (interned (absp g) !! s)) <$> o.1.2).
Proof.
  intros [Hh Hn Hlen Hs Hro Hgl] Hp Hg HL Ho E. cbn [fst snd] in *. pose proof (int_nodup w G Hh p g Hg) as [Hnd _].
  destruct (all_sorts w G Hh p g Hg o Ho) as (w' & as_ & E1 & HF & _). unfold pstep, var, str_var in E. rewrite Hp, E1 in E. cbn [mbind res_bind] in E.
  rewrite (Hs i p g Hp (alive_lookup _ _ _ HL) Hg) in E. injection E as <- <-. f_equal. rewrite <- list_fmap_compose. symmetry. clear E1.
  induction HF as [|s a l l' Ha _ IH]; [done|]. cbn [fmap list_fmap]. f_equal; [|exact IH]. rewrite (absp_int g Hnd), Ha. done.
Qed.
Lemma create_sorted al w w' p : str_pool_create al w = Ret (w', p) -> pools w !! p = None ->
  sorted_at w' p (1%N, [], no_counts) /\ others p w w'.
Proof.
  unfold str_pool_create. intros E Hp. destruct (pa_pool al (pools w)) as [q|]; [|discriminate E]. ib E mi E1. destruct mi as [m i]. ib E t E2. injection E as <- <-.
  split.
  - exists (Pool i t). split; [apply lookup_insert|]. pose proof (hsh_create_spec penv (pa_hash al)) as Hc. rewrite E2 in Hc. destruct Hc as [HI Ht].
    exists [[]]. split; [exact HI|]. split; [cbn [phash]; by rewrite Ht|]. split; [done|cbn [phash]; rewrite Ht; done].
  - intros r Hr. cbn. by rewrite lookup_insert_ne.
Qed.
Lemma pspec_names L c L' r : pspec L c = Ret (L', r) -> (forall i, c <> PAll i) -> forall l, r <> PNames l.
Proof.
  intros E Hc l. unfold pspec, Trace.live in E.
  destruct c; try (destruct (L !! i) as [[P|]|]; [|discriminate E|discriminate E]);
    try (destruct (objs P !! n); try discriminate E); try (destruct (interned P !! s)); try (injection E as <- <-; discriminate).
  by destruct (Hc i).
Qed.
Lemma pspec_fatal L c : pspec L c <> Fatal.
Proof.
  unfold pspec, Trace.live. destruct c; try (destruct (L !! i) as [[P|]|]; [|discriminate|discriminate]);
    try (destruct (objs P !! n); discriminate); try (destruct (interned P !! s); discriminate); discriminate.
Qed.
Lemma call_fatal {S G O P} eqp (can : O -> Prop) (R : S -> G -> Prop) c (sp : res (G * P)) : can c -> call_ok eqp can R c Fatal sp.
Proof. intros H. by destruct sp as [[? ?]| | | |]. Qed.
Lemma ostep_ok st sp c : orel st sp -> plegal sp.1 c -> call_ok eq pcan orel c (pstep st c) (pospec sp c).
Proof.
  intros (HR & Hlen & Hord) Hl. destruct st as [[vs ns] w], sp as [L Os]. cbn [fst snd] in *.
  pose proof (pstep_ok _ _ c HR Hl) as Hc. unfold pospec. pose proof (pspec_fatal L c) as Hnf.
  destruct (pspec L c) as [[L' r']| | | |] eqn:Es; try (destruct (pstep (vs, ns, w) c) as [[st' r]| | | |]; cbn in Hc |- *; done).
  cbn [mbind res_bind]. destruct (pstep (vs, ns, w) c) as [[st' r]| | | |] eqn:E; cbn [call_ok] in Hc; try done.
  2: { by apply call_fatal. }
  destruct Hc as [HR' Hpe].
  assert (Hreq : (forall i, c <> PAll i) -> r = r').
  { intros Hc. pose proof (pspec_names L c L' r' Es Hc) as Hx. destruct r, r'; cbn in Hpe; try done. by destruct (Hx l0). }
  destruct (pool_of c) as [i|] eqn:Ei.
  - destruct (pspec_frame _ _ _ _ i Es Ei) as (Ha & HL' & Hj & Hd). destruct HR as [G R]. pose proof R as [Hh Hn Hln Hs Hro Hgl]. cbn [fst snd] in *.
    pose proof Ha as [P HP]. destruct (nm_get _ _ _ Hn i P HP) as (p & Hp & HG). rewrite lookup_fmap in HG. apply fmap_Some in HG as (g & HG & ->).
    destruct (lookup_lt_is_Some_2 Os i) as [o Hoi]. { rewrite Hlen. by eapply lookup_lt_Some. }
    pose proof (Hord i p _ o Hp HP Hoi) as Hso. rewrite HP, Hoi.
    destruct (moved vs ns w G L c i p g o st' r R Hl Ei Hp HG HP Hso E) as (Hvs & Hoth & o' & Hre & Hnew). rewrite Hre. cbn [mbind res_bind call_ok]. split.
    + split; [done|]. cbn [fst snd]. split; [by rewrite insert_length, HL'|]. rewrite Hvs. intros j q P' o1 Hq HP' Ho1. destruct (decide (j = i)) as [->|Hne].
      * rewrite Hp in Hq. injection Hq as <-. rewrite list_lookup_insert in Ho1 by (by eapply lookup_lt_Some). injection Ho1 as <-. apply Hnew. intros ->. rewrite Hd in HP' by done. done.
      * rewrite Hj in HP' by done. rewrite list_lookup_insert_ne in Ho1 by done. eapply sorted_frame; [|by eapply (Hord j)]. apply Hoth.
        intros ->. apply Hne. by eapply (nm_inj _ _ _ Hn).
    + destruct c; try (apply Hreq; intros; discriminate). cbn [pool_of] in Ei. injection Ei as ->. by eapply listed.
  - destruct c; try discriminate Ei. cbn [call_ok]. split; [|apply Hreq; intros; discriminate]. unfold pspec in Es. injection Es as <- <-.
    destruct HR as [G R]. pose proof R as [Hh Hn Hln Hs Hro Hgl]. cbn [fst snd] in *. unfold pstep in E. ib E x E1. destruct x as [w' p]. injection E as <- <-.
    destruct (pool_history_inv w G Hh) as [GM I]. pose proof (pool_create_ok w G GM al I Hl) as Ho. rewrite E1 in Ho. destruct Ho as (_ & HGp & _ & _ & Hpw).
    destruct (create_sorted _ _ _ _ E1 Hpw) as [S1 S2]. split; [done|]. cbn [fst snd]. split; [by rewrite !app_length, Hlen|].
    intros j q P o Hq HP Ho. apply snoc_lookup in Hq as [[Hlt Hq]|[-> <-]].
    + rewrite (nm_len _ _ _ Hn) in Hlt. rewrite lookup_app_l in HP by done. rewrite lookup_app_l in Ho by (by rewrite Hlen). eapply sorted_frame; [|by eapply (Hord j)]. apply S2.
      intros ->. destruct (nm_get _ _ _ Hn j P HP) as (p' & Hp' & Hx). rewrite Hq in Hp'. injection Hp' as <-. rewrite lookup_fmap, HGp in Hx. done.
    + rewrite (nm_len _ _ _ Hn), <- Hlen, lookup_app_r, Nat.sub_diag in Ho by lia. injection Ho as <-. exact S1.
Qed.
Lemma orders_ok cs : lawful pospec (fun sp => plegal sp.1) ([], []) cs ->
  refines eq pcan orel cs (run pstep ([], [], pempty) cs) (run pospec ([], []) cs).
Proof.
  intros Hl. apply (run_refines _ _ _ _ (fun sp => plegal sp.1) orel); [intros; by apply ostep_ok| |exact Hl].
  split; [|split; [done|]].
  - exists ∅. split; cbn [fst snd]; try done. apply rtc_refl.
  - intros i p P o H. cbn [fst snd] in H. rewrite lookup_nil in H. discriminate H.
Qed.

(** the same call, with another allocator and other memory behind the arguments *)
Definition psame_call (c c' : pop) : Prop :=
  match c, c' with
  | PCreate _, PCreate _ => True
  | PDestroy i, PDestroy j | PFinish _ i, PFinish _ j | PAll i, PAll j | PStats _ i, PStats _ j => i = j
  | PFind _ i s _, PFind _ j u _ | PExists i s _, PExists j u _ | PCopy _ i s _, PCopy _ j u _ => i = j /\ s = u
  | PCopyn _ i src len, PCopyn _ j src' len' => i = j /\ len = len' /\ take (Z.to_nat len + 1) src = take (Z.to_nat len + 1) src'
  | PGrow _ i src len, PGrow _ j src' len' => i = j /\ len = len' /\ take (Z.to_nat len) src = take (Z.to_nat len) src'
  | PRead i n, PRead j m => i = j /\ n = m
  | _, _ => False
  end.
Lemma pospec_same c c' st : psame_call c c' -> pospec st c = pospec st c'.
Proof.
  destruct st as [L Os]. destruct c, c'; cbn [psame_call]; try done; intros Hc; try subst; try destruct Hc as [-> Hc]; try destruct Hc as [-> Hc]; try subst; try done;
    unfold pospec, pspec, reorder, pool_of; rewrite ?Hc; done.
Qed.
Lemma porun_same cs cs' : Forall2 psame_call cs cs' -> forall st, run pospec st cs = run pospec st cs'.
Proof. induction 1 as [|c c' cs cs' Hc _ IH]; intros st; [done|]. cbn [run]. rewrite (pospec_same c c' st Hc). destruct (pospec st c') as [[st' r]| | | |]; try done. by rewrite IH. Qed.
