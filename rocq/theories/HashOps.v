(** The table operations against the association-list specification. *)
From Verif Require Import Base PrimeModel PrimeProofs HashModel HashSpec ListLemmas HashProofs.
Local Open Scope nat_scope.

(** ** association lists *)
Section AssocBase.
Context {K D : Type} (cmp : K -> K -> Z).
Implicit Types m : list (K * D).

Lemma adistinct_cons k d m :
  adistinct cmp ((k, d) :: m) <-> (forall x, x ∈ m -> cmp k x.1 <> 0%Z) /\ adistinct cmp m.
Proof.
  unfold adistinct. split.
  - intros H. inversion H as [|? ? Hx Hl]; subst. split; [|done]. by apply Forall_forall.
  - intros [H1 H2]. constructor; [|done]. by apply Forall_forall.
Qed.

Lemma afind_None k m : afind cmp k m = None <-> forall x, x ∈ m -> cmp x.1 k <> 0%Z.
Proof.
  induction m as [|[k' d] m IH]; simpl.
  - split; [|done]. intros _ x Hx. set_solver.
  - destruct (cmp k' k =? 0)%Z eqn:E.
    + split; [done|]. intros Hx. exfalso. apply (Hx (k', d)); [set_solver|]. simpl. lia.
    + rewrite IH. split.
      * intros Hx x Hin. apply elem_of_cons in Hin as [->|Hin]; [simpl; lia|auto].
      * intros Hx x Hin. apply Hx. set_solver.
Qed.

Lemma afind_in k m d : afind cmp k m = Some d -> exists k', (k', d) ∈ m /\ cmp k' k = 0%Z.
Proof.
  induction m as [|[k' d'] m IH]; simpl; [done|].
  destruct (cmp k' k =? 0)%Z eqn:E.
  - intros [= ->]. exists k'. split; [set_solver|lia].
  - intros H. destruct (IH H) as (k2 & ? & ?). exists k2. split; [set_solver|done].
Qed.

Lemma aremove_None k m : (forall x, x ∈ m -> cmp x.1 k <> 0%Z) -> aremove cmp k m = m.
Proof.
  unfold aremove. induction m as [|x m IH]; intros H; [done|].
  rewrite filter_cons_True.
  - f_equal. apply IH. intros y Hy. apply H. set_solver.
  - apply Z.eqb_neq. apply H. set_solver.
Qed.

Lemma aremove_perm k m m' : m ≡ₚ m' -> aremove cmp k m ≡ₚ aremove cmp k m'.
Proof. unfold aremove. intros ->. done. Qed.

End AssocBase.

Section Assoc.
Context {K D : Type} (hash : K -> N) (cmp : K -> K -> Z) (G : good_cmp hash cmp).
Implicit Types m : list (K * D).

Lemma adistinct_perm m m' : m ≡ₚ m' -> adistinct cmp m -> adistinct cmp m'.
Proof.
  unfold adistinct. intros Hp. induction Hp as [|x l l' Hp IH|x y l|l l' l'' _ IH1 _ IH2]; intros H.
  - done.
  - inversion H as [|? ? Hx Hl]; subst. constructor; [|by apply IH].
    by rewrite <- Hp.
  - inversion H as [|? ? Hx Hl]; subst. inversion Hl as [|? ? Hy Hl']; subst.
    inversion Hx as [|? ? Hxy Hx']; subst. constructor; [constructor; [|done]|constructor; done].
    intros E. apply Hxy. by apply (gc_sym _ _ G).
  - auto.
Qed.

Lemma afind_Some k k' d m :
  adistinct cmp m -> (k', d) ∈ m -> cmp k' k = 0%Z -> afind cmp k m = Some d.
Proof.
  induction m as [|[k2 d2] m IH]; intros Hd Hin Hc; [set_solver|].
  apply adistinct_cons in Hd as [Hd1 Hd2]. simpl.
  apply elem_of_cons in Hin as [[= -> ->]|Hin].
  - by rewrite Hc.
  - destruct (cmp k2 k =? 0)%Z eqn:E; [|auto].
    exfalso. apply (Hd1 _ Hin). simpl. apply (gc_trans _ _ G _ k); [lia|].
    by apply (gc_sym _ _ G).
Qed.

Lemma afind_perm k m m' : adistinct cmp m -> m ≡ₚ m' -> afind cmp k m = afind cmp k m'.
Proof.
  intros Hd Hp. destruct (afind cmp k m') as [d|] eqn:E.
  - apply afind_in in E as (k' & Hin & Hc). eapply afind_Some; [done| |done]. by rewrite Hp.
  - apply afind_None. intros x Hx. rewrite Hp in Hx. by apply (proj1 (afind_None cmp k m') E).
Qed.

Lemma aremove_Some k k' d m :
  adistinct cmp ((k', d) :: m) -> cmp k' k = 0%Z -> aremove cmp k ((k', d) :: m) = m.
Proof.
  intros Hd Hc. apply adistinct_cons in Hd as [H1 _]. unfold aremove.
  rewrite filter_cons_False by (simpl; rewrite Hc; done).
  apply aremove_None. intros x Hx E. apply (H1 x Hx).
  apply (gc_trans _ _ G _ k); [done|]. by apply (gc_sym _ _ G).
Qed.

End Assoc.

Section HashOps.
Context {K D : Type}.
Notation bheap := (bheap K D).
Notation hst := (hst K D).
Notation henv := (henv K D).
Notation halloc := (halloc K D).
Notation nent := (positive * @ent K D)%type.
Implicit Types (H : bheap) (l : list nent) (L : list (list nent)) (env : henv) (s : hst).

Record hinv env s L : Prop := {
  hi_t : tinv (hashf env) (heap s) (tab s) L;
  hi_own : owns (heap s) L;
  hi_entries : entries (tab s) = u64 (N.of_nat (length (pairs L)));
  hi_distinct : adistinct (cmpf env) (pairs L) }.

Definition good env := good_cmp (hashf env) (cmpf env).

Lemma pairs_perm L L' : ents L ≡ₚ ents L' -> pairs L ≡ₚ pairs L'.
Proof. unfold pairs. intros ->. done. Qed.

Lemma ents_perm L L' : concat L ≡ₚ concat L' -> ents L ≡ₚ ents L'.
Proof. unfold ents. intros ->. done. Qed.

Lemma in_pairs L a e : (a, e) ∈ concat L -> epair e ∈ pairs L.
Proof. intros. unfold pairs, ents. apply elem_of_list_fmap_1. by apply (elem_of_list_fmap_1 snd _ (a, e)). Qed.

Lemma pairs_in L x : x ∈ pairs L -> exists a e, (a, e) ∈ concat L /\ x = epair e.
Proof.
  unfold pairs, ents. intros Hx. apply elem_of_list_fmap in Hx as (e & -> & Hx).
  apply elem_of_list_fmap in Hx as ([a e'] & -> & Hx). eauto.
Qed.

(** a key equal to [k] can only be in the row of [k] *)
Lemma match_row env s L k a e :
  hinv env s L -> good env -> (a, e) ∈ concat L -> cmpf env (ekey e) k = 0%Z ->
  exists l, L !! N.to_nat (hashf env k mod prime (tab s)) = Some l /\ (a, e) ∈ l.
Proof.
  intros HI G Hin Hc. apply concat_elem in Hin as (i & l & Hi & Hin).
  destruct (ti_placed _ _ _ _ (hi_t _ _ _ HI) _ _ _ Hi Hin) as [Hh Hrow]. simpl in *.
  rewrite <- (gc_hash _ _ G _ _ Hc), <- Hh, Hrow. eauto.
Qed.

Lemma find_row_none env s L k l :
  hinv env s L -> good env ->
  L !! N.to_nat (hashf env k mod prime (tab s)) = Some l -> no_match env k l ->
  afind (cmpf env) k (pairs L) = None.
Proof.
  intros HI G Hl Hno. apply afind_None. intros x Hx Hc.
  apply pairs_in in Hx as (a & e & Hin & ->). simpl in Hc.
  destruct (match_row _ _ _ _ _ _ HI G Hin Hc) as (l' & Hl' & Hin').
  rewrite Hl in Hl'. injection Hl' as <-. exact (Hno _ Hin' Hc).
Qed.

Lemma find_row_some env s L k l a e :
  hinv env s L -> good env ->
  L !! N.to_nat (hashf env k mod prime (tab s)) = Some l -> (a, e) ∈ l ->
  cmpf env (ekey e) k = 0%Z -> afind (cmpf env) k (pairs L) = Some (edatum e).
Proof.
  intros HI G Hl Hin Hc. eapply afind_Some; [apply G|apply HI| |done].
  change (ekey e, edatum e) with (epair e). eapply in_pairs. eapply elem_of_concat; eauto.
Qed.

Lemma u64_succ n : u64 (u64 n + 1) = u64 (n + 1).
Proof. unfold u64. rewrite N.add_mod_idemp_l; done. Qed.
Lemma u64_pred n : u64_dec (u64 (n + 1)) = u64 n.
Proof.
  unfold u64_dec, u64. rewrite N.add_mod_idemp_l by done.
  replace (n + 1 + (2 ^ 64 - 1))%N with (n + 1 * 2 ^ 64)%N by lia.
  by rewrite N.mod_add.
Qed.

Lemma umod_ok x p : (0 < p)%N -> umod x p = Ret (x mod p)%N.
Proof. intros. unfold umod. destruct (N.eqb_spec p 0); [lia|done]. Qed.

(** ** hsh_create *)
Lemma hsh_create_spec env al :
  ok (fun s => hinv env s [[]] /\ tab s = Tab 1 0 [None] 0 0 0 0 0) (can_fail al) (hsh_create al).
Proof.
  unfold hsh_create. eapply ok_bind; [apply (hsh_create__spec (hashf env) al ∅)|].
  intros t (HT & Hp & Ht). cbn [ok]. change (u32 0) with 0%N in Hp.
  assert (Hw : prm_next_prime 0 = Ret 1%N) by (apply prm_next_prime_wrap; [done|right; done]).
  rewrite Hw in Hp. injection Hp as Hp.
  rewrite <- Hp in HT, Ht. simpl in HT, Ht. split; [|by simpl; rewrite Ht].
  constructor; simpl.
  - done.
  - intros a. rewrite lookup_empty. unfold addrs. simpl. split; [intros [? ?]; done|set_solver].
  - by rewrite Ht.
  - constructor.
Qed.

(** ** hsh_insert *)
Lemma hsh_insert_ro env al s L k d :
  hinv env s L -> readonly (tab s) <> 0%Z -> hsh_insert env al s k d = Abort.
Proof.
  intros HI Hr. unfold hsh_insert. rewrite (hsh_check_ok _ _ _ _ (hi_t _ _ _ HI)). rb.
  destruct (Z.eqb_spec (readonly (tab s)) 0); done.
Qed.

(** table parameters after an insertion that may have grown the table *)
Definition size_step (t t' : table) : Prop :=
  if (prime t <? u64 (entries t * 2))%N
  then prm_next_prime (u32 (u64 (prime t * 3))) = Ret (prime t') /\
       resizings t' = u64 (resizings t + 1)
  else prime t' = prime t /\ resizings t' = resizings t.

Lemma hsh_insert_full env al s L k d :
  hinv env s L -> good env -> halloc_ok al -> readonly (tab s) = 0%Z ->
  ok (fun '(s', r) => exists L',
        hinv env s' L' /\
        match afind (cmpf env) k (pairs L) with
        | Some _ => r = 1%Z /\ pairs L' ≡ₚ pairs L
        | None => r = 0%Z /\ pairs L' ≡ₚ (k, d) :: pairs L
        end /\
        readonly (tab s') = 0%Z /\ retrievals (tab s') = retrievals (tab s) /\
        hits (tab s') = hits (tab s) /\ misses (tab s') = misses (tab s) /\
        size_step (tab s) (tab s') /\
        (afind (cmpf env) k (pairs L) = None -> exists a l,
           L' !! N.to_nat (hashf env k mod prime (tab s')) = Some ((a, Ent k (hashf env k) d) :: l)))
     (can_fail al) (hsh_insert env al s k d).
Proof.
  intros HI G Hal Hro. unfold hsh_insert. rewrite (hsh_check_ok _ _ _ _ (hi_t _ _ _ HI)). rb.
  rewrite Hro. cbn [negb Z.eqb].
  apply (ok_bind (fun '(H1, t1) => exists L1, hinv env (MkH H1 t1) L1 /\ pairs L1 ≡ₚ pairs L /\
           readonly t1 = 0%Z /\ retrievals t1 = retrievals (tab s) /\
           hits t1 = hits (tab s) /\ misses t1 = misses (tab s) /\ size_step (tab s) t1)).
  { unfold size_step. destruct (prime (tab s) <? u64 (entries (tab s) * 2))%N eqn:Eg.
    - eapply ok_mono; [eapply (hsh_grow_spec (hashf env)); [apply HI|apply HI|done]|..|done].
      intros [H1 t1] (L1 & HT1 & Hown & Hents & Hprime & Ht1). apply pairs_perm in Hents.
      exists L1. rewrite Ht1. cbn [readonly retrievals hits misses resizings prime].
      split; [|done].
      constructor; cbn [heap tab].
      + by rewrite <- Ht1.
      + done.
      + cbn [entries]. rewrite (hi_entries _ _ _ HI). by rewrite Hents.
      + eapply adistinct_perm; [apply G|symmetry; exact Hents|apply HI].
    - cbn [ok]. exists L. destruct s. done. }
  intros [H1 t1] (L1 & HI1 & Hp1 & R1 & R2 & R3 & R4 & R5).
  pose proof (hi_t _ _ _ HI1) as HT1. cbn [heap tab] in HT1.
  rewrite (umod_ok _ _ (ti_prime _ _ _ _ HT1)). rb.
  destruct (row_of _ _ _ _ (hashf env k mod prime t1)%N HT1) as (p & l & Hbp & HLl & Hrow & Hnd & Hlen).
  { apply N.mod_lt. pose proof (ti_prime _ _ _ _ HT1). lia. }
  rewrite (aget_Some _ _ _ Hbp). rb.
  assert (Hfp : afind (cmpf env) k (pairs L) = afind (cmpf env) k (pairs L1)).
  { symmetry. eapply afind_perm; [apply G|apply HI1|done]. }
  destruct (find_loop_spec env H1 l (S (size H1)) None p k Hrow Hlen)
    as [[-> Hno]|(l1 & a & e & l2 & -> & Hno & Hc & ->)].
  - rb. rewrite Hfp, (find_row_none _ _ _ _ _ HI1 G HLl Hno).
    eapply ok_bind; [apply (insert__grown (hashf env)); [exact HT1|done|done]|].
    intros [H2 t2] (a & L2 & (G1 & G2 & G3 & G4 & G5 & G6) & Gtop & Ht2). cbn [ok]. exists L2.
    assert (Hpairs : pairs L2 ≡ₚ (k, d) :: pairs L1).
    { unfold pairs, ents. rewrite G6. done. }
    split; [|split; [|rewrite Ht2; cbn [set_entries set_buckets tab readonly retrievals hits misses]]].
    + constructor; cbn [heap tab].
      * done.
      * intros b. rewrite G4. unfold addrs. rewrite G6, fmap_app, elem_of_app.
        rewrite (hi_own _ _ _ HI1 b). unfold addrs. simpl. tauto.
      * rewrite Ht2. cbn [set_entries entries]. rewrite Hpairs. cbn [length].
        pose proof (hi_entries _ _ _ HI1) as He. cbn [tab] in He. rewrite He, u64_succ. f_equal. lia.
      * eapply adistinct_perm; [apply G|symmetry; exact Hpairs|].
        apply adistinct_cons. split; [|apply HI1]. intros x Hx E.
        pose proof (find_row_none _ _ _ _ _ HI1 G HLl Hno) as Hn.
        rewrite afind_None in Hn. apply (Hn x Hx). by apply (gc_sym _ _ G).
    + split; [done|]. by rewrite Hpairs, Hp1.
    + do 5 (split; [done|]). intros _. rewrite HLl in Gtop. by exists a, l.
  - rb. cbn [ok]. exists L1. rewrite Hfp.
    rewrite (find_row_some _ _ _ _ _ a e HI1 G HLl) by (done || set_solver).
    split; [done|]. split; [done|]. do 5 (split; [done|]). done.
Qed.
Lemma hsh_insert_spec env al s L k d :
  hinv env s L -> good env -> halloc_ok al -> readonly (tab s) = 0%Z ->
  ok (fun '(s', r) => exists L',
        hinv env s' L' /\
        match afind (cmpf env) k (pairs L) with
        | Some _ => r = 1%Z /\ pairs L' ≡ₚ pairs L
        | None => r = 0%Z /\ pairs L' ≡ₚ (k, d) :: pairs L
        end /\
        readonly (tab s') = 0%Z /\ retrievals (tab s') = retrievals (tab s) /\
        hits (tab s') = hits (tab s) /\ misses (tab s') = misses (tab s) /\
        size_step (tab s) (tab s'))
     (can_fail al) (hsh_insert env al s k d).
Proof.
  intros HI G Hal Hro. eapply ok_mono; [by apply (hsh_insert_full env al s L k d)|..|done].
  intros [s' r] (L' & J1 & J2 & J3 & J4 & J5 & J6 & J7 & _). exists L'. done.
Qed.

(** replace row [h] of a table by another with the same or fewer nodes *)
Lemma tinv_row hf H H' t bs' L h l p' l' :
  tinv hf H t L -> L !! h = Some l -> bs' = <[h := p']> (buckets t) ->
  row H' p' l' -> NoDup l'.*1 -> (forall x, x ∈ l' -> x ∈ l) ->
  (forall a, a ∈ (concat (delete h L)).*1 -> H' !! a = H !! a) ->
  tinv hf H' (set_buckets t bs') (<[h := l']> L).
Proof.
  intros HT Hl -> Hr Hnd Hsub Hf. constructor; simpl.
  - apply HT.
  - rewrite insert_length. apply HT.
  - eapply rows_update; [apply HT|done|done|done].
  - unfold addrs. rewrite (concat_insert L h l) by done. rewrite fmap_app. apply NoDup_app.
    destruct (row_nodup L h l (ti_nodup _ _ _ _ HT) Hl) as [_ Hd].
    split; [done|]. split.
    + intros a Ha. apply Hd. apply elem_of_list_fmap in Ha as (x & -> & Hx).
      apply elem_of_list_fmap. eauto.
    + pose proof (ti_nodup _ _ _ _ HT) as Hn. unfold addrs in Hn.
      rewrite (concat_delete L h l Hl), fmap_app in Hn. by apply NoDup_app in Hn as (_ & _ & ?).
  - intros i l0 x Hi Hx. destruct (decide (i = h)) as [->|Hne].
    + rewrite list_lookup_insert in Hi by (eapply lookup_lt_Some; eauto). injection Hi as <-.
      eapply (ti_placed _ _ _ _ HT); eauto.
    + rewrite list_lookup_insert_ne in Hi by done. eapply (ti_placed _ _ _ _ HT); eauto.
Qed.

Lemma set_buckets_same t : set_buckets t (buckets t) = t.
Proof. by destruct t. Qed.

Lemma NoDup_mid {A B} (l1 l2 : list (A * B)) a e :
  NoDup (l1 ++ (a, e) :: l2).*1 ->
  NoDup (l1 ++ l2).*1 /\ a ∉ l1.*1 /\ a ∉ l2.*1 /\ NoDup l1.*1 /\ NoDup l2.*1 /\
  (forall b, b ∈ l1.*1 -> b ∉ l2.*1).
Proof.
  rewrite !fmap_app. simpl. intros Hnd.
  assert (Hp : l1.*1 ++ a :: l2.*1 ≡ₚ a :: (l1.*1 ++ l2.*1)) by (symmetry; apply Permutation_middle).
  rewrite Hp in Hnd. apply NoDup_cons in Hnd as [Hni Hnd]. split; [done|].
  apply NoDup_app in Hnd as (? & ? & ?). set_solver.
Qed.

(** unlinking the node [a] found after [l1] *)
Lemma unlink H p l1 a e l2 :
  row H p (l1 ++ (a, e) :: l2) -> NoDup (l1 ++ (a, e) :: l2).*1 ->
  exists n, H !! a = Some (mkB e n) /\
    match last_ptr None l1 with
    | None => l1 = [] /\ p = Some a /\ row H n l2
    | Some q => exists b, H !! q = Some b /\ q <> a /\ q ∈ l1.*1 /\
                row (<[q := set_next b n]> H) p (l1 ++ l2)
    end.
Proof.
  intros Hr Hnd. pose proof Hr as Hr0. apply seg_app in Hr as (m & Hs1 & Hs2).
  simpl in Hs2. destruct Hs2 as (-> & n & Ha & Hs2). exists n. split; [done|].
  destruct (NoDup_mid _ _ _ _ Hnd) as (Hnd' & Ha1 & Ha2 & Hn1 & Hn2 & Hdis).
  unfold last_ptr. destruct (last l1) as [[q qe]|] eqn:El.
  - apply last_Some in El as [l1' ->].
    assert (Hq : exists m, H !! q = Some (mkB qe m)).
    { eapply seg_in; [exact Hs1|]. set_solver. }
    destruct Hq as [mq Hq]. exists (mkB qe mq). simpl. split; [done|].
    assert (Hqin : q ∈ (l1' ++ [(q, qe)]).*1) by (rewrite fmap_app; simpl; set_solver).
    split; [intros ->; done|]. split; [done|].
    apply seg_app. exists n. split.
    + unfold set_next. simpl. change (Bk (ekey qe) (ehash qe) (edatum qe) n) with (mkB qe n).
      eapply seg_redirect; eauto.
    + apply (seg_frame H); [done|]. intros b Hb. apply lookup_insert_ne. intros ->.
      by apply (Hdis b).
  - apply last_None in El as ->. simpl in Hs1. done.
Qed.

Lemma concat_split {A} (M : list (list A)) h r :
  M !! h = Some r -> exists X Y, concat M = X ++ r ++ Y /\
    (forall r', concat (<[h := r']> M) = X ++ r' ++ Y).
Proof.
  revert h. induction M as [|r0 M IH]; intros [|h] Hh; simpl in *; try done.
  - injection Hh as ->. exists [], (concat M). done.
  - destruct (IH h Hh) as (X & Y & E1 & E2). exists (r0 ++ X), Y. split.
    + rewrite E1. by rewrite app_assoc.
    + intros r'. rewrite E2. by rewrite app_assoc.
Qed.

Lemma adistinct_mid cmp (m1 m2 : list (K * D)) k d :
  (forall a b, cmp a b = 0%Z -> cmp b a = 0%Z) ->
  adistinct cmp (m1 ++ (k, d) :: m2) ->
  (forall x, x ∈ m1 ++ m2 -> cmp x.1 k <> 0%Z).
Proof.
  intros Hsym. induction m1 as [|[k1 d1] m1 IH]; simpl; intros Hd x Hx.
  - apply adistinct_cons in Hd as [Hd _]. intros E. apply (Hd x Hx). auto.
  - apply adistinct_cons in Hd as [Hd1 Hd2]. apply elem_of_cons in Hx as [->|Hx].
    + simpl. apply (Hd1 (k, d)). set_solver.
    + auto.
Qed.

Lemma pairs_unlink cmp hash L h l1 a e l2 k :
  good_cmp hash cmp -> adistinct cmp (pairs L) ->
  L !! h = Some (l1 ++ (a, e) :: l2) -> cmp (ekey e) k = 0%Z ->
  pairs (<[h := l1 ++ l2]> L) = aremove cmp k (pairs L).
Proof.
  intros G Hd Hl Hc. destruct (concat_split L h _ Hl) as (X & Y & E1 & E2).
  assert (P1 : pairs L = (epair <$> (X ++ l1).*2) ++ epair e :: (epair <$> (l2 ++ Y).*2)).
  { unfold pairs, ents. rewrite E1. rewrite !fmap_app. simpl. rewrite <- !app_assoc. simpl. done. }
  assert (P2 : pairs (<[h := l1 ++ l2]> L) = (epair <$> (X ++ l1).*2) ++ (epair <$> (l2 ++ Y).*2)).
  { unfold pairs, ents. rewrite E2. rewrite !fmap_app. rewrite <- !app_assoc. done. }
  rewrite P1 in Hd. rewrite P1, P2. unfold epair at 3 in Hd. unfold epair at 4.
  set (A := epair <$> (X ++ l1).*2) in *. set (B := epair <$> (l2 ++ Y).*2) in *.
  assert (Hno := adistinct_mid _ _ _ _ _ (gc_sym _ _ G) Hd).
  assert (Hno' : forall x, x ∈ A ++ B -> cmp x.1 k <> 0%Z).
  { intros x Hx E. apply (Hno x Hx). apply (gc_trans _ _ G _ k); [done|]. by apply (gc_sym _ _ G). }
  unfold aremove. rewrite filter_app, filter_cons_False by (simpl; rewrite Hc; done).
  rewrite <- filter_app. symmetry. by apply aremove_None.
Qed.

(** ** hsh_delete *)
Lemma hsh_delete_ro env s L k :
  hinv env s L -> readonly (tab s) <> 0%Z -> hsh_delete env s k = Abort.
Proof.
  intros HI Hr. unfold hsh_delete.
  rewrite (umod_ok _ _ (ti_prime _ _ _ _ (hi_t _ _ _ HI))). rb.
  rewrite (hsh_check_ok _ _ _ _ (hi_t _ _ _ HI)). rb.
  destruct (Z.eqb_spec (readonly (tab s)) 0); done.
Qed.

Lemma hsh_delete_spec env s L k :
  hinv env s L -> good env -> readonly (tab s) = 0%Z ->
  exists s' r L',
    hsh_delete env s k = Ret (s', r) /\ hinv env s' L' /\
    match afind (cmpf env) k (pairs L) with
    | Some _ => r = 0%Z /\ pairs L' = aremove (cmpf env) k (pairs L) /\
        exists h l1 a e l2, L !! h = Some (l1 ++ (a, e) :: l2) /\ cmpf env (ekey e) k = 0%Z /\
          L' = <[h := l1 ++ l2]> L
    | None => r = 1%Z /\ s' = s /\ L' = L
    end /\
    readonly (tab s') = 0%Z /\ retrievals (tab s') = retrievals (tab s) /\
    hits (tab s') = hits (tab s) /\ misses (tab s') = misses (tab s) /\
    prime (tab s') = prime (tab s) /\ resizings (tab s') = resizings (tab s).
Proof.
  intros HI G Hro. unfold hsh_delete. pose proof (hi_t _ _ _ HI) as HT.
  rewrite (umod_ok _ _ (ti_prime _ _ _ _ HT)). rb.
  rewrite (hsh_check_ok _ _ _ _ HT). rb. rewrite Hro. cbn [negb Z.eqb].
  set (h := N.to_nat (hashf env k mod prime (tab s))).
  destruct (row_of _ _ _ _ (hashf env k mod prime (tab s))%N HT) as (p & l & Hbp & HLl & Hrow & Hnd & Hlen).
  { apply N.mod_lt. pose proof (ti_prime _ _ _ _ HT). lia. }
  fold h in Hbp, HLl. rewrite (aget_Some _ _ _ Hbp). rb.
  destruct (find_loop_spec env (heap s) l (S (size (heap s))) None p k Hrow Hlen)
    as [[-> Hno]|(l1 & a & e & l2 & -> & Hno & Hc & ->)]; rb.
  - exists s, 1%Z, L. split; [done|]. split; [done|].
    rewrite (find_row_none _ _ _ _ _ HI G HLl Hno). done.
  - rewrite (find_row_some _ _ _ _ _ a e HI G HLl) by (done || set_solver).
    destruct (unlink _ _ _ _ _ _ Hrow Hnd) as (n & Ha & Hun).
    destruct (NoDup_mid _ _ _ _ Hnd) as (Hnd' & Ha1 & Ha2 & Hn1 & Hn2 & Hdis).
    rewrite (hget_Some _ _ _ Ha). rb. cbn [bnext mkB].
    destruct (row_nodup L h _ (ti_nodup _ _ _ _ HT) HLl) as [_ Hother].
    set (L' := <[h := l1 ++ l2]> L).
    assert (HpL : concat L ≡ₚ (a, e) :: concat L').
    { unfold L'. rewrite (concat_delete L h _ HLl), (concat_insert L h _ _ HLl).
      rewrite <- Permutation_middle. done. }
    assert (Hpairs : pairs L ≡ₚ epair e :: pairs L').
    { unfold pairs, ents. rewrite HpL. done. }
    (* the heap after the pointer update *)
    assert (Hfin : forall H1 t2, H1 !! a = Some (mkB e n) ->
        (forall b, b ∉ (l1 ++ (a, e) :: l2).*1 -> H1 !! b = heap s !! b) ->
        (forall b, is_Some (H1 !! b) <-> is_Some (heap s !! b)) ->
        (exists p', row H1 p' (l1 ++ l2) /\
          t2 = set_entries (set_buckets (tab s) (<[h := p']> (buckets (tab s)))) (u64_dec (entries (tab s)))) ->
        exists s' r L', (H2 ← hfree H1 a; Ret (MkH H2 t2, 0%Z)) = Ret (s', r) /\ hinv env s' L' /\
          (r = 0%Z /\ pairs L' = aremove (cmpf env) k (pairs L) /\
            exists h l1 a e l2, L !! h = Some (l1 ++ (a, e) :: l2) /\ cmpf env (ekey e) k = 0%Z /\
              L' = <[h := l1 ++ l2]> L) /\
          readonly (tab s') = 0%Z /\ retrievals (tab s') = retrievals (tab s) /\
          hits (tab s') = hits (tab s) /\ misses (tab s') = misses (tab s) /\
          prime (tab s') = prime (tab s) /\ resizings (tab s') = resizings (tab s)).
    { intros H1 t2 Ha' Hfr Hdom (p' & Hrow' & ->).
      rewrite (hfree_Some _ _ _ Ha'). rb.
      eexists _, _, L'. split; [reflexivity|]. split; [|split; [split; [done|]; split; [|by exists h, l1, a, e, l2]|done]].
      - assert (HT' : tinv (hashf env) (delete a H1)
           (set_buckets (tab s) (<[h := p']> (buckets (tab s)))) L').
        { eapply (tinv_row _ (heap s)); [done|done|done| |done| |].
          - apply (seg_frame H1); [done|]. intros b Hb. apply lookup_delete_ne. intros ->.
            rewrite fmap_app in Hb. set_solver.
          - intros x Hx. set_solver.
          - intros b Hb. assert (Hnb : b ∉ (l1 ++ (a, e) :: l2).*1).
            { intros Hb'. by apply (Hother b). }
            rewrite lookup_delete_ne; [by apply Hfr|]. intros ->. apply Hnb.
            rewrite fmap_app. simpl. set_solver. }
        constructor; cbn [heap tab].
        + destruct HT'. constructor; done.
        + intros b. destruct (decide (b = a)) as [->|Hne].
          * rewrite lookup_delete. split; [intros [? ?]; done|]. intros Hb.
            pose proof (ti_nodup _ _ _ _ HT) as Hn. unfold addrs in Hn. rewrite HpL in Hn.
            simpl in Hn. apply NoDup_cons in Hn as [Hn _]. done.
          * rewrite lookup_delete_ne by done. rewrite Hdom, (hi_own _ _ _ HI b).
            unfold addrs. rewrite HpL. simpl. rewrite elem_of_cons. tauto.
        + cbn [set_entries entries]. rewrite (hi_entries _ _ _ HI), Hpairs. cbn [length].
          rewrite Nat2N.inj_succ, <- N.add_1_r. apply u64_pred.
        + pose proof (adistinct_perm _ _ G _ _ Hpairs (hi_distinct _ _ _ HI)) as Hd.
          by apply adistinct_cons in Hd as [_ ?].
      - (* exactly the matching pair is filtered out, order kept *)
        eapply pairs_unlink; [apply G|apply HI|done|done]. }
    unfold last_ptr in *. destruct (last l1) as [[q qe]|] eqn:El.
    + destruct Hun as (b & Hq & Hqa & Hqin & Hrow'). cbn [fst] in *.
      rewrite (hget_Some _ _ _ Hq). rb. rewrite (hset_Some _ _ _ _ Hq). rb.
      apply Hfin.
      * rewrite lookup_insert_ne; done.
      * intros c Hcn. apply lookup_insert_ne. intros ->. apply Hcn. rewrite fmap_app. set_solver.
      * intros c. destruct (decide (c = q)) as [->|Hne].
        -- rewrite lookup_insert, Hq. split; eauto.
        -- by rewrite lookup_insert_ne.
      * exists p. split; [done|]. rewrite list_insert_id by done. by rewrite set_buckets_same.
    + destruct Hun as (-> & -> & Hrow').
      rewrite (aset_Some _ _ _ _ Hbp). rb.
      apply Hfin; [done|done|done|]. exists n. done.
Qed.
End HashOps.
