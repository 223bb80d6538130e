(** Proofs about the consistency check of skip lists. *)
From Verif Require Import Base StackModel StackProofs ObjModel ObjProofs MemProofs ListHist SkipModel SkipSpec SkipProofs SkipWorld SkipHist
  SkipCheckModel SkipCheckSpec.
Local Open Scope Z_scope.

Lemma fget_fw h a i q : fget h a i = Ret q -> fw h a i = Some q.
Proof.
  unfold fget, fw, hget. destruct (h !! a) as [e|]; [|done]. cbn [mbind res_bind]. unfold aget.
  destruct (forward e !! i) as [s|] eqn:E; [|done]. cbn [mbind res_bind]. destruct s; [|done]. intros [= ->].
  cbn. by rewrite E.
Qed.
Lemma fw_entry h a i q : fw h a i = Some q -> exists e, h !! a = Some e /\ forward e !! i = Some (Some q).
Proof.
  unfold fw. destruct (h !! a) as [e|] eqn:E; [|done]. cbn. destruct (forward e !! i) as [s|] eqn:Es; [|done].
  cbn. intros ->. eauto.
Qed.
Lemma entry_fw h a e i q : h !! a = Some e -> forward e !! i = Some (Some q) -> fw h a i = Some q.
Proof. intros H1 H2. unfold fw. rewrite H1. cbn. by rewrite H2. Qed.

(** ** The chain *)
Lemma chain_head h p L : chain h p L -> exists e, h !! p = Some e /\ forward e !! 0%nat = Some (Some (head L)).
Proof. destruct 1; eauto. Qed.
Lemma chain_live h p L a : chain h p L -> a ∈ p :: L -> is_Some (h !! a).
Proof.
  induction 1 as [p e H1 H2|p q e L H1 H2 H3 IH]; intros Ha.
  - apply elem_of_list_singleton in Ha as ->. eauto.
  - apply elem_of_cons in Ha as [-> | Ha]; eauto.
Qed.
Lemma chain_det h p L1 L2 : chain h p L1 -> chain h p L2 -> L1 = L2.
Proof.
  intros H. revert L2. induction H as [p e H1 H2|p q e L H1 H2 H3 IH]; intros L2 H.
  - inversion H as [? e' ? ?|? q' e' L' ? ? ?]; subst; [done|]. congruence.
  - inversion H as [? e' ? ?|? q' e' L' ? ? ?]; subst; [congruence|]. assert (q' = q) as -> by congruence. f_equal. by apply IH.
Qed.
Lemma chain_suffix h p L a : chain h p L -> a ∈ L -> exists L1 L2, L = L1 ++ a :: L2 /\ chain h a L2.
Proof.
  induction 1 as [p e H1 H2|p q e L H1 H2 H3 IH]; intros Ha; [by apply elem_of_nil in Ha|].
  apply elem_of_cons in Ha as [-> | Ha]; [exists [], L; done|].
  destruct (IH Ha) as (L1 & L2 & -> & H). exists (q :: L1), L2. done.
Qed.
Lemma chain_nodup h p L : chain h p L -> NoDup (p :: L).
Proof.
  induction 1 as [p e H1 H2|p q e L H1 H2 H3 IH]; [apply NoDup_singleton|].
  constructor; [|done]. intros Hp. assert (Hc : chain h p (q :: L)) by (by econstructor).
  destruct (chain_suffix _ _ _ p Hc Hp) as (L1 & L2 & E & H). pose proof (chain_det _ _ _ _ Hc H) as E2.
  rewrite E in E2. apply (f_equal length) in E2. rewrite app_length in E2. cbn in E2. lia.
Qed.
Lemma chain_bound h p L : chain h p L -> (S (length L) <= size h)%nat.
Proof.
  intros H. change (length (p :: L) <= size h)%nat. apply nodup_bound; [by eapply chain_nodup|].
  intros a. by eapply chain_live.
Qed.
Lemma links_chain h p L : links h 0 p L -> (forall x, x ∈ L -> is_Some (h !! ia x)) -> chain h p (ia <$> L).
Proof.
  revert p. induction L as [|x L IH]; intros p HL Hd; cbn [links] in HL.
  - apply fw_entry in HL as (e & H1 & H2). by econstructor.
  - destruct HL as [HL H]. apply fw_entry in HL as (e & H1 & H2). rewrite fmap_cons. econstructor; [done..|].
    apply IH; [done|]. intros y Hy. apply Hd. by right.
Qed.

Section S1.
Context {K : Type} (cmp : K -> K -> Z) (key : ptr -> K).
Global Instance in_order_dec h L : Decision (in_order cmp key h L).
Proof.
  induction L as [|a [|b L] IH].
  - left. intros i a b ea eb H. done.
  - left. intros i a' b ea eb H H'. destruct i; done.
  - destruct IH as [IH|IH].
    + destruct (h !! a) as [ea|] eqn:Ea; [destruct (h !! b) as [eb|] eqn:Eb|].
      * destruct (decide (cmp (key (edatum ea)) (key (edatum eb)) < 0)) as [Hc|Hc].
        -- left. intros [|i] a' b' ea' eb'; cbn.
           ++ intros [= <-] [= <-] H1 H2. congruence.
           ++ apply IH.
        -- right. intros H. apply Hc. by apply (H 0%nat a b).
      * left. intros [|i] a' b' ea' eb'; cbn; [|apply IH]. intros [= <-] [= <-] H1 H2. congruence.
      * left. intros [|i] a' b' ea' eb'; cbn; [|apply IH]. intros [= <-] [= <-] H1 H2. congruence.
    + right. intros H. apply IH. intros i a' b' ea' eb' H1 H2. by apply (H (S i)).
Qed.
Lemma in_order_cons h a b L ea eb : h !! a = Some ea -> h !! b = Some eb ->
  in_order cmp key h (a :: b :: L) <-> cmp (key (edatum ea)) (key (edatum eb)) < 0 /\ in_order cmp key h (b :: L).
Proof.
  intros Ha Hb. split.
  - intros H. split; [by apply (H 0%nat a b)|]. intros i a' b' ea' eb' H1 H2. by apply (H (S i)).
  - intros [Hc H] [|i] a' b' ea' eb'; cbn; [|apply H]. intros [= <-] [= <-] H1 H2. congruence.
Qed.

Lemma slots_ok f : forall n, (n <= length f)%nat -> (forall i, (i < n)%nat -> exists p, f !! i = Some (Some p)) ->
  exists s, slots f n = Ret s /\ length s = n /\ (forall i, (i < n)%nat -> f !! i = Some (s !! i)).
Proof.
  induction f as [|o f IH]; intros n Hn Hf.
  - cbn in Hn. destruct n; [|lia]. exists []. split; [done|]. split; [done|]. lia.
  - destruct n as [|n]; [exists []; split; [done|]; split; [done|]; lia|]. cbn [slots length] in *.
    destruct (Hf 0%nat ltac:(lia)) as [p Hp]. cbn in Hp. injection Hp as ->.
    destruct (IH n ltac:(lia)) as (s & E & Hl & Hs). { intros i Hi. apply (Hf (S i)). lia. }
    rewrite E. rb. exists (p :: s). split; [done|]. cbn [length]. split; [lia|].
    intros [|i] Hi; cbn; [done|]. apply Hs. lia.
Qed.

Definition line_ok (h : gmap positive entry) (a : positive) (line : positive * Z * ptr * option K * list ptr) : Prop :=
  exists e, h !! a = Some e /\ line.1.1.1.1 = a /\ line.1.1.2 = edatum e /\
    line.1.2 = match edatum e with None => None | Some _ => Some (key (edatum e)) end /\
    length line.2 = (length (forward e) - 1)%nat /\
    forall i q, line.2 !! i = Some q -> forward e !! i = Some (Some q).
Lemma dump_dbg_spec h (Hfl : filled h) p L : chain h p L -> forall fuel c, (S (length L) < fuel)%nat ->
  0 <= c -> c + Z.of_nat (length L) < 2 ^ 31 - 1 ->
  exists r, dump_loop_dbg key h fuel (Some p) c = Ret r /\
    Forall2 (line_ok h) (p :: L) r /\ forall i line, r !! i = Some line -> line.1.1.1.2 = c + Z.of_nat i.
Proof.
  induction 1 as [p e H1 H2|p q e L H1 H2 H3 IH]; intros [|fuel] c Hf Hc Hb; cbn [length] in *; try lia; cbn [dump_loop_dbg];
    rewrite (hget_Some _ _ _ H1); rb; rewrite sint_ok by lia; rb;
    destruct (Hfl p e H1) as [Hl Hs];
    (destruct (slots_ok (forward e) (length (forward e) - 1)) as (s & Es & Els & Hsl);
      [lia|intros i Hi; apply Hs; lia|]); rewrite Es; rb; rewrite (fget_ok _ _ _ _ (entry_fw _ _ _ _ _ H1 H2)); rb.
  - destruct fuel; [lia|]. cbn [dump_loop_dbg]. rb. eexists. split; [done|]. split.
    + constructor; [|constructor]. exists e. do 5 (split; [done|]). cbn. intros i q Hq. pose proof (lookup_lt_Some _ _ _ Hq) as Hi.
      rewrite (Hsl i) by lia. by rewrite Hq.
    + intros [|i] line; [|done]. cbn. intros [= <-]. cbn. lia.
  - destruct (IH fuel (c + 1)) as (r & E & Hr & Hnum); [lia..|]. rewrite E. rb. eexists. split; [done|]. split.
    + constructor; [|done]. exists e. do 5 (split; [done|]). cbn. intros i q' Hq. pose proof (lookup_lt_Some _ _ _ Hq) as Hi.
      rewrite (Hsl i) by lia. by rewrite Hq.
    + intros [|i] line; cbn; [intros [= <-]; cbn; lia|]. intros Hi. rewrite (Hnum i line Hi). lia.
Qed.

Lemma check_loop_spec (w : sworld K) l : (exists d, sl_dump_dbg w l = Ret d) -> forall L p fuel c, chain (sent w) p L -> 
  (S (length L) < fuel)%nat -> 0 <= c -> c + Z.of_nat (S (length L)) < 2 ^ 31 ->
  check_loop cmp key w l fuel (Some p) c =
    if decide (in_order cmp key (sent w) (p :: L)) then Ret (c + Z.of_nat (S (length L))) else Abort.
Proof.
  intros [d Hd]. induction L as [|q L IH]; intros p [|fuel] c HL Hf Hc Hb; cbn [length] in *; try lia; cbn [check_loop];
    rewrite sint_ok by lia; rb; destruct (chain_head _ _ _ HL) as (e & H1 & H2); cbn in H2;
    rewrite (fget_ok _ _ _ _ (entry_fw _ _ _ _ _ H1 H2)); rb.
  - destruct fuel; [lia|]. cbn [check_loop]. rewrite decide_True; [by f_equal; lia|].
    intros [|i] a b ea eb ? Hx; done.
  - inversion HL as [|? ? e' ? ? ? HL']; subst. destruct (chain_head _ _ _ HL') as (eq & H3 & _).
    rewrite (hget_Some _ _ _ H1), (hget_Some _ _ _ H3). rb.
    pose proof (in_order_cons (sent w) p q L e eq H1 H3) as Hio.
    destruct (Z.leb_spec 0 (cmp (key (edatum e)) (key (edatum eq)))) as [Hle|Hlt].
    + rewrite Hd. rb. rewrite decide_False; [done|]. rewrite Hio. lia.
    + rb. rewrite IH by (done || lia). destruct (decide (in_order cmp key (sent w) (q :: L))) as [Hq|Hq].
      * rewrite decide_True by (rewrite Hio; done). f_equal. lia.
      * rewrite decide_False; [done|]. rewrite Hio. tauto.
Qed.

Lemma check_loop_inv (w : sworld K) l : forall fuel p c n, check_loop cmp key w l fuel (Some p) c = Ret n ->
  exists L, chain (sent w) p L /\ n = c + Z.of_nat (S (length L)) /\ in_order cmp key (sent w) (p :: L).
Proof.
  induction fuel as [|fuel IH]; intros p c n; cbn [check_loop]; [done|].
  destruct (sint (c + 1)) as [c'| | | |] eqn:Ec; try done. cbn [mbind res_bind].
  assert (c' = c + 1) as -> by (unfold sint in Ec; destruct (int_range (c + 1)); congruence).
  destruct (fget (sent w) p 0) as [q| | | |] eqn:Eq; try done. cbn [mbind res_bind].
  apply fget_fw, fw_entry in Eq as (e & H1 & H2). destruct q as [q|].
  - rewrite (hget_Some _ _ _ H1). cbn [mbind res_bind]. destruct (hget (sent w) q) as [eq| | | |] eqn:H3; try done.
    cbn [mbind res_bind]. assert (sent w !! q = Some eq) as H3' by (unfold hget in H3; destruct (sent w !! q); congruence).
    destruct (Z.leb_spec 0 (cmp (key (edatum e)) (key (edatum eq)))) as [Hle|Hlt].
    + destruct (sl_dump_dbg w l); done.
    + cbn [mbind res_bind]. intros (L & HL & -> & Ho)%IH. exists (q :: L). split; [by econstructor|].
      cbn [length]. split; [lia|]. by apply (in_order_cons _ _ _ _ e eq).
  - cbn [mbind res_bind]. destruct fuel; [done|]. cbn [check_loop]. intros [= <-]. exists []. split; [by econstructor|].
    cbn [length]. split; [lia|]. intros [|i] a b ea eb ? Hx; done.
Qed.
End S1.

Section S2.
Context {K : Type}.
Implicit Types (w : sworld K).

Lemma in_order_nil (cmp : K -> K -> Z) (key : ptr -> K) h : in_order cmp key h [].
Proof. intros i a b ea eb H. done. Qed.

Lemma dump_dbg_ok w l x L : filled (sent w) -> oblk (sobj w) !! l = Some x -> chain (sent w) (shead x) L ->
  Z.of_nat (length L) < 2 ^ 31 - 1 ->
  exists lines, sl_dump_dbg w (Some l) = Ret (slevel x, scount x, lines) /\
    Forall2 (line_ok (skey x) (sent w)) (shead x :: L) lines /\ forall i line, lines !! i = Some line -> line.1.1.1.2 = Z.of_nat i.
Proof.
  intros Hfl Hx HL Hb. unfold sl_dump_dbg, slget. rewrite (hget_Some _ _ _ Hx). rb.
  pose proof (chain_bound _ _ _ HL).
  destruct (dump_dbg_spec (scmp x) (skey x) (sent w) Hfl (shead x) L HL (entry_fuel (sent w)) 0) as (r & E & Hr & Hnum);
    [unfold entry_fuel; lia|lia|lia|]. rewrite E. rb. exists r. split; [done|]. split; [done|]. intros i line Hi. by rewrite (Hnum i line Hi).
Qed.

Lemma check_exact w l x L : filled (sent w) -> oblk (sobj w) !! l = Some x -> chain (sent w) (shead x) L ->
  Z.of_nat (length L) < 2 ^ 31 - 1 ->
  sl_check w (Some l) = if decide (in_order (scmp x) (skey x) (sent w) L /\ scount x = Z.of_nat (length L)) then Ret tt else Abort.
Proof.
  intros Hfl Hx HL Hb. destruct (dump_dbg_ok w l x L Hfl Hx HL Hb) as (ls & Hd & _).
  unfold sl_check, slget. rewrite (hget_Some _ _ _ Hx). rb.
  destruct (chain_head _ _ _ HL) as (e & H1 & H2). rewrite (fget_ok _ _ _ _ (entry_fw _ _ _ _ _ H1 H2)). rb.
  pose proof (chain_bound _ _ _ HL) as Hsz. destruct L as [|q L]; cbn [head] in *.
  - unfold entry_fuel. cbn [check_loop]. rb. cbn [length].
    destruct (Z.eqb_spec 0 (scount x)); [rewrite decide_True; [done|]|rewrite decide_False; [done|]].
    + split; [apply in_order_nil|]. lia.
    + intros [_ ?]. lia.
  - inversion HL as [|? ? e' ? ? ? HL']; subst. cbn [length] in *.
    rewrite (check_loop_spec (scmp x) (skey x) w (Some l) ltac:(eauto) L q _ 0 HL') by (unfold entry_fuel; lia).
    destruct (decide (in_order (scmp x) (skey x) (sent w) (q :: L))) as [Ho|Ho]; rb.
    + destruct (Z.eqb_spec (0 + Z.of_nat (S (length L))) (scount x)); [rewrite decide_True; [done|]|rewrite decide_False; [done|]].
      * split; [done|]. lia.
      * intros [_ ?]. lia.
    + rewrite decide_False; [done|]. tauto.
Qed.

Lemma check_sound w l : sl_check w (Some l) = Ret tt -> exists x L, oblk (sobj w) !! l = Some x /\
  chain (sent w) (shead x) L /\ in_order (scmp x) (skey x) (sent w) L /\ scount x = Z.of_nat (length L).
Proof.
  unfold sl_check, slget, hget. destruct (oblk (sobj w) !! l) as [x|]; [|done]. cbn [mbind res_bind].
  destruct (fget (sent w) (shead x) 0) as [q| | | |] eqn:Eq; try done. cbn [mbind res_bind].
  apply fget_fw, fw_entry in Eq as (e & H1 & H2).
  destruct (check_loop (scmp x) (skey x) w (Some l) (entry_fuel (sent w)) q 0) as [n| | | |] eqn:E; try done.
  cbn [mbind res_bind]. destruct (Z.eqb_spec n (scount x)) as [En|]; [|done]. intros _. exists x. destruct q as [q|].
  - apply check_loop_inv in E as (L & HL & Hn & Ho). exists (q :: L). split; [done|]. split; [by econstructor|]. split; [done|].
    cbn [length]. lia.
  - unfold entry_fuel in E. cbn [check_loop] in E. injection E as E. exists []. split; [done|]. split; [by econstructor|].
    split; [apply in_order_nil|]. cbn [length]. lia.
Qed.
End S2.

(** ** Every slot of every entry is written *)
Local Ltac ib H x E :=
  match type of H with mbind ?f ?m = Ret _ => destruct m as [x| | | |] eqn:E; cbn [mbind res_bind] in H; try discriminate H end.
Definition efull (e : entry) (n : nat) : Prop := forall i, (i < n)%nat -> exists p, forward e !! i = Some (Some p).
Definition efilled (e : entry) : Prop := (2 <= length (forward e))%nat /\ forall i, (S i < length (forward e))%nat -> exists p, forward e !! i = Some (Some p).

Lemma fset_inv h a i q h' : fset h a i q = Ret h' -> exists e, h !! a = Some e /\ (i < length (forward e))%nat /\
  h' = <[a := Entry (edatum e) (<[i := Some q]> (forward e))]> h.
Proof.
  unfold fset, hget. destruct (h !! a) as [e|] eqn:E; [|done]. cbn [mbind res_bind]. unfold aset.
  destruct (forward e !! i) as [s|] eqn:Es; [|done]. cbn [mbind res_bind]. unfold hset. rewrite E. intros [= <-].
  exists e. split; [done|]. split; [by eapply lookup_lt_Some|done].
Qed.
(** the entry [a] of length [n] whose first [m] slots are written; the others are complete *)
Definition partial_at (a : positive) (n m : nat) (h : gmap positive entry) : Prop :=
  (forall b e, b <> a -> h !! b = Some e -> efilled e) /\
  exists e, h !! a = Some e /\ length (forward e) = n /\ efull e m.

Lemma put_full f i (q : ptr) m : (forall j, (j < m)%nat -> exists p, f !! j = Some (Some p)) ->
  forall j : nat, (j < m)%nat -> exists p, (<[i := Some q]> f : list (option ptr)) !! j = Some (Some p).
Proof.
  intros H j Hj. destruct (decide (i = j)) as [-> | Hne].
  - destruct (H j Hj) as [p Hp]. exists q. apply list_lookup_insert. by eapply lookup_lt_Some.
  - rewrite list_lookup_insert_ne by done. by apply H.
Qed.
Lemma fset_partial h b i q h' a n m : partial_at a n m h -> fset h b i q = Ret h' -> partial_at a n m h'.
Proof.
  intros [Ho (e & He & Hl & Hf)] (e0 & H0 & Hi & ->)%fset_inv. split.
  - intros c ec Hc. destruct (decide (c = b)) as [-> | Hcb].
    + rewrite lookup_insert. intros [= <-]. destruct (Ho b e0 Hc H0) as [H1 H2]. split; cbn; rewrite insert_length; [done|].
      intros j Hj. apply (put_full _ i q (length (forward e0) - 1)); [intros k Hk; apply H2; lia|lia].
    + rewrite lookup_insert_ne by done. by apply Ho.
  - destruct (decide (a = b)) as [-> | Hab].
    + rewrite lookup_insert. assert (e0 = e) as -> by congruence. eexists. split; [done|]. cbn. rewrite insert_length.
      split; [done|]. intros j Hj. by apply (put_full _ i q m).
    + rewrite lookup_insert_ne by done. eauto.
Qed.
Lemma fset_grow h q h' a n m : partial_at a n m h -> fset h a m q = Ret h' -> partial_at a n (S m) h'.
Proof.
  intros J E. pose proof (fset_partial _ _ _ _ _ _ _ _ J E) as [Ho (e' & He' & Hl' & Hf')]. split; [done|].
  exists e'. split; [done|]. split; [done|]. destruct J as [_ (e & He & Hl & Hf)].
  apply fset_inv in E as (e0 & H0 & Hi & ->). rewrite lookup_insert in He'. injection He' as <-.
  intros j Hj. destruct (decide (j = m)) as [-> | Hne]; [|apply Hf'; lia].
  exists q. cbn. by apply list_lookup_insert.
Qed.
Lemma partial_done h a n m : partial_at a n m h -> (2 <= n)%nat -> (n <= S m)%nat -> filled h.
Proof.
  intros [Ho (e & He & Hl & Hf)] H2 Hn b eb Hb. destruct (decide (b = a)) as [-> | Hne]; [|by apply (Ho b)].
  assert (eb = e) as -> by congruence. split; [lia|]. intros i Hi. apply Hf. lia.
Qed.
Lemma partial_new h a d n : filled h -> h !! a = None -> partial_at a n 0 (<[a := Entry d (replicate n None)]> h).
Proof.
  intros Hf Ha. split.
  - intros b e Hb. rewrite lookup_insert_ne by done. apply Hf.
  - rewrite lookup_insert. eexists. split; [done|]. cbn. rewrite replicate_length. split; [done|]. intros i Hi. lia.
Qed.
Lemma for_up_grow body a n : (forall i h h', body i h = Ret h' -> partial_at a n i h -> partial_at a n (S i) h') ->
  forall k i h h', for_up k i body h = Ret h' -> partial_at a n i h -> partial_at a n (i + k) h'.
Proof.
  intros Hb. induction k as [|k IH]; intros i h h'; cbn [for_up].
  - intros [= <-]. by rewrite Nat.add_0_r.
  - intros E J. ib E h1 E1. apply IH in E; [|by eapply Hb]. by replace (i + S k)%nat with (S i + k)%nat by lia.
Qed.
Lemma for_up_keep {T} (body : nat -> T -> res T) (Q : T -> Prop) : (forall i h h', body i h = Ret h' -> Q h -> Q h') ->
  forall k i h h', for_up k i body h = Ret h' -> Q h -> Q h'.
Proof.
  intros Hb. induction k as [|k IH]; intros i h h'; cbn [for_up].
  - by intros [= <-].
  - intros E J. ib E h1 E1. apply IH in E; [done|by eapply Hb].
Qed.
Lemma fset_filled h b i q h' : filled h -> fset h b i q = Ret h' -> filled h'.
Proof.
  intros Hf (e0 & H0 & Hi & ->)%fset_inv. intros c ec. destruct (decide (c = b)) as [-> | Hcb].
  - rewrite lookup_insert. intros [= <-]. destruct (Hf b e0 H0) as [H1 H2]. cbn; rewrite insert_length. split; [done|].
    intros j Hj. apply (put_full _ i q (length (forward e0) - 1)); [intros k Hk; apply H2; lia|lia].
  - rewrite lookup_insert_ne by done. apply Hf.
Qed.
Lemma filled_sub h h' : filled h -> (forall a e, h' !! a = Some e -> h !! a = Some e) -> filled h'.
Proof. intros Hf Hs a e H. by apply (Hf a), Hs. Qed.
Lemma hfree_sub {A} (h : gmap positive A) a h' : hfree h a = Ret h' -> forall b e, h' !! b = Some e -> h !! b = Some e.
Proof. unfold hfree. destruct (h !! a); [|done]. intros [= <-] b e. rewrite lookup_delete_Some. tauto. Qed.
Lemma free_entries_sub fuel : forall h e h', free_entries fuel h e = Ret h' -> forall b x, h' !! b = Some x -> h !! b = Some x.
Proof.
  induction fuel as [|fuel IH]; intros h e h'; cbn [free_entries]; [done|]. destruct e as [a|]; [|by intros [= ->]].
  intros E. ib E p E1. ib E h1 E2. intros b x Hb. eapply hfree_sub; [exact E2|]. by eapply IH.
Qed.

Section S3.
Context {K : Type}.
Implicit Types (w : sworld K).
Lemma create_filled al w cmp key w' l : malloc_ok (sa_entry al) -> filled (sent w) ->
  sl_create al w cmp key = Ret (w', l) -> filled (sent w').
Proof.
  intros Hal Hf E. unfold sl_create in E. ib E o1 E1. destruct o1 as [o m]. destruct cmp as [cmp|]; [|done].
  destruct key as [key|]; [|done]. ib E o2 E2. destruct o2 as [o1 l0]. ib E h1 E3. destruct h1 as [h e].
  ib E o3 E4. ib E h' E5. injection E as <- <-. cbn [sent].
  unfold sl_create_entry in E3. destruct (MaxLevel <? MaxLevel)%nat; [done|].
  destruct (sa_entry al (sent w)) as [a|] eqn:Ea; [|done]. injection E3 as <- <-. apply Hal in Ea.
  eapply partial_done.
  - eapply (for_up_grow _ a (MaxLevel + 2)); [|exact E5|by apply partial_new].
    intros i h2 h3 Hs J. cbv beta in Hs. eapply fset_grow; [exact J|exact Hs].
  - lia.
  - unfold MaxLevel. lia.
Qed.
Lemma insert_filled al rnd w l d w' : malloc_ok (sa_entry al) -> filled (sent w) ->
  sl_insert al rnd w l d = Ret w' -> filled (sent w').
Proof.
  intros Hal Hf E. unfold sl_insert in E. ib E x1 E1. destruct x1 as [a x]. ib E x2 E2. destruct x2 as [pt u].
  ib E dup E3. destruct dup; [done|]. ib E x4 E4. destruct x4 as [[level slev] u']. ib E x5 E5. destruct x5 as [h e].
  ib E h' E6. ib E c E7. ib E o E8. injection E as <-. cbn [sent].
  unfold sl_create_entry in E5. destruct (MaxLevel <? level)%nat; [done|].
  destruct (sa_entry al (sent w)) as [b|] eqn:Ea; [|done]. injection E5 as <- <-. apply Hal in Ea.
  eapply partial_done.
  - eapply (for_up_grow _ b (level + 2)); [|exact E6|by apply partial_new].
    intros i h2 h3 Hs J. unfold splice_in in Hs. ib Hs p Hp. ib Hs n Hn. ib Hs h4 Hh4.
    eapply fset_partial; [|exact Hs]. by eapply fset_grow.
  - lia.
  - lia.
Qed.
Lemma delete_filled w l d w' : filled (sent w) -> sl_delete w l d = Ret w' -> filled (sent w').
Proof.
  intros Hf E. unfold sl_delete in E. ib E x1 E1. destruct x1 as [a x]. ib E x2 E2. destruct x2 as [pt u].
  ib E here E3. destruct here; [|ib E dd Ed; done]. destruct pt as [pt|]; [|ib E dd Ed; done].
  ib E h1 E4. ib E h2 E5. ib E lev E6. ib E c E7. ib E o E8. injection E as <-. cbn [sent].
  eapply filled_sub; [|by eapply hfree_sub].
  eapply (for_up_keep (splice_out u pt) filled); [|exact E4|done].
  intros i h h' Hs J. unfold splice_out in Hs. ib Hs p Hp. ib Hs n Hn. destruct (decide (n = Some pt)); [|by injection Hs as <-].
  ib Hs q Hq. by eapply fset_filled.
Qed.
Lemma destroy_filled al w l w' : filled (sent w) -> sl_destroy al w l = Ret w' -> filled (sent w').
Proof.
  intros Hf E. unfold sl_destroy in E. ib E x1 E1. destruct x1 as [a x]. ib E h E2. destruct (smem w); [|done].
  ib E o E3. injection E as <-. cbn [sent]. eapply filled_sub; [exact Hf|]. by eapply free_entries_sub.
Qed.
Lemma shutdown_filled w w' : filled (sent w) -> sl_shutdown w = Ret w' -> filled (sent w').
Proof.
  intros Hf E. unfold sl_shutdown in E. destruct (smem w); [|by injection E as <-]. ib E o E1. by injection E as <-.
Qed.
Lemma history_filled w G n : sl_history w G n -> filled (sent w).
Proof.
  induction 1 as [|al w G n cmp key w' l _ IH Hal Hn Ho Hnn E|al rnd w G n l g d w' _ IH Hal Hl Hab Hlen E
    |w G n l g d x w' _ IH Hl Hp E|al w G n l g w' _ IH Hal Hn Hl E|w n w' _ IH E].
  - intros a e. unfold sempty_world. cbn [sent]. rewrite lookup_empty. done.
  - eapply create_filled; [apply Hal|done|done].
  - eapply insert_filled; [apply Hal|done|done].
  - by eapply delete_filled.
  - by eapply destroy_filled.
  - by eapply shutdown_filled.
Qed.

(** ** Histories *)
Lemma history_chain w G n l g : sl_history w G n -> G !! l = Some g -> exists x L,
  oblk (sobj w) !! l = Some x /\ chain (sent w) (shead x) L /\ scmp x = g_cmp g /\ skey x = g_key g /\
  scount x = Z.of_nat (length L) /\ Z.of_nat (length L) < 2 ^ 31 - 1 /\
  Forall2 (fun a d => edatum <$> sent w !! a = Some d) L (g_data g) /\ ascending g.
Proof.
  intros h Hl. destruct (sl_history_inv _ _ _ h) as [I S]. pose proof (S _ _ Hl) as Hlen.
  destruct (lift_inv _ _ _ _ _ I Hl) as (R & P & M & r & J & HR & ->). cbn [absr g_data] in Hlen. rewrite fmap_length in Hlen.
  pose proof (sv_rep _ _ _ _ _ _ J l r HR) as Hr. pose proof (rp_links _ _ _ _ Hr 0%nat ltac:(lia)) as HL. rewrite at_level_0 in HL.
  exists (hdr_of r), (ia <$> r_items r). split; [by apply (sv_hdr _ _ _ _ _ _ J)|]. cbn [hdr_of shead scmp skey scount absr g_cmp g_key g_data].
  split. { apply links_chain; [done|]. intros x Hx. eapply rep_live; [exact Hr|]. right. by apply elem_of_list_fmap_1. }
  do 2 (split; [done|]). rewrite fmap_length. do 2 (split; [done|]). split.
  - rewrite Forall2_fmap. apply Forall_Forall2_diag, Forall_forall. intros x Hx.
    by apply (rp_dat _ _ _ _ Hr).
  - by destruct (sv_ord _ _ _ _ _ _ J l r HR).
Qed.
Lemma history_check w G n l g : sl_history w G n -> G !! l = Some g -> sl_check w (Some l) = Ret tt.
Proof.
  intros h Hl. destruct (history_chain w G n l g h Hl) as (x & L & Hx & HL & Ec & Ek & Hc & Hb & HF & Ha).
  rewrite (check_exact w l x L) by (done || by eapply history_filled). rewrite decide_True; [done|]. split; [|done].
  intros i a b ea eb Hia Hib Hea Heb. rewrite Ec, Ek. unfold ascending in Ha.
  destruct (Forall2_lookup_l _ _ _ _ _ HF Hia) as (da & Hda & Hea2). destruct (Forall2_lookup_l _ _ _ _ _ HF Hib) as (db & Hdb & Heb2).
  cbv beta in Hea2, Heb2. rewrite Hea in Hea2. rewrite Heb in Heb2. cbn in Hea2, Heb2. injection Hea2 as <-. injection Heb2 as <-.
  clear -Ha Hda Hdb. revert i Hda Hdb. induction Ha as [|y M HS IH HF]; intros i; [done|]. destruct i as [|i]; cbn.
  - intros [= ->] Hb. rewrite Forall_forall in HF. apply HF. by eapply elem_of_list_lookup_2.
  - apply IH.
Qed.
Lemma history_dump w G n l g : sl_history w G n -> G !! l = Some g -> exists level head lines,
  sl_dump_dbg w (Some l) = Ret (level, Z.of_nat (length (g_data g)), head :: lines) /\
  length lines = length (g_data g) /\
  forall i d a num d' k ptrs, g_data g !! i = Some d -> lines !! i = Some (a, num, d', k, ptrs) ->
    num = Z.of_nat i + 1 /\ d' = d /\ k = match d with None => None | Some _ => Some (g_key g d) end /\
    exists e, sent w !! a = Some e /\ edatum e = d /\ length ptrs = (length (forward e) - 1)%nat /\
      forall j q, ptrs !! j = Some q -> forward e !! j = Some (Some q).
Proof.
  intros h Hl. destruct (history_chain w G n l g h Hl) as (x & L & Hx & HL & Ec & Ek & Hc & Hb & HF & Ha).
  destruct (dump_dbg_ok w l x L) as (ls & E & HF2 & Hnum); [by eapply history_filled|done..|].
  apply Forall2_cons_inv_l in HF2 as (hd & ls' & _ & HF2 & ->). exists (slevel x), hd, ls'. split; [|split].
  - rewrite E, Hc. by rewrite (Forall2_length _ _ _ HF).
  - by rewrite <- (Forall2_length _ _ _ HF), (Forall2_length _ _ _ HF2).
  - intros i d a num d' k ptrs Hd Hline. destruct (Forall2_lookup_r _ _ _ _ _ HF Hd) as (a' & Hia & Hda).
    destruct (Forall2_lookup_l _ _ _ _ _ HF2 Hia) as (line' & Hli & e & He & E1 & E2 & E3 & E4 & E5).
    rewrite Hline in Hli. injection Hli as <-. cbn in E1, E2, E3, E4, E5. subst a' d'. rewrite He in Hda. cbn in Hda. injection Hda as Hda.
    specialize (Hnum (S i) _ Hline). cbn in Hnum. rewrite Hda, Ek in E3. split; [lia|]. split; [done|]. split; [done|].
    exists e. done.
Qed.
End S3.
