(** Histories of skip list calls with their output, and what they keep. *)
From Verif Require Import Base StackModel ObjModel SkipModel SkipSpec SkipProofs SkipWorld SkipHist SkipProps
  SkipMagicModel SkipMagicHist SkipMagicProps SkipCheckSpec SkipCheckProofs SkipMsgHead LogModel LogSpec LogProofs LogHist LogProps SkipMsgModel SkipMsgSpec.
From Coq Require Import String.
Notation length := List.length.
Local Open Scope Z_scope.

Section Hist.
Context {K : Type} (T : fmt K).
Implicit Types (W : pworld K) (G : gmap positive (glist K)) (D : gset positive) (Q : gmap positive (option (ptr -> list N))).

(** the calls that returned, each in any state of the output and the log: [G] and [D] as in
    C102, [Q] the print functions of the live lists *)
Inductive psl_history : pworld K -> gmap positive (glist K) -> nat -> gset positive -> gmap positive (option (ptr -> list N)) -> Prop :=
| ph_init : psl_history pempty ∅ 0 ∅ ∅
| ph_create o lw lw' al W G n D Q cmp key print W' l : psl_history W G n D Q -> sal_ok al -> snodes_ok al -> order cmp ->
    Z.of_nat n < 2 ^ 31 - 1 -> psl_create o al W (Some cmp) (Some key) print lw = Ret (lw', Go (W', l)) ->
    psl_history W' (<[l := GL cmp key []]> G) (n + 1) (D ∖ {[l]}) (<[l := print]> Q)
| ph_insert o lw lw' al rnd W G n D Q l g d W' : psl_history W G n D Q -> sal_ok al -> G !! l = Some g ->
    absent g (g_key g d) -> Z.of_nat (length (g_data g)) < 2 ^ 31 - 2 ->
    psl_insert o T al rnd W (Some l) d lw = Ret (lw', Go W') -> psl_history W' (<[l := g_insert d g]> G) n D Q
| ph_delete o lw lw' W G n D Q l g d x W' : psl_history W G n D Q -> G !! l = Some g -> present g (g_key g d) x ->
    psl_delete o T W (Some l) d lw = Ret (lw', Go W') -> psl_history W' (<[l := g_delete d g]> G) n D Q
| ph_destroy o lw lw' al W G n D Q l g W' : psl_history W G n D Q -> sal_ok al -> snodes_ok al -> G !! l = Some g ->
    psl_destroy o al W (Some l) lw = Ret (lw', Go W') -> psl_history W' (delete l G) n ({[l]} ∪ D) (delete l Q)
| ph_shutdown lw lw' W n D Q W' : psl_history W ∅ n D Q -> psl_shutdown W lw = Ret (lw', Go W') -> psl_history W' ∅ 0 ∅ ∅.

Record pinv W G n D Q : Prop := {
  pi_base : msl_history (pbase W) G n D;
  pi_print : forall l, is_Some (G !! l) -> exists p, Q !! l = Some p /\ pprint W !! l = Some p }.

Lemma lift_go {A} (r : res A) lw lw' a : lift r lw = Ret (lw', Go a) -> r = Ret a /\ lw' = lw.
Proof. unfold lift. destruct r; cbn [mbind res_bind]; try done. by intros [= <- <-]. Qed.
Lemma lift_ok {A} (r : res A) lw a : r = Ret a -> lift r lw = Ret (lw, Go a).
Proof. by intros ->. Qed.
Lemma bind_lift {A B} (r : res A) (f : A -> M B) lw a : r = Ret a -> bind (lift r) f lw = f a lw.
Proof. by intros ->. Qed.
Lemma bind_inv {A B} (m : M A) (f : A -> M B) lw lw' b : bind m f lw = Ret (lw', Go b) ->
  exists a lw1, m lw = Ret (lw1, Go a) /\ f a lw1 = Ret (lw', Go b).
Proof. unfold bind. destruct (m lw) as [[lw1 [a|x|]]| | | |]; cbn [mbind res_bind]; try done. intros H. by exists a, lw1. Qed.
Lemma ret_inv {A} (a b : A) lw lw' : ret a lw = Ret (lw', Go b) -> a = b /\ lw' = lw.
Proof. by intros [= <- <-]. Qed.
Lemma internal_not_go {A} o r msg lw lw' (a : A) : err_internal o r msg lw <> Ret (lw', Go a).
Proof. apply C48_never_return. Qed.

Section pc.
Context (o : os) W G n D Q (I : pinv W G n D Q).
Lemma minv_p : minv (pbase W) G n D.
Proof. apply msl_history_inv, I. Qed.
Lemma pcheck_live l fn lw : is_Some (G !! l) -> pcheck o W (Some l) fn lw = Ret (lw, Go l).
Proof.
  intros Hl. unfold pcheck. rewrite (bind_lift _ _ _ _ (hget_Some _ _ _ (mi_live _ _ _ _ minv_p l Hl))). by rewrite N.eqb_refl.
Qed.
Lemma pcheck_dead l fn lw : l ∈ D ->
  pcheck o W (Some l) fn lw = err_internal o (Some fn) (bytes "Bad magic: 0xbadcfe10 (should be 0xabcdef01)") lw.
Proof.
  intros Hl. unfold pcheck. rewrite (bind_lift _ _ _ _ (hget_Some _ _ _ (mi_dead _ _ _ _ minv_p l Hl))). reflexivity.
Qed.
Lemma print_datum_ok l d p : is_Some (G !! l) -> Q !! l = Some p -> print_datum T W l d = Ret (shown T p d).
Proof.
  intros Hl Hq. destruct (pi_print _ _ _ _ _ I l Hl) as (p' & H1 & H2). rewrite Hq in H1. injection H1 as <-.
  unfold print_datum. rewrite (hget_Some _ _ _ H2). by destruct p.
Qed.
End pc.

(** the search of both calls *)
Lemma looks_spec W G n l g d : sl_history (mbase (pbase W)) G n -> G !! l = Some g ->
  (forall x, present g (g_key g d) x -> looks W (Some l) d = Ret true) /\ (absent g (g_key g d) -> looks W (Some l) d = Ret false).
Proof.
  intros h Hl. destruct (sl_history_inv _ _ _ h) as [I S]. destruct (lift_inv _ _ _ _ _ I Hl) as (R & P & M & r & J & HR & ->).
  destruct (where_is _ _ _ _ _ _ J l r HR (r_key r d)) as (A & B & u & E & HA & HB & Hhd & EL & _ & _ & EA).
  assert (Hk : looks W (Some l) d = Ret (match B with [] => false | x :: _ => r_cmp r (r_key r (idt x)) (r_key r d) =? 0 end)).
  { unfold looks. rewrite (sv_get _ _ _ _ _ _ _ _ J HR). rb. cbn [hdr_of skey]. fold (hdr_of r). rewrite EL. rb. exact EA. }
  rewrite Hk. unfold present, absent. cbn [absr g_data g_cmp g_key]. rewrite E. split.
  - intros x [(y & Hy & ->)%in_data Hd]. f_equal. apply elem_of_app in Hy as [Hy|Hy].
    + specialize (HA y Hy). unfold below in HA. lia.
    + destruct B as [|z B']; [by apply elem_of_nil in Hy|]. apply elem_of_cons in Hy as [-> | Hy]; [lia|].
      specialize (Hhd z B' eq_refl y Hy). lia.
  - intros Hab. f_equal. destruct B as [|y B']; [done|]. specialize (Hab (idt y)).
    specialize (Hab ltac:(apply elem_of_list_fmap_1, elem_of_app; right; left)). lia.
Qed.

(** the dump *)
Lemma dump_chain key h p L : chain h p L -> forall (Ld : list ptr) fuel c,
  Forall2 (fun a d => edatum <$> h !! a = Some d) L Ld -> (S (length L) < fuel)%nat ->
  0 <= c -> c + Z.of_nat (length L) < 2 ^ 31 - 1 ->
  exists (d0 : ptr) (k0 : option K), dump_loop key h fuel (Some p) c = Ret ((p, c, d0, k0) ::
    imap (fun i '(a, d) => (a, c + Z.of_nat i + 1, d, match d with None => None | Some _ => Some (key d) end)) (zip L Ld)) /\
    forall e, h !! p = Some e -> d0 = edatum e /\ k0 = match edatum e with None => None | Some _ => Some (key (edatum e)) end.
Proof.
  induction 1 as [p e H1 H2|p q e L H1 H2 H3 IH]; intros Ld [|fuel] c HF Hf Hc Hb; cbn [length] in *; try lia; cbn [dump_loop];
    rewrite (hget_Some _ _ _ H1); rb; unfold sint; replace (int_range (c + 1)) with true by (unfold int_range, INT_MIN, INT_MAX; lia);
    rb; rewrite (fget_ok _ _ _ _ (entry_fw _ _ _ _ _ H1 H2)); rb.
  - destruct fuel; [lia|]. cbn [dump_loop]. rb. apply Forall2_nil_inv_l in HF as ->. eexists _, _. split; [done|].
    intros e' He. rewrite H1 in He. injection He as <-. done.
  - apply Forall2_cons_inv_l in HF as (d & Ld' & Hd & HF & ->). cbv beta in Hd.
    destruct (IH Ld' fuel (c + 1)) as (d0 & k0 & E & Hhd); [done|lia..|]. rewrite E. rb. eexists _, _. split.
    + f_equal. f_equal. cbn [zip zip_with imap]. f_equal.
      * destruct (h !! q) as [eq|] eqn:Hq; [|done]. destruct (Hhd eq eq_refl) as [-> ->]. cbn in Hd. injection Hd as ->.
        f_equal. f_equal. f_equal. lia.
      * apply imap_ext. intros i [a x] _. cbn. f_equal. f_equal. f_equal. lia.
    + intros e' He. rewrite H1 in He. injection He as <-. done.
Qed.
Lemma dump_spec w G n l g : sl_history w G n -> G !! l = Some g ->
  exists level lines, sl_dump w (Some l) = Ret (level, Z.of_nat (length (g_data g)), lines) /\ (level <= 16)%nat /\ dump_lines g lines.
Proof.
  intros h Hl. destruct (C34_level_and_dump _ _ _ _ _ _ h Hl) as (level & lines & E & Hlev & _).
  destruct (history_chain w G n l g h Hl) as (x & L & Hx & HL & Ec & Ek & Hc & Hb & HF & _).
  exists level, lines. split; [done|]. split; [done|].
  unfold sl_dump, slget in E. rewrite (hget_Some _ _ _ Hx) in E. cbn [mbind res_bind] in E.
  destruct (dump_chain (skey x) _ _ _ HL (g_data g) (entry_fuel (sent w)) 0 HF) as (d0 & k0 & E2 & Hh); [|lia|lia|].
  { pose proof (chain_bound _ _ _ HL). unfold entry_fuel. lia. }
  destruct (history_heads w G n h l ltac:(eauto)) as (x' & Hx' & Hd). rewrite Hx in Hx'. injection Hx' as <-.
  destruct (sent w !! shead x) as [e|] eqn:He; [|done]. injection Hd as Hd. destruct (Hh e eq_refl) as [-> ->]. rewrite Hd in E2.
  rewrite E2 in E. cbn [mbind res_bind] in E. injection E as _ _ <-. exists (shead x), L. split; [by apply (Forall2_length _ _ _ HF)|].
  f_equal. apply imap_ext. intros i [a d] _. by rewrite Ek.
Qed.
Lemma print_dump_ok W G n D Q l g lw : pinv W G n D Q -> G !! l = Some g ->
  exists ev, print_dump T W (Some l) lw = Ret (tr_app lw ev, Go tt) /\ dump_output T g ev.
Proof.
  intros I Hl. destruct (dump_spec _ _ _ _ _ (mi_base _ _ _ _ (minv_p _ _ _ _ _ I)) Hl) as (level & lines & E & Hlev & Hd).
  eexists. split; [|by exists level, lines]. unfold print_dump. rewrite (bind_lift _ _ _ _ E). reflexivity.
Qed.

(** the invariant *)
Lemma psl_history_inv W G n D Q : psl_history W G n D Q -> pinv W G n D Q.
Proof.
  induction 1 as [|o lw lw' al W G n D Q cmp key print W' l _ I Hal Hn Ho Hnn E|o lw lw' al rnd W G n D Q l g d W' _ I Hal Hl Hab Hlen E
    |o lw lw' W G n D Q l g d x W' _ I Hl Hp E|o lw lw' al W G n D Q l g W' _ I Hal Hn Hl E|lw lw' W n D Q W' _ I E].
  - constructor; [constructor|]. intros l [? H]. by rewrite lookup_empty in H.
  - unfold psl_create in E. apply bind_inv in E as ([] & lw1 & _ & E). apply bind_inv in E as ([w1 l1] & lw2 & E1%lift_go & E).
    destruct E1 as [E1 _]. apply ret_inv in E as [[= <- <-] _]. constructor; cbn [pbase pprint].
    + by eapply (mh_create al); [apply I|..].
    + intros l2 H. destruct (decide (l2 = l1)) as [-> | Hne]; [exists print; by rewrite !lookup_insert|].
      rewrite lookup_insert_ne in H by done. rewrite !lookup_insert_ne by done. by apply I.
  - unfold psl_insert in E. rewrite (bind_go _ _ _ _ _ (pcheck_live o _ _ _ _ _ I l _ lw ltac:(eauto))) in E.
    destruct (looks_spec W G n l g d (mi_base _ _ _ _ (minv_p _ _ _ _ _ I)) Hl) as [_ Hlk].
    rewrite (bind_lift _ _ _ _ (Hlk Hab)) in E. apply bind_inv in E as (w1 & lw1 & [E1 _]%lift_go & E).
    apply ret_inv in E as [<- _]. constructor; cbn [pbase pprint].
    + by eapply (mh_insert al); [apply I|..].
    + intros l2 H. apply I. destruct (decide (l2 = l)) as [-> | Hne]; [eauto|]. by rewrite lookup_insert_ne in H.
  - unfold psl_delete in E. rewrite (bind_go _ _ _ _ _ (pcheck_live o _ _ _ _ _ I l _ lw ltac:(eauto))) in E.
    destruct (looks_spec W G n l g d (mi_base _ _ _ _ (minv_p _ _ _ _ _ I)) Hl) as [Hlk _].
    rewrite (bind_lift _ _ _ _ (Hlk x Hp)) in E. apply bind_inv in E as (w1 & lw1 & [E1 _]%lift_go & E).
    apply ret_inv in E as [<- _]. constructor; cbn [pbase pprint].
    + by eapply mh_delete; [apply I|..].
    + intros l2 H. apply I. destruct (decide (l2 = l)) as [-> | Hne]; [eauto|]. by rewrite lookup_insert_ne in H.
  - unfold psl_destroy in E. rewrite (bind_go _ _ _ _ _ (pcheck_live o _ _ _ _ _ I l _ lw ltac:(eauto))) in E.
    apply bind_inv in E as (w1 & lw1 & [E1 _]%lift_go & E). apply ret_inv in E as [<- _]. constructor; cbn [pbase pprint].
    + by eapply (mh_destroy al); [apply I|..].
    + intros l2 [g2 [Hne H]%lookup_delete_Some]. rewrite lookup_delete_ne by done. apply I. eauto.
  - unfold psl_shutdown in E. apply bind_inv in E as (w1 & lw1 & [E1 _]%lift_go & E). apply ret_inv in E as [<- _].
    constructor; cbn [pbase pprint].
    + by eapply mh_shutdown; [apply I|].
    + intros l [? H]. by rewrite lookup_empty in H.
Qed.

(** the report *)
Lemma stops_ok {A} o w LG g fn msg : linv w LG g -> can_write o LG -> stops (A := A) (err_internal o (Some (bytes fn)) msg w) w o LG [] fn msg.
Proof.
  intros Hi Hc. destruct (err_internal_ok (A := A) o w LG g (Some (bytes fn)) msg Hi Hc) as (w' & E & Tr).
  exists w', (dirs_of o LG). split; [done|]. split; [apply dirs_of_for|]. rewrite Tr. unfold internal_prefix, prefix_text.
  by destruct (s_prog LG).
Qed.
Lemma stops_after {A} o w LG g ev fn msg : linv w LG g -> can_write o LG ->
  stops (A := A) (err_internal o (Some (bytes fn)) msg (tr_app w ev)) w o LG ev fn msg.
Proof.
  intros Hi Hc. destruct (stops_ok (A := A) o _ LG g fn msg (linv_tr _ _ _ ev Hi) Hc) as (w' & ds & E & Hd & Tr).
  exists w', ds. split; [done|]. split; [done|]. rewrite Tr. cbn [tr_app ltr]. by rewrite <- app_assoc.
Qed.
Lemma stops_lit {A} o w LG g r m fn msg : linv w LG g -> can_write o LG -> r = bytes fn -> m = msg ->
  stops (A := A) (err_internal o (Some r) m w) w o LG [] fn msg.
Proof. intros Hi Hc -> ->. by eapply stops_ok. Qed.
Lemma stops_lit_after {A} o w LG g ev r m fn msg : linv w LG g -> can_write o LG -> r = bytes fn -> m = msg ->
  stops (A := A) (err_internal o (Some r) m (tr_app w ev)) w o LG ev fn msg.
Proof. intros Hi Hc -> ->. by eapply stops_after. Qed.
Lemma stops_bind {A B} (m : M A) (f : A -> M B) w o LG ev fn msg : stops (m w) w o LG ev fn msg -> stops (bind m f w) w o LG ev fn msg.
Proof. intros (w' & ds & E & H). exists w', ds. split; [|done]. unfold bind. by rewrite E. Qed.
End Hist.
