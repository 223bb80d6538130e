(** Proofs about log.c and error.c. *)
From Verif Require Import Base CStr ListLemmas MemProofs LogModel LogSpec.
Local Open Scope Z_scope.

Definition tr_app (w : lstate) (es : list event) : lstate :=
  LS (lfd w) (luser w) (lsys w) (lbrief w) (lopen w) (lfac w) (lident w) (lorig w) (lname w) (ltmp w) (llen w) (lhost w) (llive w) (lprog w) (ltr w ++ es).
Lemma tr_app_nil w : tr_app w [] = w.
Proof. destruct w. unfold tr_app. cbn. by rewrite app_nil_r. Qed.
Lemma tr_app_app w a b : tr_app (tr_app w a) b = tr_app w (a ++ b).
Proof. destruct w. unfold tr_app. cbn. by rewrite app_assoc. Qed.
Lemma emit_ok e w : emit e w = Ret (tr_app w [e], Go tt).
Proof. done. Qed.
Lemma emits_ok es : forall w, emits es w = Ret (tr_app w es, Go tt).
Proof.
  induction es as [|e es IH]; intros w; cbn [emits]; [by rewrite tr_app_nil|].
  unfold bind. rewrite emit_ok. cbn [mbind res_bind]. rewrite IH, tr_app_app. done.
Qed.
Lemma bind_go {A B} (m : M A) (f : A -> M B) w w' a : m w = Ret (w', Go a) -> bind m f w = f a w'.
Proof. intros E. unfold bind. by rewrite E. Qed.
Lemma bind_exits {A B} (m : M A) (f : A -> M B) w w' n : m w = Ret (w', Exits n) -> bind m f w = Ret (w', Exits n).
Proof. intros E. unfold bind. by rewrite E. Qed.
Lemma bind_get {B} (f : lstate -> M B) w : bind get f w = f w w.
Proof. done. Qed.
Lemma bind_emit {B} e (f : unit -> M B) w : bind (emit e) f w = f tt (tr_app w [e]).
Proof. done. Qed.
Lemma bind_emits {B} es (f : unit -> M B) w : bind (emits es) f w = f tt (tr_app w es).
Proof. apply bind_go, emits_ok. Qed.
Lemma bind_ret {A B} (a : A) (f : A -> M B) w : bind (ret a) f w = f a w.
Proof. done. Qed.
Lemma bind_bind {A B C} (m : M A) (f : A -> M B) (g : B -> M C) w : bind (bind m f) g w = bind m (fun a => bind (f a) g) w.
Proof. unfold bind. destruct (m w) as [[w1 [a|n|]]| | | |]; done. Qed.

(** ** Directories *)
Fixpoint dirs_from (p : list N) (n i : nat) : list (list N) :=
  match n with
  | O => []
  | S n' => (if decide (p !! i = Some 47%N /\ i <> 0%nat) then [take i p] else []) ++ dirs_from p n' (S i)
  end.
Definition dirs (p : list N) : list (list N) := dirs_from p (length p) 0.
Lemma mkpath_dirs p n : forall i, mkpath_loop p n i = EMkdir <$> dirs_from p n i.
Proof.
  induction n as [|n IH]; intros i; [done|]. cbn [mkpath_loop dirs_from]. rewrite fmap_app, IH. by destruct (decide _).
Qed.
Lemma dirs_elem p n : forall i d, d ∈ dirs_from p n i <->
  exists j, (i <= j < i + n)%nat /\ p !! j = Some 47%N /\ j <> 0%nat /\ d = take j p.
Proof.
  induction n as [|n IH]; intros i d; cbn [dirs_from].
  - split; [intros H; by apply elem_of_nil in H|intros (j & ? & _); lia].
  - rewrite elem_of_app, IH. split.
    + intros [H|(j & Hj & H)]; [|exists j; split; [lia|done]].
      destruct (decide _) as [[H1 H2]|_]; [|by apply elem_of_nil in H]. apply elem_of_list_singleton in H as ->.
      exists i. split; [lia|done].
    + intros (j & Hj & H1 & H2 & ->). destruct (decide (j = i)) as [->|Hne].
      * left. rewrite decide_True by done. by left.
      * right. exists j. split; [lia|done].
Qed.
Lemma dirs_sorted p n : forall i, (i + n <= length p)%nat -> forall a b d e, (a < b)%nat ->
  dirs_from p n i !! a = Some d -> dirs_from p n i !! b = Some e -> (length d < length e)%nat.
Proof.
  induction n as [|n IH]; intros i Hn a b d e Hab Ha Hb; cbn [dirs_from] in *; [done|].
  destruct (decide _) as [[H1 H2]|_]; [|by eapply (IH (S i)); [lia|exact Hab|..]].
  destruct a as [|a], b as [|b]; try lia; cbn [app] in *.
  - injection Ha as <-. cbn [lookup list_lookup] in Hb. apply elem_of_list_lookup_2, dirs_elem in Hb as (j & Hj & _ & _ & ->).
    rewrite !take_length. lia.
  - cbn [lookup list_lookup] in Ha, Hb. eapply (IH (S i)); [lia| |exact Ha|exact Hb]. lia.
Qed.
Lemma dirs_ok p : ancestors p (dirs p).
Proof.
  split.
  - intros d. unfold dirs. rewrite dirs_elem. split.
    + intros (j & Hj & Hc & Hz & ->). split.
      * intros E. apply (f_equal length) in E. rewrite take_length in E. cbn in E. lia.
      * exists (drop (S j) p). by rewrite (take_drop_middle p j 47%N Hc).
    + intros [Hn (q & ->)]. exists (length d). rewrite app_length. cbn [length]. split; [lia|].
      split; [by rewrite list_lookup_middle|]. split; [destruct d; [done|cbn; lia]|]. by rewrite take_app.
  - intros i j d e. apply dirs_sorted. lia.
Qed.

(** ** Invariant *)
Record linv (w : lstate) (G : sinks) (g : nat) : Prop := {
  i_file : match s_file G with
           | None => lfd w = None
           | Some (fd, name, fmt) => lfd w = Some fd /\ lname w = Some name /\ lorig w = Some fmt /\ ltmp w = true /\
                                     llen w = Z.of_nat (length fmt) * 3 + 1024
           end;
  i_user : luser w = s_stream G;
  i_sys : lsys w = if s_syslog G then 1 else 0;
  i_ident : lident w = s_ident G;
  i_has : is_Some (s_file G) \/ is_Some (s_stream G) -> is_Some (s_ident G);
  i_host : lhost w = s_host G;
  i_brief : lbrief w = s_brief G;
  i_fac : lfac w = s_fac G;
  i_prog : lprog w = s_prog G;
  i_open : lopen w = open_sinks G + Z.of_nat g;
  i_live : llive w = (2 * (g + if s_file G then 1 else 0))%nat }.

Lemma linv_start : linv lstart nosinks 0.
Proof. by constructor; try done; intros [[? ?]|[? ?]]. Qed.
Lemma linv_tr w G g es : linv w G g -> linv (tr_app w es) G g.
Proof. destruct w. intros []. by constructor. Qed.

Lemma line_eq w G o r msg : lbrief w = s_brief G -> lhost w = s_host G ->
  log_text (preamble w o (if lbrief w then [] else default [] (s_ident G))) r (take (N.to_nat 4095) msg) = line o G r msg.
Proof.
  intros Hb Hh. unfold log_text, preamble, line, stamp, field24, cut. rewrite Hb, Hh.
  change (N.to_nat 319) with 319%nat. change (N.to_nat 24) with 24%nat. change (N.to_nat 64) with 64%nat.
  destruct (s_brief G); [done|]. by rewrite <- !app_assoc.
Qed.

(** checking the name of the open file *)
Definition switch_events (o : os) (fd : N) (name fmt : list N) : list event :=
  if decide (expansion o fmt = name) then [] else
  [EClose fd] ++ (EMkdir <$> dirs (expansion o fmt)) ++ [EOpen (expansion o fmt) (open_r o (expansion o fmt))].
Lemma check_ok fatal o w G g fd name fmt : linv w G g -> s_file G = Some (fd, name, fmt) -> can_write o G ->
  exists w', log_check_filename fatal o w = Ret (w', Go tt) /\ linv w' (after_message o G) g /\
    lfd w' = Some (switched o fd name fmt).1 /\ ltr w' = ltr w ++ switch_events o fd name fmt.
Proof.
  intros Hi Hf Hc. pose proof Hi as [I1 I2 I3 I4 I5 I6 I7 I8 I9 I10 I11]. unfold can_write in Hc. rewrite Hf in *.
  destruct I1 as (E1 & E2 & E3 & E4 & E5). destruct Hc as [Hlen Hc].
  unfold log_check_filename, switched, switch_events. rewrite bind_get, E2, E3, E4, E5.
  rewrite (proj2 (Z.eqb_neq _ 0)) by lia. cbn [negb orb]. fold (expansion o fmt).
  rewrite (proj2 (Z.leb_gt _ _)) by lia.
  destruct (decide (expansion o fmt = name)) as [Ee|Hne].
  - exists w. split; [done|]. split; [|split; [done|by rewrite app_nil_r]]. unfold after_message. rewrite Hf. unfold switched.
    rewrite decide_True by done. destruct G. cbn in *. subst. by constructor; cbn.
  - destruct Hc as [?|[Hm [fd' Ho]]]; [done|]. rewrite Ho. rewrite E1.
    unfold log_mkpath, allocs. rewrite Hm.
    eexists. split.
    { erewrite bind_go by reflexivity. erewrite bind_go by reflexivity.
      rewrite bind_bind, bind_ret, bind_emits, bind_emit. erewrite bind_go by reflexivity. reflexivity. }
    split.
    + unfold after_message. rewrite Hf. unfold switched. rewrite decide_False by done. rewrite Ho. cbn [default].
      destruct w, G. cbn in *. subst. constructor; cbn; try done. intros _. apply I5. left. eauto.
    + split; [done|]. cbn [ltr tr_app]. rewrite mkpath_dirs. unfold dirs. by rewrite <- !app_assoc.
Qed.

Lemma message_ok fatal o w G g r prio msg : linv w G g -> can_write o G ->
  exists w', log_base_va fatal o r prio msg w = Ret (w', Go tt) /\ linv w' (after_message o G) g /\
    ltr w' = ltr w ++ delivered o (match s_file G with Some (_, _, fmt) => dirs (expansion o fmt) | None => [] end) G r prio msg.
Proof.
  intros Hi Hc. pose proof Hi as [I1 I2 I3 I4 I5 I6 I7 I8 I9 I10 I11].
  unfold log_base_va, delivered. rewrite bind_get.
  destruct (Z.eqb_spec (lopen w) 0) as [Ez|Hz].
  { assert (Hn : s_file G = None /\ s_stream G = None /\ s_syslog G = false).
    { rewrite I10 in Ez. unfold open_sinks in Ez. destruct (s_file G), (s_stream G), (s_syslog G); try lia. done. }
    destruct Hn as (N1 & N2 & N3). exists w. split; [done|]. unfold after_message. rewrite N1, N2, N3. cbn [app]. by rewrite app_nil_r. }
  assert (Hsys : forall w1, (if lsys w =? 0 then ret tt else emit (ESyslog prio msg)) w1 = Ret (tr_app w1 (if s_syslog G then [ESyslog prio msg] else []), Go tt)).
  { intros w1. rewrite I3. destruct (s_syslog G); [done|]. by rewrite tr_app_nil. }
  destruct (s_file G) as [[[fd name] fmt]|] eqn:Ef.
  - destruct I1 as (E1 & E2 & E3 & E4 & E5). rewrite E1.
    destruct I5 as [ident Hid]; [left; eauto|].
    assert (Ei : (if lbrief w then Some [] else lident w) = Some (if lbrief w then [] else default [] (s_ident G))).
    { destruct (lbrief w); [done|]. by rewrite I4, Hid. }
    rewrite Ei. rewrite bind_bind.
    destruct (check_ok fatal o w G g fd name fmt Hi Ef Hc) as (w1 & Ec & Hi1 & Hfd & Ht). rewrite bind_bind.
    rewrite (bind_go _ _ _ _ _ Ec). rewrite bind_bind, bind_get. rewrite Hfd. rewrite bind_bind, bind_emits, bind_emit.
    rewrite (line_eq w G o r msg I7 I6).
    rewrite I2. destruct (s_stream G) as [st|] eqn:Es.
    + rewrite !bind_bind, !bind_emit, bind_bind, bind_emit, (bind_go _ _ _ _ _ (emit_ok _ _)), Hsys, !tr_app_app.
      eexists. split; [reflexivity|]. split; [by apply linv_tr|]. cbn [ltr tr_app]. rewrite Ht. unfold to_file, switch_events, to_stream.
      rewrite <- !app_assoc. cbn [app]. do 5 f_equal.
      assert (Hst : (if decide (st = Stdout ∨ st = Stderr) then take (N.to_nat 4095) msg else line o G r msg) =
        match st with File _ => line o G r msg | _ => cut 4095 msg end).
      { destruct st; (rewrite decide_True by auto) || (rewrite decide_False by (intros [|]; done)); done. }
      by rewrite Hst.
    + rewrite bind_ret, Hsys, !tr_app_app. eexists. split; [reflexivity|]. split; [by apply linv_tr|]. cbn [ltr tr_app]. rewrite Ht.
      unfold to_file, switch_events. rewrite <- !app_assoc. done.
  - rewrite I1, I2. unfold after_message. rewrite Ef. destruct (s_stream G) as [st|] eqn:Es.
    + destruct I5 as [ident Hid]; [right; eauto|].
      assert (Ei : (if lbrief w then Some [] else lident w) = Some (if lbrief w then [] else default [] (s_ident G))).
      { destruct (lbrief w); [done|]. by rewrite I4, Hid. }
      rewrite Ei. rewrite !bind_bind, bind_ret. rewrite (line_eq w G o r msg I7 I6).
      rewrite bind_bind, bind_emit, bind_bind, bind_emit, (bind_go _ _ _ _ _ (emit_ok _ _)), Hsys, !tr_app_app.
      eexists. split; [reflexivity|]. split; [by apply linv_tr|]. cbn [ltr tr_app app]. unfold to_stream. do 3 f_equal.
      assert (Hst : (if decide (st = Stdout ∨ st = Stderr) then take (N.to_nat 4095) msg else line o G r msg) =
        match st with File _ => line o G r msg | _ => cut 4095 msg end).
      { destruct st; (rewrite decide_True by auto) || (rewrite decide_False by (intros [|]; done)); done. }
      by rewrite Hst.
    + rewrite bind_ret, Hsys. eexists. split; [reflexivity|]. split; [by apply linv_tr|]. done.
Qed.
