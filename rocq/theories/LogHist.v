(** Histories of log and error calls. *)
From Verif Require Import Base CStr ListLemmas MemProofs LogModel LogSpec LogProofs.
Local Open Scope Z_scope.

Definition dirs_of (o : os) (G : sinks) : list (list N) :=
  match s_file G with Some (_, _, fmt) => dirs (expansion o fmt) | None => [] end.
Lemma can_write_again o G : can_write o G -> can_write o (after_message o G).
Proof.
  unfold can_write, after_message. destruct (s_file G) as [[[fd name] fmt]|] eqn:Ef; [|by rewrite Ef]. cbn [s_file set_file].
  intros [H1 H2]. unfold switched. destruct (decide (expansion o fmt = name)); auto.
Qed.
Lemma prog_after o G : s_prog (after_message o G) = s_prog G.
Proof. unfold after_message. by destruct (s_file G) as [[[fd name] fmt]|]. Qed.

(** ** the error routines, when the log can be written *)
Lemma fatal_errno_ok {A} fatal o w G g r msg : linv w G g -> can_write o G ->
  exists w', err_fatal_errno_with (A := A) (fun o r m => log_base_va fatal o r 3 m) o (Some r) msg w = Ret (w', Exits 1) /\
    ltr w' = ltr w ++ [EFlush Stdout] ++ err_prefix (s_prog G) (Some r) ++ [EPrint Stderr msg] ++ delivered o (dirs_of o G) G (Some r) 3 msg ++
      [EPrint Stderr ([32%N] ++ r ++ t_colon ++ strerr o ++ t_nl)] ++
      delivered o (dirs_of o (after_message o G)) (after_message o G) (Some r) 3 (r ++ t_colon ++ strerr o) ++ [EFlush Stderr; EFlush Stdout].
Proof.
  intros Hi Hc. unfold err_fatal_errno_with. rewrite bind_get, bind_emit, bind_emits, bind_emit, !tr_app_app. rewrite (i_prog _ _ _ Hi).
  match goal with |- exists w', bind _ _ (tr_app w ?es) = _ /\ _ =>
    destruct (message_ok fatal o _ G g (Some r) 3 msg (linv_tr _ _ _ es Hi) Hc) as (w1 & E1 & H1 & T1) end.
  rewrite (bind_go _ _ _ _ _ E1). rewrite bind_emit.
  destruct (message_ok fatal o _ _ g (Some r) 3 (r ++ t_colon ++ strerr o) (linv_tr _ _ _ [EPrint Stderr ([32%N] ++ r ++ t_colon ++ strerr o ++ t_nl)] H1) (can_write_again _ _ Hc)) as (w2 & E2 & H2 & T2).
  rewrite (bind_go _ _ _ _ _ E2). rewrite !bind_emit. eexists. split; [reflexivity|]. cbn [ltr tr_app]. rewrite T2. cbn [ltr tr_app]. rewrite T1. cbn [ltr tr_app].
  unfold dirs_of. by rewrite <- !app_assoc.
Qed.
Lemma err_fatal_ok {A} o w G g r msg : linv w G g -> can_write o G ->
  exists w', err_fatal (A := A) o r msg w = Ret (w', Exits 1) /\
    ltr w' = ltr w ++ [EFlush Stdout] ++ err_prefix (s_prog G) r ++ [EPrint Stderr msg; EPrint Stderr t_nl] ++ delivered o (dirs_of o G) G r 3 msg ++ [EFlush Stderr; EFlush Stdout].
Proof.
  intros Hi Hc. unfold err_fatal. rewrite bind_get, bind_emit, bind_emits, !bind_emit, !tr_app_app. rewrite (i_prog _ _ _ Hi).
  match goal with |- exists w', bind _ _ (tr_app w ?es) = _ /\ _ =>
    destruct (message_ok open_failed o _ G g r 3 msg (linv_tr _ _ _ es Hi) Hc) as (w1 & E1 & H1 & T1) end.
  unfold log_error. rewrite (bind_go _ _ _ _ _ E1). rewrite !bind_emit. eexists. split; [reflexivity|]. cbn [ltr tr_app]. rewrite T1. cbn [ltr tr_app].
  unfold dirs_of. rewrite <- !app_assoc. done.
Qed.
Lemma err_warning_ok o w G g r msg : linv w G g -> can_write o G ->
  exists w', err_warning o r msg w = Ret (w', Go tt) /\ linv w' (after_message o G) g /\
    ltr w' = ltr w ++ [EFlush Stdout; EFlush Stderr] ++ err_prefix (s_prog G) r ++ [EPrint Stderr msg; EPrint Stderr t_nl] ++ delivered o (dirs_of o G) G r 3 msg.
Proof.
  intros Hi Hc. unfold err_warning. rewrite bind_get, !bind_emit, bind_emits, !bind_emit, !tr_app_app. rewrite (i_prog _ _ _ Hi).
  match goal with |- exists w', log_error o r msg (tr_app w ?es) = _ /\ _ =>
    destruct (message_ok open_failed o _ G g r 3 msg (linv_tr _ _ _ es Hi) Hc) as (w1 & E1 & H1 & T1) end.
  exists w1. split; [exact E1|]. split; [done|]. rewrite T1. cbn [ltr tr_app]. unfold dirs_of. rewrite <- !app_assoc. done.
Qed.
Definition internal_prefix (prog routine : option (list N)) : list N :=
  match prog, routine with
  | Some p, Some r => p ++ t_openp ++ r ++ t_closep | Some p, None => p ++ t_colon | None, Some r => r ++ t_colon | None, None => []
  end ++ t_internal.
Lemma err_internal_ok {A} o w G g r msg : linv w G g -> can_write o G ->
  exists w', err_internal (A := A) o r msg w = Ret (w', Aborts) /\
    ltr w' = ltr w ++ [EFlush Stdout; EPrint Stderr (internal_prefix (s_prog G) r); EPrint Stderr msg; EPrint Stderr t_nl] ++
      delivered o (dirs_of o G) G r 3 msg ++
      [EPrint Stderr (t_aborting ++ match s_prog G with Some p => [32%N] ++ p | None => [] end ++ t_dots); EFlush Stderr; EFlush Stdout].
Proof.
  intros Hi Hc. unfold err_internal. rewrite bind_get, !bind_emit, !tr_app_app. rewrite (i_prog _ _ _ Hi). fold (internal_prefix (s_prog G) r).
  match goal with |- exists w', bind (log_error o r msg) _ (tr_app w ?es) = _ /\ _ =>
    destruct (message_ok open_failed o _ G g r 3 msg (linv_tr _ _ _ es Hi) Hc) as (w1 & E1 & H1 & T1) end.
  unfold log_error. rewrite (bind_go _ _ _ _ _ E1). rewrite bind_get, !bind_emit. eexists. split; [reflexivity|]. cbn [ltr tr_app]. rewrite T1. cbn [ltr tr_app].
  rewrite (i_prog _ _ _ H1), prog_after. unfold dirs_of. rewrite <- !app_assoc. done.
Qed.

(** ** when it cannot *)
Definition bad {A} (o : os) (G : sinks) (r : res (lstate * ctl A)) : Prop :=
  match s_file G with
  | None => False
  | Some (fd, name, fmt) =>
      expansion o fmt <> name \/ Z.of_nat (length fmt) * 3 + 1024 <= Z.of_nat (length (expansion o fmt))
  end /\
  match s_file G with
  | None => False
  | Some (fd, name, fmt) =>
      if decide (Z.of_nat (length fmt) * 3 + 1024 <= Z.of_nat (length (expansion o fmt))) then r = UB
      else if mem o then open_r o (expansion o fmt) = None /\ exists w', r = Ret (w', Exits 1)
      else r = Fatal
  end.
Lemma bad_bind {A B} o G (m : M A) (f : A -> M B) w : bad o G (m w) -> bad o G (bind m f w).
Proof.
  unfold bad. destruct (s_file G) as [[[fd name] fmt]|]; [|tauto]. intros [H1 H]. split; [done|]. revert H. destruct (decide _).
  - intros E. unfold bind. by rewrite E.
  - destruct (mem o).
    + intros (Ho & w' & E). split; [done|]. exists w'. unfold bind. by rewrite E.
    + intros E. unfold bind. by rewrite E.
Qed.
Lemma bad_not_go {A} o G (r : res (lstate * ctl A)) w a : bad o G r -> r <> Ret (w, Go a).
Proof.
  unfold bad. destruct (s_file G) as [[[fd name] fmt]|]; [|tauto]. intros [_ H] ->. destruct (decide _); [done|].
  destruct (mem o); [|done]. destruct H as (_ & w' & H). done.
Qed.
Lemma open_failed_ok o w G g r msg : linv w G g -> can_write o G -> exists w', open_failed o (Some r) msg w = Ret (w', Exits 1).
Proof. intros Hi Hc. destruct (fatal_errno_ok (A := unit) no_fatal o w G g r msg Hi Hc) as (w' & E & _). exists w'. exact E. Qed.
Lemma check_bad o w G g fd name fmt : linv w G g -> s_file G = Some (fd, name, fmt) -> ~ can_write o G ->
  bad o G (log_check_filename open_failed o w).
Proof.
  intros Hi Hf Hc. pose proof Hi as [I1 I2 I3 I4 I5 I6 I7 I8 I9 I10 I11]. unfold can_write, bad in *. rewrite Hf in *.
  destruct I1 as (E1 & E2 & E3 & E4 & E5).
  unfold log_check_filename. rewrite bind_get, E2, E3, E4, E5. rewrite (proj2 (Z.eqb_neq _ 0)) by lia. cbn [negb orb]. fold (expansion o fmt).
  destruct (decide _) as [Hle|Hgt].
  - rewrite (proj2 (Z.leb_le _ _)) by lia. auto.
  - rewrite (proj2 (Z.leb_gt _ _)) by lia. assert (Hne : expansion o fmt <> name). { intros E. apply Hc. split; [lia|auto]. }
    split; [auto|]. rewrite decide_False by done. rewrite E1. unfold log_mkpath, allocs.
    destruct (mem o) eqn:Em.
    + assert (Ho : open_r o (expansion o fmt) = None).
      { destruct (open_r o (expansion o fmt)) eqn:Eo; [|done]. exfalso. apply Hc. split; [lia|]. right. eauto. }
      split; [done|]. rewrite Ho.
      erewrite bind_go by reflexivity. erewrite bind_go by reflexivity. rewrite bind_bind, bind_ret, bind_emits, bind_emit.
      erewrite bind_go by reflexivity.
      eapply (open_failed_ok o _ (set_file G None) (g + 1)); [|done].
      destruct w, G. cbn in *. subst. constructor; cbn; try done.
      * intros _. apply I5. left. eauto.
      * unfold open_sinks. cbn. lia.
      * lia.
    + erewrite bind_go by reflexivity. erewrite bind_go by reflexivity. reflexivity.
Qed.
Lemma message_bad o w G g r prio msg : linv w G g -> ~ can_write o G -> bad o G (log_base_va open_failed o r prio msg w).
Proof.
  intros Hi Hc. pose proof Hi as [I1 I2 I3 I4 I5 I6 I7 I8 I9 I10 I11].
  unfold can_write in Hc. destruct (s_file G) as [[[fd name] fmt]|] eqn:Ef; [|tauto].
  assert (Hc' : ~ can_write o G) by (unfold can_write; by rewrite Ef).
  destruct I1 as (E1 & E2 & E3 & E4 & E5). unfold log_base_va. rewrite bind_get.
  rewrite (proj2 (Z.eqb_neq (lopen w) 0)).
  2:{ rewrite I10. unfold open_sinks. rewrite Ef. destruct (s_stream G), (s_syslog G); lia. }
  rewrite E1. destruct I5 as [ident Hid]; [left; eauto|].
  assert (Ei : (if lbrief w then Some [] else lident w) = Some (if lbrief w then [] else default [] (s_ident G))).
  { destruct (lbrief w); [done|]. by rewrite I4, Hid. }
  rewrite Ei. apply bad_bind, bad_bind, bad_bind. by eapply check_bad.
Qed.
Global Instance can_write_dec o G : Decision (can_write o G).
Proof. unfold can_write. destruct (s_file G) as [[[fd name] fmt]|]; apply _. Defined.
Lemma err_internal_bad {A} o w G g r msg : linv w G g -> ~ can_write o G -> bad o G (err_internal (A := A) o r msg w).
Proof.
  intros Hi Hc. unfold err_internal. rewrite bind_get, !bind_emit, !tr_app_app. apply bad_bind. eapply message_bad; [by apply linv_tr|done].
Qed.
Lemma err_fatal_bad {A} o w G g r msg : linv w G g -> ~ can_write o G -> bad o G (err_fatal (A := A) o r msg w).
Proof.
  intros Hi Hc. unfold err_fatal. rewrite bind_get, bind_emit, bind_emits, !bind_emit. apply bad_bind. eapply message_bad; [by apply linv_tr, linv_tr, linv_tr, linv_tr|done].
Qed.
Lemma internal_not_go o w G g r msg w' (a : unit) : linv w G g -> err_internal o r msg w <> Ret (w', Go a).
Proof.
  intros Hi. destruct (decide (can_write o G)) as [Hc|Hc].
  - destruct (err_internal_ok (A := unit) o w G g r msg Hi Hc) as (w1 & -> & _). done.
  - eapply bad_not_go. by apply (err_internal_bad o w G g r msg).
Qed.
Lemma fatal_not_go o w G g r msg w' (a : unit) : linv w G g -> err_fatal o r msg w <> Ret (w', Go a).
Proof.
  intros Hi. destruct (decide (can_write o G)) as [Hc|Hc].
  - destruct (err_fatal_ok (A := unit) o w G g r msg Hi Hc) as (w1 & -> & _). done.
  - eapply bad_not_go. by apply (err_fatal_bad o w G g r msg).
Qed.

(** ** opening and closing *)
Lemma upto_dot_eq h : match list_find (fun c => c = 46%N) h with Some (i, _) => take i h | None => h end = upto_dot h.
Proof.
  induction h as [|c h IH]; [done|]. cbn [list_find upto_dot]. destruct (decide (c = 46%N)) as [->|Hn]; [done|].
  destruct (list_find _ h) as [[i x]|]; cbn [prod_map fmap option_fmap option_map]; [|by rewrite <- IH].
  change (take (S i) (c :: h)) with (c :: take i h). by rewrite <- IH.
Qed.
Lemma hostname_ok o w G g : linv w G g -> exists w', log_set_hostname o w = Ret (w', Go tt) /\ linv w' (with_host o G) g /\ ltr w' = ltr w.
Proof.
  intros Hi. pose proof Hi as [I1 I2 I3 I4 I5 I6 I7 I8 I9 I10 I11]. unfold log_set_hostname. rewrite bind_get, I6.
  destruct (s_host G) as [h|] eqn:Eh.
  - exists w. split; [done|]. split; [|done]. unfold with_host. rewrite Eh. destruct G. cbn in *. by subst.
  - eexists. split; [reflexivity|]. split; [|done]. unfold with_host. rewrite Eh. destruct w, G. cbn in *. subst. constructor; cbn; try done.
    unfold short_host, cut. by rewrite upto_dot_eq.
Qed.
Lemma sint_small x : -2147483648 <= x < 2147483648 -> sint x = Ret x.
Proof.
  intros H. unfold sint, int_range, INT_MIN, INT_MAX.
  rewrite (proj2 (Bool.andb_true_iff (- 2 ^ 31 <=? x) _)) by (split; apply Z.leb_le; lia). done.
Qed.
Lemma add_open_ok d w : -2147483648 <= lopen w + d < 2147483648 ->
  add_open d w = Ret (LS (lfd w) (luser w) (lsys w) (lbrief w) (lopen w + d) (lfac w) (lident w) (lorig w) (lname w) (ltmp w) (llen w) (lhost w) (llive w) (lprog w) (ltr w), Go tt).
Proof. intros H. unfold add_open. by rewrite sint_small. Qed.
Lemma open_bound G : 0 <= open_sinks G <= 3.
Proof. unfold open_sinks. destruct (s_file G), (s_stream G), (s_syslog G); lia. Qed.

Lemma close_file_ok o w G g : linv w G g -> small g ->
  exists w', log_file o None None w = Ret (w', Go tt) /\ linv w' (set_file G None) g /\
    ltr w' = ltr w ++ match s_file G with Some (fd, _, _) => [EClose fd] | None => [] end.
Proof.
  intros Hi Hg. pose proof Hi as [I1 I2 I3 I4 I5 I6 I7 I8 I9 I10 I11]. unfold log_file. rewrite bind_get. pose proof (open_bound G).
  destruct (s_file G) as [[[fd name] fmt]|] eqn:Ef.
  - destruct I1 as (E1 & E2 & E3 & E4 & E5). rewrite E1, bind_emit, E2, E3, E4.
    erewrite bind_go by reflexivity. erewrite bind_go by reflexivity. unfold small in Hg.
    rewrite add_open_ok by (cbn [lopen tr_app]; lia). eexists. split; [reflexivity|]. split; [|done].
    destruct w, G. cbn in *. subst. constructor; cbn; try done; [|unfold open_sinks; cbn; lia|lia].
    intros [[? ?]|?]; [done|]. apply I5. auto.
  - rewrite I1. exists w. split; [done|]. rewrite app_nil_r. split; [|done]. destruct G. cbn in *. by subst.
Qed.
Lemma close_stream_ok o w G g : linv w G g -> small g ->
  exists w', log_stream o None None w = Ret (w', Go tt) /\ linv w' (set_stream G None) g /\
    ltr w' = ltr w ++ match s_stream G with Some (File p) => [EFclose (File p)] | _ => [] end.
Proof.
  intros Hi Hg. pose proof Hi as [I1 I2 I3 I4 I5 I6 I7 I8 I9 I10 I11]. unfold log_stream. rewrite bind_get, I2. pose proof (open_bound G).
  destruct (s_stream G) as [s|] eqn:Es.
  - assert (Hs : (if decide (s = Stdout \/ s = Stderr) then ret tt else emit (EFclose s)) w =
      Ret (tr_app w (match s with File p => [EFclose (File p)] | _ => [] end), Go tt)).
    { destruct s; (rewrite decide_True by auto; by rewrite tr_app_nil) || (rewrite decide_False by (intros [|]; done); done). }
    rewrite (bind_go _ _ _ _ _ Hs). erewrite bind_go by reflexivity. unfold small in Hg.
    rewrite add_open_ok by (cbn [lopen tr_app]; lia). eexists. split; [reflexivity|]. split; [|done].
    destruct w, G. cbn in *. subst. constructor; cbn; try done.
    + intros [?|[? ?]]; [|done]. apply I5. auto.
    + unfold open_sinks. cbn. lia.
  - exists w. split; [done|]. rewrite app_nil_r. split; [|done]. destruct G. cbn in *. by subst.
Qed.
Lemma close_syslog_ok o w G g : linv w G g -> small g ->
  exists w', log_syslog o None w = Ret (w', Go tt) /\ linv w' (set_syslog G false) g /\
    ltr w' = ltr w ++ if s_syslog G then [ECloselog] else [].
Proof.
  intros Hi Hg. pose proof Hi as [I1 I2 I3 I4 I5 I6 I7 I8 I9 I10 I11]. unfold log_syslog. rewrite bind_get, I3. pose proof (open_bound G).
  destruct (s_syslog G) eqn:Es.
  - change (1 =? 0) with false. cbv iota. rewrite bind_emit. unfold small in Hg.
    rewrite (bind_go _ _ _ _ _ (add_open_ok (-1) (tr_app w [ECloselog]) ltac:(cbn [lopen tr_app]; lia))).
    unfold add_sys. rewrite sint_small by (cbn [lsys tr_app]; lia). rb. eexists. split; [reflexivity|]. split; [|done].
    destruct w, G. cbn in *. subst. constructor; cbn; try done. unfold open_sinks. cbn. lia.
  - change (0 =? 0) with true. cbv iota. exists w. split; [done|]. rewrite app_nil_r. split; [|done]. destruct G. cbn in *. by subst.
Qed.
Lemma close_all_ok o w G g : linv w G g -> small g ->
  exists w', log_close o w = Ret (w', Go tt) /\ linv w' (set_syslog (set_stream (set_file G None) None) false) g /\
    ltr w' = ltr w ++ match s_file G with Some (fd, _, _) => [EClose fd] | None => [] end ++
       match s_stream G with Some (File p) => [EFclose (File p)] | _ => [] end ++ if s_syslog G then [ECloselog] else [].
Proof.
  intros Hi Hg. unfold log_close.
  destruct (close_file_ok o w G g Hi Hg) as (w1 & E1 & H1 & T1). rewrite (bind_go _ _ _ _ _ E1).
  destruct (close_stream_ok o w1 _ g H1 Hg) as (w2 & E2 & H2 & T2). rewrite (bind_go _ _ _ _ _ E2).
  destruct (close_syslog_ok o w2 _ g H2 Hg) as (w3 & E3 & H3 & T3). rewrite E3. exists w3. split; [done|]. split; [done|].
  rewrite T3, T2, T1. cbn [s_stream s_syslog set_stream set_file]. by rewrite <- !app_assoc.
Qed.
Lemma open_syslog_ok o w G g i : linv w G g -> small g -> s_syslog G = false ->
  exists w', log_syslog o (Some i) w = Ret (w', Go tt) /\ linv w' (set_syslog G true) g /\ ltr w' = ltr w ++ [EOpenlog i (s_fac G)].
Proof.
  intros Hi Hg Es. pose proof Hi as [I1 I2 I3 I4 I5 I6 I7 I8 I9 I10 I11]. unfold log_syslog. rewrite bind_get, I3, Es. pose proof (open_bound G).
  change (negb (0 =? 0)) with false. cbv iota. rewrite bind_emit. unfold small in Hg.
  rewrite (bind_go _ _ _ _ _ (add_open_ok 1 (tr_app w [EOpenlog i (lfac w)]) ltac:(cbn [lopen tr_app]; lia))).
  unfold add_sys. cbn [lsys tr_app]. rewrite Es in I3. rewrite I3, sint_small by lia. rb. eexists. split; [reflexivity|]. split.
  - destruct w, G. cbn in *. subst. constructor; cbn; try done. unfold open_sinks. cbn. lia.
  - cbn [ltr tr_app]. by rewrite I8.
Qed.
Lemma open_stream_ok o w G g i s : linv w G g -> small g -> s_stream G = None -> mem o = true ->
  exists w', log_stream o (Some i) (Some s) w = Ret (w', Go tt) /\ linv w' (set_stream (with_host o (set_ident G i)) (Some s)) g /\ ltr w' = ltr w.
Proof.
  intros Hi Hg Es Hm. pose proof Hi as [I1 I2 I3 I4 I5 I6 I7 I8 I9 I10 I11]. unfold log_stream, allocs. rewrite bind_get, I2, Es, Hm.
  erewrite bind_go by reflexivity. rewrite bind_ret. erewrite bind_go by reflexivity.
  set (w1 := LS _ _ _ _ _ _ _ _ _ _ _ _ _ _ _). pose proof (open_bound G). unfold small in Hg.
  assert (Hh : exists w2, log_set_hostname o w1 = Ret (w2, Go tt) /\ ltr w2 = ltr w /\ lopen w2 = lopen w /\
     forall n, n = lopen w + 1 -> linv (LS (lfd w2) (luser w2) (lsys w2) (lbrief w2) n (lfac w2) (lident w2) (lorig w2) (lname w2) (ltmp w2) (llen w2) (lhost w2) (llive w2) (lprog w2) (ltr w2)) (set_stream (with_host o (set_ident G i)) (Some s)) g).
  { unfold log_set_hostname. rewrite bind_get. change (lhost w1) with (lhost w). rewrite I6. destruct (s_host G) as [h|] eqn:Eh.
    - exists w1. split; [done|]. split; [done|]. split; [done|]. intros n ->. unfold with_host. cbn [s_host set_ident]. rewrite Eh.
      unfold w1. destruct w, G. cbn in *. subst. constructor; cbn; try done; eauto. unfold open_sinks. cbn. lia.
    - eexists. split; [reflexivity|]. split; [done|]. split; [done|]. intros n ->. unfold with_host. cbn [s_host set_ident]. rewrite Eh.
      unfold w1. destruct w, G. cbn in *. subst. constructor; cbn; try done; eauto.
      + unfold short_host, cut. by rewrite upto_dot_eq.
      + unfold open_sinks. cbn. lia. }
  destruct Hh as (w2 & E2 & T2 & O2 & H2). rewrite (bind_go _ _ _ _ _ E2). rewrite add_open_ok by lia. eexists. split; [reflexivity|].
  split; [apply H2; lia|done].
Qed.

Definition opened (o : os) (G : sinks) (i fmt : list N) : sinks :=
  let G1 := with_host o (set_ident G i) in
  match expansion o fmt with [] => G1 | name => set_file G1 (match open_r o name with Some fd => Some (fd, name, fmt) | None => None end) end.
Definition open_events (o : os) (fmt : list N) : list event :=
  match expansion o fmt with [] => [] | name => (EMkdir <$> dirs name) ++ [EOpen name (open_r o name)] end.
Lemma len_ok (fmt : list N) : (Z.of_nat (length fmt) < 2 ^ 29)%Z -> to_int (Z.of_nat (length fmt) * 3 + 1024) = Z.of_nat (length fmt) * 3 + 1024.
Proof. intros H. apply to_int_small. lia. Qed.
(** the state in which log_file calls _log_check_filename *)
Definition named_state (w : lstate) (i fmt : list N) : lstate :=
  LS (lfd w) (luser w) (lsys w) (lbrief w) (lopen w) (lfac w) (Some i) (Some fmt) (Some []) true (Z.of_nat (length fmt) * 3 + 1024) (lhost w) (llive w + 2) (lprog w) (ltr w).
Lemma log_file_head o w G g i fmt : linv w G g -> s_file G = None -> mem o = true -> (Z.of_nat (length fmt) < 2 ^ 29)%Z ->
  log_file o (Some i) (Some fmt) w = (log_check_filename open_failed o ;> log_set_hostname o ;> add_open 1) (named_state w i fmt).
Proof.
  intros Hi Hf Hm Hl. pose proof (i_file _ _ _ Hi) as I1. rewrite Hf in I1. unfold log_file, allocs. rewrite bind_get, I1, Hm, bind_ret.
  erewrite bind_go by reflexivity. erewrite bind_go by reflexivity. rewrite len_ok by done. done.
Qed.
Lemma open_file_ok o w G g i fmt : linv w G g -> small g -> s_file G = None -> (Z.of_nat (length fmt) < 2 ^ 29)%Z -> can_open o fmt ->
  exists w', log_file o (Some i) (Some fmt) w = Ret (w', Go tt) /\
    linv w' (opened o G i fmt) (g + phantom o (COpenFile i fmt)) /\ ltr w' = ltr w ++ open_events o fmt.
Proof.
  intros Hi Hg Hf Hl (Hlen & Hm & Ho). rewrite (log_file_head o w G g i fmt Hi Hf Hm Hl). pose proof (open_bound G). unfold small in Hg.
  pose proof Hi as [I1 I2 I3 I4 I5 I6 I7 I8 I9 I10 I11]. rewrite Hf in *.
  assert (Hchk : exists w1, log_check_filename open_failed o (named_state w i fmt) = Ret (w1, Go tt) /\ ltr w1 = ltr w ++ open_events o fmt /\
     lopen w1 = lopen w /\ lhost w1 = lhost w /\ forall h n, n = lopen w + 1 -> h = s_host (with_host o G) ->
       linv (LS (lfd w1) (luser w1) (lsys w1) (lbrief w1) n (lfac w1) (lident w1) (lorig w1) (lname w1) (ltmp w1) (llen w1) h (llive w1) (lprog w1) (ltr w1))
         (opened o G i fmt) (g + phantom o (COpenFile i fmt))).
  { unfold log_check_filename, named_state. rewrite bind_get. cbn [lname lorig ltmp llen negb orb lfd]. rewrite (proj2 (Z.eqb_neq _ 0)) by lia.
    fold (expansion o fmt). rewrite (proj2 (Z.leb_gt _ _)) by lia.
    destruct (decide (expansion o fmt = [])) as [He|Hne].
    - assert (Hph : phantom o (COpenFile i fmt) = 1%nat) by (cbn [phantom]; by rewrite decide_True). rewrite Hph.
      unfold open_events, opened. rewrite He. eexists. split; [reflexivity|]. cbn [ltr]. rewrite app_nil_r. split; [done|]. split; [done|]. split; [done|].
      intros h n -> ->. unfold with_host in *. destruct w, G. cbn in *. subst. constructor; cbn; try done; eauto.
      + unfold open_sinks. cbn. lia.
      + lia.
    - assert (Hph : phantom o (COpenFile i fmt) = 0%nat) by (cbn [phantom]; by rewrite decide_False). rewrite Hph.
      destruct Ho as [?|[fd Ho]]; [done|]. rewrite I1. unfold log_mkpath, allocs. rewrite Hm.
      erewrite bind_go by reflexivity. rewrite bind_ret, bind_bind, bind_ret, bind_emits, bind_emit. rewrite Ho. erewrite bind_go by reflexivity.
      assert (Hopen : open_events o fmt = (EMkdir <$> dirs (expansion o fmt)) ++ [EOpen (expansion o fmt) (Some fd)]).
      { unfold open_events. rewrite <- Ho. by destruct (expansion o fmt). }
      assert (Hopd : opened o G i fmt = set_file (with_host o (set_ident G i)) (Some (fd, expansion o fmt, fmt))).
      { unfold opened. destruct (expansion o fmt); [done|]. cbv zeta. by rewrite Ho. }
      eexists. split; [reflexivity|]. cbn [ltr tr_app]. rewrite mkpath_dirs. split; [rewrite Hopen; unfold dirs; by rewrite <- app_assoc|].
      split; [done|]. split; [done|]. intros h n -> ->. rewrite Hopd. unfold with_host in *. destruct w, G. cbn in *. subst. constructor; cbn; try done; eauto.
      + unfold open_sinks. cbn. lia.
      + lia. }
  destruct Hchk as (w1 & E1 & T1 & O1 & Hh1 & H1). rewrite (bind_go _ _ _ _ _ E1).
  assert (Hhost : exists w2, log_set_hostname o w1 = Ret (w2, Go tt) /\
     w2 = LS (lfd w1) (luser w1) (lsys w1) (lbrief w1) (lopen w1) (lfac w1) (lident w1) (lorig w1) (lname w1) (ltmp w1) (llen w1) (s_host (with_host o G)) (llive w1) (lprog w1) (ltr w1)).
  { unfold log_set_hostname. rewrite bind_get, Hh1, I6. unfold with_host. cbn [s_host]. destruct (s_host G) as [h|] eqn:Eh.
    - eexists. split; [reflexivity|]. rewrite <- I6, <- Hh1. by destruct w1.
    - eexists. split; [reflexivity|]. unfold short_host, cut. by rewrite upto_dot_eq. }
  destruct Hhost as (w2 & E2 & ->). rewrite (bind_go _ _ _ _ _ E2). rewrite add_open_ok by (cbn [lopen]; lia).
  eexists. split; [reflexivity|]. split; [|done]. cbn [lfd luser lsys lbrief lopen lfac lident lorig lname ltmp llen lhost llive lprog ltr]. apply H1; [lia|done].
Qed.
Lemma open_file_bad o w G g i fmt : linv w G g -> s_file G = None -> (Z.of_nat (length fmt) < 2 ^ 29)%Z -> ~ can_open o fmt ->
  let r := log_file o (Some i) (Some fmt) w in
  r = UB \/ r = Fatal \/ exists w', r = Ret (w', Exits 1).
Proof.
  intros Hi Hf Hl Hc r. unfold r. clear r.
  set (P := fun r : res (lstate * ctl unit) => r = UB \/ r = Fatal \/ exists w', r = Ret (w', Exits 1)).
  pose proof (i_file _ _ _ Hi) as I1. rewrite Hf in I1.
  destruct (mem o) eqn:Hm; [|right; left; unfold log_file, allocs; rewrite bind_get, I1, Hm; done].
  rewrite (log_file_head o w G g i fmt Hi Hf Hm Hl).
  enough (HP : P (bind (log_check_filename open_failed o) (fun _ => log_set_hostname o ;> add_open 1) (named_state w i fmt))) by exact HP.
  unfold log_check_filename. rewrite bind_bind, bind_get. unfold named_state at 1 2 3 4 5. cbn [lname lorig ltmp llen negb orb lfd].
  rewrite (proj2 (Z.eqb_neq _ 0)) by lia. fold (expansion o fmt).
  destruct (Z.leb_spec (Z.of_nat (length fmt) * 3 + 1024) (Z.of_nat (length (expansion o fmt)))) as [Hle|Hgt]; [by left|].
  destruct (decide (expansion o fmt = [])) as [He|Hne]; [exfalso; apply Hc; split; [lia|auto]|].
  destruct (open_r o (expansion o fmt)) as [fd|] eqn:Ho; [exfalso; apply Hc; split; [lia|eauto]|].
  rewrite bind_bind. erewrite bind_go by reflexivity. unfold named_state. cbn [lfd]. rewrite I1. rewrite bind_bind, bind_ret.
  unfold log_mkpath, allocs. rewrite Hm. rewrite !bind_bind, bind_ret, bind_emits, !bind_bind, bind_emit, !bind_bind. erewrite bind_go by reflexivity. right. right.
  pose proof Hi as [J1 J2 J3 J4 J5 J6 J7 J8 J9 J10 J11]. rewrite Hf in *.
  match goal with |- exists w', bind (open_failed o _ ?m) _ ?w1 = _ =>
    assert (Hop : exists w', open_failed o (Some t_check) m w1 = Ret (w', Exits 1)) end.
  { unfold open_failed.
    (* the count is one too low for the invariant: same calls with the count set right *)
    match goal with |- exists w', err_fatal_errno_with log_closed o _ ?m ?w1 = _ => 
      enough (Hx : forall w2, lfd w2 = None -> luser w2 = s_stream G -> lident w2 = Some i -> exists w', err_fatal_errno_with (A := unit) log_closed o (Some t_check) m w2 = Ret (w', Exits 1)) by (apply Hx; done) end.
    assert (Hlog : forall w2 r m, lfd w2 = None -> luser w2 = s_stream G -> lident w2 = Some i ->
      exists w3, log_closed o r m w2 = Ret (w3, Go tt) /\ lfd w3 = None /\ luser w3 = s_stream G /\ lident w3 = Some i).
    { intros w2 r m F1 F2 F3. unfold log_closed, log_base_va. rewrite bind_get. destruct (lopen w2 =? 0); [exists w2; done|]. rewrite F1, F2.
      destruct (s_stream G) as [st|].
      - assert (Ei : exists x, (if lbrief w2 then Some [] else lident w2) = Some x) by (destruct (lbrief w2); eauto). destruct Ei as [x ->].
        rewrite !bind_bind, bind_ret, !bind_bind, bind_emit, !bind_bind, bind_emit. erewrite bind_go by reflexivity.
        destruct (lsys w2 =? 0); eexists; (split; [reflexivity|]); done.
      - rewrite bind_ret. destruct (lsys w2 =? 0); eexists; (split; [reflexivity|]); done. }
    intros w2 F1 F2 F3. unfold err_fatal_errno_with. rewrite bind_get, bind_emit, bind_emits, bind_emit.
    match goal with |- exists w', bind (log_closed o ?r ?m) _ ?w3 = _ => destruct (Hlog w3 r m F1 F2 F3) as (w4 & E4 & K1 & K2 & K3) end.
    rewrite (bind_go _ _ _ _ _ E4), bind_emit.
    match goal with |- exists w', bind (log_closed o ?r ?m) _ ?w3 = _ => destruct (Hlog w3 r m K1 K2 K3) as (w5 & E5 & L1 & L2 & L3) end.
    rewrite (bind_go _ _ _ _ _ E5), !bind_emit. eexists. reflexivity. }
  destruct Hop as (w' & E). exists w'. by rewrite (bind_exits _ _ _ _ _ E).
Qed.

(** ** names *)
Lemma basename_ok s : basename s (after_last_slash s).
Proof.
  unfold after_last_slash, basename. destruct (list_find _ (rev s)) as [[i x]|] eqn:E.
  - apply list_find_Some in E as (E & -> & Hn).
    assert (Hi : (i < length s)%nat) by (rewrite <- rev_length; by eapply lookup_lt_Some).
    exists (take (length s - i) s). split; [by rewrite take_drop|].
    assert (Hr : forall k, (k < length s)%nat -> rev s !! k = s !! (length s - 1 - k)%nat).
    { intros k Hk. replace (length s - 1 - k)%nat with (length s - S k)%nat by lia. rewrite <- (reverse_lookup s k) by done.
      unfold reverse. by rewrite rev_append_rev, app_nil_r. }
    split.
    + right. rewrite last_lookup, take_length, Nat.min_l by lia. rewrite lookup_take by lia. rewrite Hr in E by done.
      replace (Nat.pred (length s - i)) with (length s - 1 - i)%nat by lia. done.
    + intros Hin. apply elem_of_list_lookup in Hin as (j & Hj). rewrite lookup_drop in Hj.
      assert (Hlt : (length s - i + j < length s)%nat) by (by eapply lookup_lt_Some).
      specialize (Hn (i - 1 - j)%nat 47%N). apply Hn; [|lia|done]. rewrite Hr by lia. rewrite <- Hj. f_equal. lia.
  - apply list_find_None in E. exists []. split; [done|]. split; [auto|]. intros Hin. rewrite Forall_forall in E. apply (E 47%N); [|done].
    apply elem_of_list_In, in_rev. rewrite rev_involutive. by apply elem_of_list_In.
Qed.
Lemma split_unique (p q a b : list N) : p ++ a = q ++ b -> (q = [] \/ last q = Some 47%N) -> 47%N ∉ a -> (length p <= length q)%nat -> a = b.
Proof.
  intros Eq Hq Ha Hle. assert (Eqr : q = p ++ take (length q - length p) a).
  { pose proof (f_equal (take (length q)) Eq) as Et. rewrite take_app in Et. rewrite take_app_ge in Et by done. done. }
  revert Eqr. generalize (take (length q - length p) a). intros r ->.
  rewrite <- app_assoc in Eq. apply app_inv_head in Eq. subst a. destruct r as [|r x _] using rev_ind; [done|].
  exfalso. destruct Hq as [Hq|Hq].
  - apply (f_equal length) in Hq. rewrite !app_length in Hq. cbn in Hq. lia.
  - rewrite app_assoc, last_snoc in Hq. injection Hq as ->. apply Ha. apply elem_of_app. left. apply elem_of_app. right. by left.
Qed.
Lemma basename_unique s a b : basename s a -> basename s b -> a = b.
Proof.
  intros (p & E1 & H1 & N1) (q & E2 & H2 & N2). destruct (Nat.le_gt_cases (length p) (length q)).
  - apply (split_unique p q); try done. congruence.
  - symmetry. apply (split_unique q p); try done; [congruence|lia].
Qed.
Lemma find_name_in l n v : find_name l n = Some v -> (n, v) ∈ l.
Proof.
  induction l as [|[m x] l IH]; [done|]. cbn [find_name]. destruct (decide (m = n)) as [->|]; [intros [= ->]; left|]. intros H. right. auto.
Qed.

Lemma keys_nodup_unique (l : list (list N * Z)) n v v' : NoDup l.*1 -> (n, v) ∈ l -> (n, v') ∈ l -> v = v'.
Proof.
  induction l as [|[a b] l IH]; intros Hnd H1 H2; [by apply elem_of_nil in H1|].
  rewrite fmap_cons in Hnd. apply NoDup_cons in Hnd as [Hni Hnd]. cbn [fst] in Hni.
  apply elem_of_cons in H1. apply elem_of_cons in H2. destruct H1 as [H1|H1], H2 as [H2|H2].
  - congruence.
  - exfalso. apply Hni. injection H1 as <- <-. apply elem_of_list_fmap. by exists (n, v').
  - exfalso. apply Hni. injection H2 as <- <-. apply elem_of_list_fmap. by exists (n, v).
  - by apply IH.
Qed.
Lemma keys_unique (l : list (list N * Z)) n v v' : l = facilities -> (n, v) ∈ l -> (n, v') ∈ l -> v = v'.
Proof.
  intros ->. apply keys_nodup_unique. apply (bool_decide_eq_true_1 _). vm_compute. reflexivity.
Qed.

(** ** histories *)
Lemma open_file_after o G i fmt : after o (COpenFile i fmt) G (opened o G i fmt).
Proof. done. Qed.
Lemma step_inv w G g o c w' G' : linv w G g -> call_ok c -> small g -> run o c w = Ret (w', Go tt) -> after o c G G' ->
  linv w' G' (g + phantom o c).
Proof.
  intros Hi Hc Hg E Ha. destruct c; cbn [run after phantom] in *; rewrite ?Nat.add_0_r.
  - subst G'. destruct (s_file G) as [x|] eqn:Ef.
    + exfalso. pose proof (i_file _ _ _ Hi) as I1. rewrite Ef in I1. destruct x as [[fd name] fmt]. destruct I1 as (E1 & _).
      unfold log_file in E. rewrite bind_get, E1 in E. eapply internal_not_go in E; done.
    + destruct (decide (can_open o format)) as [Ho|Ho].
      * destruct (open_file_ok o w G g ident format Hi Hg Ef Hc Ho) as (w1 & E1 & H1 & _). rewrite E1 in E. injection E as <-. done.
      * destruct (open_file_bad o w G g ident format Hi Ef Hc Ho) as [E1|[E1|(w1 & E1)]]; rewrite E1 in E; discriminate E.
  - subst. destruct (close_file_ok o w G g Hi Hg) as (w1 & E1 & H1 & _). rewrite E1 in E. by injection E as <-.
  - subst. destruct (s_stream G) as [x|] eqn:Es.
    + exfalso. unfold log_stream in E. rewrite bind_get, (i_user _ _ _ Hi), Es in E. eapply internal_not_go in E; done.
    + destruct (mem o) eqn:Hm.
      * destruct (open_stream_ok o w G g ident s Hi Hg Es Hm) as (w1 & E1 & H1 & _). rewrite E1 in E. by injection E as <-.
      * unfold log_stream, allocs in E. rewrite bind_get, (i_user _ _ _ Hi), Es, Hm in E. discriminate E.
  - subst. destruct (close_stream_ok o w G g Hi Hg) as (w1 & E1 & H1 & _). rewrite E1 in E. by injection E as <-.
  - subst. destruct (s_syslog G) eqn:Es.
    + exfalso. unfold log_syslog in E. rewrite bind_get, (i_sys _ _ _ Hi), Es in E. eapply internal_not_go in E; done.
    + destruct (open_syslog_ok o w G g ident Hi Hg Es) as (w1 & E1 & H1 & _). rewrite E1 in E. by injection E as <-.
  - subst. destruct (close_syslog_ok o w G g Hi Hg) as (w1 & E1 & H1 & _). rewrite E1 in E. by injection E as <-.
  - subst. destruct (close_all_ok o w G g Hi Hg) as (w1 & E1 & H1 & _). rewrite E1 in E. by injection E as <-.
  - subst. destruct (decide (can_write o G)) as [Hw|Hw].
    + destruct (message_ok open_failed o w G g routine 3 msg Hi Hw) as (w1 & E1 & H1 & _). unfold log_error in E. rewrite E1 in E. by injection E as <-.
    + exfalso. eapply bad_not_go; [|exact E]. by apply (message_bad o w G g).
  - subst. destruct (decide (can_write o G)) as [Hw|Hw].
    + destruct (message_ok open_failed o w G g None 6 msg Hi Hw) as (w1 & E1 & H1 & _). unfold log_info in E. rewrite E1 in E. by injection E as <-.
    + exfalso. eapply bad_not_go; [|exact E]. by apply (message_bad o w G g).
  - subst. destruct (decide (can_write o G)) as [Hw|Hw].
    + destruct (err_warning_ok o w G g routine msg Hi Hw) as (w1 & E1 & H1 & _). rewrite E1 in E. by injection E as <-.
    + exfalso. eapply bad_not_go; [|exact E]. unfold err_warning. rewrite bind_get, !bind_emit, bind_emits, !bind_emit.
      apply (message_bad o _ G g); [|done]. by repeat apply linv_tr.
  - subst. unfold log_option, put_brief in E. injection E as <-.
    assert (Eb : (n =? 2) = bool_decide (n = 2)) by (destruct (Z.eqb_spec n 2); [by rewrite bool_decide_eq_true_2|by rewrite bool_decide_eq_false_2]).
    rewrite Eb. destruct w, G, Hi. cbn in *. subst. by constructor.
  - unfold log_set_facility in E. destruct (find_name facilities name) as [v|] eqn:Ev.
    + injection E as <-. destruct Ha as (v' & Hin & ->). assert (v' = v) as ->.
      { apply find_name_in in Ev. by apply (keys_unique facilities name). }
      destruct w, G, Hi. cbn in *. subst. by constructor.
    + exfalso. eapply fatal_not_go in E; done.
  - destruct Ha as (b & Hb & ->). cbv [err_set_program_name put_prog] in E. injection E as <-.
    assert (Eb : after_last_slash <$> name = b).
    { destruct name as [s|], b as [b|]; try done. cbn. f_equal. eapply basename_unique; [apply basename_ok|done]. }
    destruct w, G, Hi. cbn in *. subst. by constructor.
Qed.
Lemma log_inv w G g : log_history w G g -> linv w G g.
Proof. induction 1; [apply linv_start|]. by eapply step_inv. Qed.
