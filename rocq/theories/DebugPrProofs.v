(** Proofs for C92: the debugging output of pr.c. *)
From Verif Require Import Base CStr StackModel ObjModel MemModel ArgModel ArgSpec ArgProofs ArgHist ArgProps StrModel FlagModel LogModel LogSpec LogProofs DebugModel DebugSpec DebugFollow.
From Verif Require Import PrModel PrSpec PrProofs DebugPrModel DebugPrSpec.
From Coq Require Import String.
Notation length := List.length.
Local Open Scope Z_scope.

(** ** hexadecimal numbers *)
Lemma hex_digit_ok d : (d < 16)%N -> hexdigit (hex_digit d) (Z.of_N d).
Proof. intros Hd. unfold hexdigit, hex_digit. destruct (N.ltb_spec d 10); [left|right]; lia. Qed.
Lemma hex_loop_ok fuel : forall n, (0 < fuel)%nat -> (n < 16 ^ N.of_nat fuel)%N ->
  hexval (hex_loop fuel n) (Z.of_N n) /\ match hex_loop fuel n with [] => False | d :: ds => d = 48%N -> ds = [] end /\
  ((0 < n)%N -> hd_error (hex_loop fuel n) <> Some 48%N).
Proof.
  induction fuel as [|fuel IH]; intros n Hf Hn; [lia|]. cbn [hex_loop].
  assert (H0 : forall d, (0 < d < 16)%N -> hex_digit d <> 48%N) by (intros d Hd; unfold hex_digit; destruct (N.ltb_spec d 10); lia).
  destruct (N.ltb_spec n 16) as [Hlt|Hge].
  - rewrite N.mod_small by done. cbn [app]. split; [|split; [done|]].
    + replace (Z.of_N n) with (16 * 0 + Z.of_N n) by lia. apply (hv_snoc []); [constructor|by apply hex_digit_ok].
    + cbn [hd_error]. intros Hp [= E]. by apply (H0 n) in E.
  - destruct fuel as [|fuel]; [cbn in Hn; lia|].
    assert (Hq : (n / 16 < 16 ^ N.of_nat (S fuel))%N).
    { apply N.div_lt_upper_bound; [lia|]. rewrite <- N.pow_succ_r'. by replace (N.succ (N.of_nat (S fuel))) with (N.of_nat (S (S fuel))) by lia. }
    assert (Hpos : (0 < n / 16)%N) by (apply N.div_str_pos; lia).
    destruct (IH (n / 16)%N ltac:(lia) Hq) as (I1 & I2 & I3).
    pose proof (N.mod_lt n 16 ltac:(lia)). pose proof (N.div_mod n 16 ltac:(lia)).
    split; [|split].
    + replace (Z.of_N n) with (16 * Z.of_N (n / 16) + Z.of_N (n mod 16)) by lia. apply hv_snoc; [done|by apply hex_digit_ok].
    + destruct (hex_loop (S fuel) (n / 16)) as [|d ds]; [done|]. cbn [app]. intros ->. by specialize (I3 Hpos).
    + intros _. destruct (hex_loop (S fuel) (n / 16)) as [|d ds]; [done|]. cbn [app hd_error]. by apply I3.
Qed.
Lemma hex_ok z : - 2 ^ 31 <= z < 2 ^ 31 -> hexadecimal z (c_hex z).
Proof.
  intros Hz. unfold hexadecimal, c_hex. set (n := Z.to_N (z mod 2 ^ 32)).
  assert (Hn : Z.of_N n = if decide (z < 0) then z + 2 ^ 32 else z).
  { unfold n. rewrite Z2N.id by (apply Z.mod_pos_bound; lia). case_decide.
    - rewrite <- (Z.mod_add z 1 (2 ^ 32)) by lia. rewrite Z.mod_small; lia.
    - apply Z.mod_small. lia. }
  destruct (hex_loop_ok 8 n ltac:(lia)) as (H1 & H2 & _).
  - change (16 ^ N.of_nat 8)%N with 4294967296%N. revert Hn. case_decide; lia.
  - rewrite <- Hn. done.
Qed.
Lemma hex4_ok z : - 2 ^ 31 <= z < 2 ^ 31 -> hexadecimal4 z (c_hex4 z).
Proof. intros Hz. exists (c_hex z). split; [by apply hex_ok|done]. Qed.

(** the descriptor is registered with the process *)
Definition pid_of (w : prw) (fd pid : Z) : Prop := exists objs, p_objs w = Some objs /\ 0 <= fd /\ objs !! Z.to_nat fd = Some pid /\ pid <> 0.
Lemma close_pid w fd pid : pid_of w fd pid -> exists w', pr_close_nowait w fd = Ret (w', pid).
Proof.
  intros (objs & E & Hfd & Hp & Hn). unfold pr_close_nowait. rewrite E. destruct (Z.ltb_spec fd 0); [lia|]. rewrite (aget_Some _ _ _ Hp). cbn [mbind res_bind].
  destruct (Z.eqb_spec pid 0); [done|]. rewrite (obj_set_ok _ objs) by (try done; apply lookup_lt_Some in Hp; lia). cbn [mbind res_bind]. by eexists.
Qed.
Lemma nowait_keeps w fd w' p fd' pid : pr_close_nowait w fd = Ret (w', p) -> fd <> fd' -> pid_of w fd' pid -> pid_of w' fd' pid.
Proof.
  intros E Hne (objs & Eo & Hfd & Hp & Hn). unfold pr_close_nowait in E. rewrite Eo in E. destruct (Z.ltb_spec fd 0); [done|].
  destruct (aget objs (Z.to_nat fd)) as [q| | | |] eqn:Eq; try done. cbn [mbind res_bind] in E. destruct (q =? 0); [done|].
  rewrite (obj_set_ok _ objs) in E; [|done|unfold aget in Eq; destruct (objs !! Z.to_nat fd) eqn:El; [apply lookup_lt_Some in El; lia|done]].
  cbn [mbind res_bind] in E. injection E as <- _. exists (<[Z.to_nat fd := 0]> objs). split; [done|]. split; [done|]. split; [|done].
  rewrite list_lookup_insert_ne; [done|]. lia.
Qed.
Lemma write_keeps inn a s s' fd pid : rw_write inn a s = Ret s' -> inn <> fd -> pid_of (r_w s) fd pid -> pid_of (r_w s') fd pid.
Proof.
  intros E Hne Hp. unfold rw_write in E. destruct (r_inlen s =? 0); [by injection E as <-|]. destruct (_ || _); [done|].
  destruct a as [n| |]; [|by injection E as <-|done]. destruct (_ =? 0); [|by injection E as <-].
  destruct (pr_close_nowait (r_w s) inn) as [[w' p]| | | |] eqn:En; try done. cbn [mbind res_bind] in E. injection E as <-. by eapply nowait_keeps.
Qed.

Section pr.
Context (o : system) (on : bool) (fs : fstate) (t : Z) (Ht : dbg_test fs MAA_PR = Ret t) (Hon : (t =? 0) = negb on) (Ho : lets_write o).

Lemma pr_say m : does o on (say o fs MAA_PR (Ret m)) (Ret tt) [ToLog m].
Proof using Ht Hon Ho. apply (does_say o on fs MAA_PR t Ht Hon). exact Ho. Qed.
Lemma pr_perror {A} who (m : A) : does o on (w <- LogModel.get ; emit (EPrint Stderr (who ++ text ": " ++ strerr (o (ltr w)) ++ [10%N])) ;> ret m) (Ret m) [Perror who].
Proof using Type.
  intros w G g Hw Hg. rewrite bind_get. eexists (tr_app w _), G. split; [reflexivity|]. split; [by constructor|]. cbn [ltr tr_app]. apply told_perror, told_nil.
Qed.

(** ** waiting *)
Definition end_notes (who : list N) (pid en : Z) (ans : list wres) (r : Z) : list note :=
  match answer ans with
  | Some (WStatus _) => [ToLog (text "Child " ++ c_itoa pid ++ text " exited with status 0x" ++ c_hex4 r ++ [10%N])]
  | Some WOther => [ToLog (text "waitpid() < 0, errno = " ++ c_itoa en ++ [10%N]); Perror who]
  | _ => []
  end.
Lemma wait_loop_does pid en ans : doesP o on (wait_loop_d o fs pid en ans) (pr_wait ans) (fun x n => n = end_notes (text "pr_wait") pid en ans x.1).
Proof using Ht Hon Ho.
  induction ans as [|a ans IH]; [by apply P_fail|]. cbn [wait_loop_d pr_wait]. destruct a as [s| | |].
  - eapply P_seq; [apply pr_say|]. by apply P_ret.
  - exact IH.
  - by apply P_ret.
  - eapply P_seq; [apply pr_say|]. eapply does_P; [apply (pr_perror (text "pr_wait"))|]. intros x [= <-]. done.
Qed.
Lemma spawn_loop_does pid en ans : doesP o on (spawn_loop_d o fs pid en ans) (pr_wait ans) (fun x n => n = end_notes (text "pr_spawn") pid en ans x.1).
Proof using Ht Hon Ho.
  induction ans as [|a ans IH]; [by apply P_fail|]. cbn [spawn_loop_d pr_wait]. destruct a as [s| | |].
  - eapply P_seq; [apply pr_say|]. by apply P_ret.
  - exact IH.
  - by apply P_ret.
  - eapply P_seq; [apply pr_say|]. eapply does_P; [apply (pr_perror (text "pr_spawn"))|]. intros x [= <-]. done.
Qed.
Lemma wait_does pid en ans : doesP o on (pr_wait_d o fs pid en ans) (pr_wait ans) (fun x n => n = wait_notes (text "pr_wait") pid en ans x.1).
Proof using Ht Hon Ho.
  unfold pr_wait_d. eapply P_seq; [apply pr_say|]. eapply P_mono; [apply wait_loop_does|]. intros x n _ ->. done.
Qed.
Lemma close_does en w fd ans w1 pid : pr_close_nowait w fd = Ret (w1, pid) ->
  doesP o on (pr_close_d o fs en w fd ans) (pr_close w fd ans) (fun x n => n = wait_notes (text "pr_wait") pid en ans x.2).
Proof using Ht Hon Ho.
  intros E. unfold pr_close_d, pr_close. rewrite E. apply P_lift. intros [w2 p] [= <- <-]. cbn [fst snd].
  eapply P_bind; [apply wait_does|]. intros [r l] n1 _ ->. apply P_ret. by rewrite app_nil_r.
Qed.

(** ** starting a child *)
Lemma parent_does name pid create use fds fd w :
  doesP o on (parent_std_d o fs name pid create use fds fd w) (parent_std pid create use fds fd w) (fun x n => n =
    if create then match x.2 with Some f => [ToLog (name ++ text " = " ++ c_itoa f ++ text "; ")] | None => [] end
    else if use then match fd with Some f => if decide (f = 0) then [] else [ToLog (name ++ text " = " ++ c_itoa f ++ text "*; ")] | None => [] end
    else []).
Proof using Ht Hon Ho.
  unfold parent_std_d, parent_std. destruct create.
  - destruct fds as [[shut keep]|]; [|by apply P_fail]. destruct fd as [f|]; [|by apply P_fail].
    apply P_lift. intros w2 _. eapply P_seq; [apply pr_say|]. by apply P_ret.
  - destruct use; [|by apply P_ret]. destruct fd as [f|]; [|by apply P_ret]. destruct (Z.eqb_spec f 0) as [->|Hf]; cbn [negb].
    + apply P_ret. by rewrite decide_True.
    + eapply P_seq; [apply pr_say|]. apply P_lift. intros w1 _. apply P_ret. by rewrite decide_False.
Qed.
Lemma exec_first bl v w0 ws s rest : exec_words bl v = Ret (w0 :: ws) -> str_ok s ->
  execing bl v (s ++ 0%N :: rest) = Ret (text "Execing " ++ w0 ++ text " with """ ++ s ++ text """" ++ [10%N]).
Proof using Type.
  intros E Hs. destruct v as [|[[a|]|] v]; cbn [exec_words] in E; try discriminate E. destruct (hget bl a) as [b| | | |] eqn:Eb; try discriminate E. cbn [mbind res_bind] in E.
  destruct (c_string b) as [x| | | |] eqn:Ex; try discriminate E. cbn [mbind res_bind] in E. destruct (exec_words bl v) as [l| | | |]; try discriminate E.
  cbn [mbind res_bind] in E. injection E as -> ->. unfold execing. cbn [aget lookup list_lookup mbind res_bind SourceModel.str_at]. rewrite Eb. cbn [mbind res_bind].
  rewrite Ex. cbn [mbind res_bind]. rewrite c_string_spec by done. done.
Qed.
Lemma exec_none bl v s : exec_words bl v = Ret [] -> execing bl v s = UB.
Proof using Type.
  intros E. destruct v as [|[[a|]|] v]; cbn [exec_words] in E; try discriminate E; [|done].
  destruct (hget bl a) as [b| | | |]; try discriminate E. cbn [mbind res_bind] in E.
  destruct (c_string b) as [x| | | |]; try discriminate E. cbn [mbind res_bind] in E. by destruct (exec_words bl v).
Qed.
(** with debugging off the arguments of the message are not looked at *)
Lemma exec_say bl v ws s rest : exec_words bl v = Ret ws -> str_ok s -> (on = true -> ws <> []) ->
  does o on (say o fs MAA_PR (execing bl v (s ++ 0%N :: rest))) (Ret tt) [exec_note (List.hd [] ws) s].
Proof using Ht Hon Ho.
  intros E Hs Hw. destruct ws as [|w0 ws].
  - destruct on; [by destruct Hw|]. intros w G g Hl Hg. exists w, G. unfold say, bind, lift. rewrite Ht. cbn [mbind res_bind]. rewrite Hon. cbn [negb].
    split; [done|]. split; [done|]. eapply told_off; [done|eexists; by left|apply told_nil].
  - cbn [List.hd]. rewrite (exec_first _ _ w0 ws s rest E Hs). apply pr_say.
Qed.
Lemma open_does os w G s rest ws cb flags infd outfd errfd : arg_history (p_arg w) G -> aalloc_ok (o_arg os) ->
  str_ok s -> Z.of_nat (length s) + 3 < 2 ^ 30 -> ArgSpec.line true true s ws -> (on = true -> ws <> []) ->
  doesP o on (pr_open2_d o fs os w (s ++ 0%N :: rest) cb flags infd outfd errfd) (pr_open2 os w (s ++ 0%N :: rest) cb flags infd outfd errfd)
    (fun x n => n = open_notes flags (arg3 infd outfd errfd) x.2 (List.hd [] ws) s).
Proof using Ht Hon Ho.
  intros Ha Hal Hs Hl Hline Hne. unfold pr_open2_d, pr_open2. apply P_lift. intros wi Hi.
  assert (Ea : p_arg wi = p_arg w) by (unfold pr_init in Hi; destruct (p_objs w); [by injection Hi as <-|]; destruct (o_mem os); [by injection Hi as <-|done]).
  destruct (pr_flags_bad flags); [by apply P_fail|]. rewrite Ea.
  pose proof (command_ok (o_arg os) (p_arg w) G s rest ws Ha Hal Hs Hl Hline) as HC.
  apply P_lift. intros [aw p] E. rewrite E in HC. cbn [ok] in HC. destruct HC as (c & v & w'' & Ev & Ex & _). cbn [fst snd]. rewrite Ev.
  apply P_lift. intros [c' v'] [= <- <-]. cbn [fst snd]. 
  eapply P_seq; [by apply (exec_say _ _ ws s rest Ex Hs)|].
  apply P_lift. intros [w1 pin] _. cbn [fst snd]. apply P_lift. intros [w2 pout] _. cbn [fst snd]. apply P_lift. intros [w3 perr] _. cbn [fst snd].
  destruct (o_fork os <? 0); [by apply P_fail|]. apply P_lift. intros img _.
  destruct (has_flags flags) as (-> & -> & -> & -> & -> & -> & _).
  eapply P_bind; [apply parent_does|]. intros [w4 i1] n1 E1 ->. cbn [fst snd]. 
  eapply P_bind; [apply parent_does|]. intros [w5 i2] n2 E2 ->. cbn [fst snd].
  eapply P_bind; [apply parent_does|]. intros [w6 i3] n3 E3 ->. cbn [fst snd].
  eapply P_seq; [apply pr_say|]. apply P_lift. intros aw' _. apply P_ret. cbn [op_pid op_in op_out op_err snd].
  unfold open_notes, std_note, results. cbn [op_pid op_in op_out op_err]. done.
Qed.
Lemma spawn_does en os w G s rest ws ans : arg_history (p_arg w) G -> aalloc_ok (o_arg os) ->
  str_ok s -> Z.of_nat (length s) + 3 < 2 ^ 30 -> ArgSpec.line true true s ws -> (on = true -> ws <> []) ->
  doesP o on (pr_spawn_d o fs en os w (s ++ 0%N :: rest) ans) (pr_spawn os w (s ++ 0%N :: rest) ans)
    (fun x n => n = [exec_note (List.hd [] ws) s; pid_note (o_fork os)] ++ wait_notes (text "pr_spawn") (o_fork os) en ans x.1.2).
Proof using Ht Hon Ho.
  intros Ha Hal Hs Hl Hline Hne. unfold pr_spawn_d, pr_spawn. apply P_lift. intros wi Hi.
  assert (Ea : p_arg wi = p_arg w) by (unfold pr_init in Hi; destruct (p_objs w); [by injection Hi as <-|]; destruct (o_mem os); [by injection Hi as <-|done]).
  rewrite Ea. pose proof (command_ok (o_arg os) (p_arg w) G s rest ws Ha Hal Hs Hl Hline) as HC.
  apply P_lift. intros [aw p] E. rewrite E in HC. cbn [ok] in HC. destruct HC as (c & v & w'' & Ev & Ex & _). cbn [fst snd]. rewrite Ev.
  apply P_lift. intros [c' v'] [= <- <-]. cbn [fst snd]. 
  eapply P_seq; [by apply (exec_say _ _ ws s rest Ex Hs)|]. destruct (o_fork os <? 0); [by apply P_fail|]. apply P_lift. intros l _.
  eapply P_seq; [apply pr_say|]. apply P_lift. intros aw' _. eapply P_seq; [apply pr_say|].
  eapply P_bind; [apply spawn_loop_does|]. intros [r l'] n1 _ ->. apply P_ret. cbn [fst snd]. by rewrite app_nil_r.
Qed.

(** ** pr_readwrite *)
Lemma told_quiet ns tr G : on = false -> Forall (fun n => exists m, n = ToLog m \/ n = ToStdout m) ns -> told o on ns tr G tr G.
Proof using Type. intros E. induction 1; [apply told_nil|]. by apply told_off. Qed.
Lemma stdout_on m : on = true -> does o on (emit (EPrint LogModel.Stdout m)) (Ret tt) [ToStdout m].
Proof using Type. intros E w G g Hw Hg. exists (tr_app w [EPrint LogModel.Stdout m]), G. split; [done|]. split; [by constructor|]. apply told_stdout; [done|]. apply told_nil. Qed.
Lemma stdout_if (b : bool) m : on = true -> does o on (if b then emit (EPrint LogModel.Stdout m) else ret tt) (Ret tt) (if b then [ToStdout m] else []).
Proof using Type. intros E. destruct b; [by apply stdout_on|apply does_ret]. Qed.
Lemma quiet_if (b : bool) m : Forall (fun n => exists m, n = ToLog m \/ n = ToStdout m) (if b then [ToStdout m] else []).
Proof using Type. destruct b; [|constructor]. apply Forall_cons. split; [exists m; by right|constructor]. Qed.
Lemma select_does inn outt dt s : (on = true -> fd_set_ok inn = true) -> fd_set_ok outt = true ->
  does o on (show_select fs inn outt dt s) (Ret tt) (select_notes (r_inlen s) (r_outlen s) (r_room s) dt).
Proof using Ht Hon.
  intros Hi Hout. unfold show_select. rewrite Ht. apply does_pure. rewrite Hon. destruct on eqn:Eon; cbn [negb].
  - rewrite Hi, Hout by done. cbn [negb orb]. unfold select_notes. rewrite <- Eon.
    eapply does_seq; [by apply stdout_on|]. do 5 (eapply does_seq; [by apply stdout_if|]). by apply stdout_if.
  - rewrite <- Eon. intros w G g Hw Hg. exists w, G. split; [done|]. split; [done|]. apply told_quiet; [done|].
    unfold select_notes. do 6 (apply Forall_app; split; [first [apply quiet_if|apply (quiet_if true)]|]). apply quiet_if.
Qed.
Lemma write_does inn a s :
  doesP o on (rw_write_d o fs inn a s) (rw_write inn a s) (fun s' n => n = write_notes (r_inlen s) a /\
    r_inlen s' = todo_after (r_inlen s) a /\ r_outlen s' = r_outlen s /\ r_room s' = r_room s).
Proof using Ht Hon Ho.
  unfold rw_write_d, rw_write. destruct (Z.eqb_spec (r_inlen s) 0) as [E|Hn].
  { apply P_ret. unfold write_notes, todo_after. destruct a as [n| |]; rewrite ?decide_True by done; done. }
  destruct (_ || _); [by apply P_fail|]. destruct a as [n| |]; [|by apply P_ret|by apply P_fail].
  eapply P_seq; [apply pr_say|]. unfold write_notes, todo_after. rewrite !decide_False by done.
  destruct (r_inlen s - n =? 0).
  - apply P_lift. intros [w' pp] _. by apply P_ret.
  - by apply P_ret.
Qed.
Definition tail_notes (pid en : Z) (ans : list wres) (r : Z) : list note :=
  wait_notes (text "pr_wait") pid en ans r ++
  (if decide (r = 0) then [] else [Warns (Some (text "pr_readwrite")) (text "Filter had non-zero exit status: 0x" ++ c_hex r)]).
Lemma read_does en outt a ans s pid : pid_of (r_w s) outt pid ->
  doesP o on (rw_read_d o fs en outt a ans s) (rw_read outt a ans s) (fun x n =>
    match x with
    | inl s' => r_w s' = r_w s /\ r_inlen s' = r_inlen s /\
        match a with
        | Got bs => bs <> [] /\ n = [ToLog (text "  read " ++ c_itoa (Z.of_nat (length bs)) ++ [10%N])] /\
                    r_outlen s' = r_outlen s + Z.of_nat (length bs) /\ r_room s' = r_room s - Z.of_nat (length bs)
        | RAgain => n = [] /\ r_outlen s' = r_outlen s /\ r_room s' = r_room s
        | RErr => False
        end
    | inr e => a = Got [] /\ n = tail_notes pid en ans (e_status e)
    end).
Proof using Ht Hon Ho.
  intros Hp. destruct (close_pid _ _ _ Hp) as [w' Ec]. unfold rw_read_d, rw_read. destruct (r_room s <? 0); [by apply P_fail|].
  destruct a as [bs| |]; [|by apply P_ret|by apply P_fail]. destruct bs as [|b bs].
  - destruct (negb (r_inlen s =? 0)); [by apply P_fail|]. eapply P_bind; [by eapply close_does|]. intros [w2 r] n1 _ ->. cbn [fst snd].
    eapply (P_seq _ _ _ _ _ (if decide (r = 0) then [] else [Warns (Some (text "pr_readwrite")) (text "Filter had non-zero exit status: 0x" ++ c_hex r)])).
    + destruct (Z.eqb_spec r 0) as [->|Hr]; cbn [negb].
      * rewrite decide_True by done. apply does_ret.
      * rewrite decide_False by done. apply does_warn. exact Ho.
    + apply P_ret. cbn [e_status]. split; [done|]. rewrite app_nil_r. done.
  - apply P_lift. intros buf _. eapply P_seq; [apply pr_say|]. apply P_lift. intros ol E1. apply P_lift. intros rm E2.
    assert (Hi : forall z n, sint z = Ret n -> n = z) by (intros z n; unfold sint; destruct (int_range z); [by intros [= <-]|done]).
    apply Hi in E1 as ->. apply Hi in E2 as ->. destruct (r_room s - Z.of_nat _ <? 0); [by apply P_fail|]. apply P_ret. cbn [r_w r_inlen r_outlen r_room].
    split; [done|]. split; [done|]. split; [done|]. done.
Qed.
Lemma loop_does en inn outt ans pid : inn <> outt -> (on = true -> fd_set_ok inn = true) -> forall sched s, pid_of (r_w s) outt pid ->
  doesP o on (rw_loop_d o fs en inn outt ans sched s) (rw_loop inn outt ans (map d_turn sched) s) (fun e n =>
    n = loop_notes (r_inlen s) (r_outlen s) (r_room s) sched ++ tail_notes pid en ans (e_status e)).
Proof using Ht Hon Ho.
  intros Hne Hin sched. induction sched as [|tn sched IH]; intros s Hp; [by apply P_fail|]. cbn [rw_loop_d map rw_loop].
  eapply (P_bind _ _ _ _ _ _ (fun x n => match x with
    | inl s' => pid_of (r_w s') outt pid /\ forall k, loop_notes (r_inlen s) (r_outlen s) (r_room s) (tn :: sched) ++ k = n ++ loop_notes (r_inlen s') (r_outlen s') (r_room s') sched ++ k
    | inr e => n = loop_notes (r_inlen s) (r_outlen s) (r_room s) (tn :: sched) ++ tail_notes pid en ans (e_status e)
    end)).
  - unfold rw_turn_d, rw_turn. destruct (fd_set_ok outt) eqn:Eo; cbn [negb]; [|by apply P_fail].
    destruct (_ && _); [by apply P_fail|]. destruct (t_sel (d_turn tn)); cbn [negb]; [|by apply P_fail].
    eapply P_seq; [by apply select_does|]. eapply P_bind; [apply write_does|]. intros s1 n1 E1 (-> & W1 & W2 & W3).
    eapply P_mono; [eapply read_does; by eapply write_keeps|]. intros [s'|e] n E2.
    + intros (R1 & R2 & R3). split; [rewrite R1; by eapply write_keeps|]. intros k. cbn [loop_notes]. rewrite <- !app_assoc. rewrite R2, W1. 
      destruct (t_r (d_turn tn)) as [[|b bs]| |]; [by destruct R3| | |done].
      * destruct R3 as (_ & -> & -> & ->). rewrite W2, W3. done.
      * destruct R3 as (-> & -> & ->). by rewrite W2, W3.
    + intros [Ea ->]. cbn [loop_notes]. rewrite Ea, app_nil_r. by rewrite <- !app_assoc.
  - intros [s'|e] n1 E1.
    + intros [Hp' Hk]. eapply P_mono; [by apply IH|]. intros e n _ ->. by rewrite Hk.
    + intros ->. apply P_ret. by rewrite app_nil_r.
Qed.
Lemma readwrite_does en w inn outt inb inlen outb room sched ans pid : inn <> outt -> (on = true -> fd_set_ok inn = true) -> pid_of w outt pid ->
  doesP o on (pr_readwrite_d o fs en w inn outt inb inlen outb room sched ans) (pr_readwrite w inn outt inb inlen outb room (map d_turn sched) ans)
    (fun e n => n = rw_notes inlen room sched pid en ans (e_status e)).
Proof using Ht Hon Ho.
  intros Hne Hin Hp. unfold pr_readwrite_d, pr_readwrite. destruct (p_tab w !! inn); [|by apply P_fail]. destruct (p_tab w !! outt); [|by apply P_fail].
  apply P_lift. intros _ _. eapply P_mono; [by apply (loop_does en inn outt ans pid Hne Hin sched (RW w inb inlen outb 0 room []))|]. intros e1 n _ ->. done.
Qed.
End pr.
