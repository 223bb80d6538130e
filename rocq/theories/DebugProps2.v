(** Property C91: the debugging output of source.c (flag MAA_SRC).
    DebugSrcModel.v has the functions of source.c with their debugging output, SourceModel.v without.
    [does] (DebugSpec.v): from every state of the log, the call ends as without debugging and says the
    notes listed, those for debugging only if the flag is on. *)
From Verif Require Import Base CStr StackModel ObjModel MemModel PrimeModel HashModel HashFnModel HashFnProofs StrModel ArgModel PrsModel.
From Verif Require Import FlagModel FlagSpec FlagHist FlagProps LogModel LogSpec LogProofs LogProps DebugModel DebugSpec DebugFollow SourceModel DebugSrcModel.
From Verif Require Import StrHist SourceMsg ArgSpec ArgProps PrsSpec SourceSpec SourceProofs SourceHist SourceProps DebugSrcProofs.
From Verif Require Import Alloc.
From Coq Require Import String.
Notation length := List.length.
Local Open Scope Z_scope.

(** MAA_SRC is bit 24 of set 3 *)
Lemma src_flag fs l ev : flag_history true fs l ev -> exists t, dbg_test fs MAA_SRC = Ret t /\ (t =? 0) = negb (lit ev 3 24).
Proof.
  intros Hh. destruct (C43_test true fs l ev MAA_SRC Hh eq_refl) as (r & E & _ & Hr). exists r. split; [done|].
  change (seen MAA_SRC) with 3%N in Hr.
  destruct (lit ev 3 24) eqn:El; cbn [negb].
  - assert (r <> 0) by (apply Hr; exists 24%N; done). lia.
  - destruct (Z.eqb_spec r 0) as [|Hn]; [done|]. apply Hr in Hn as (i & Hi & Hb & Hl). exfalso.
    assert (i = 24%N) as -> by (revert Hb; clear -Hi; unfold MAA_SRC, MaaModel.MAA_SRC; intros Hb;
      rewrite N.lor_spec, N.shiftl_1_l, N.pow2_bits_eqb, N.shiftl_spec_low in Hb by done; cbn [orb] in Hb; by apply N.eqb_eq in Hb as <-).
    congruence.
Qed.

(** src_line: the message has the number of lines stored before and the line, with blanks for tabs *)
Theorem C91_line o fs l ev al w G R g s rest len : flag_history true fs l ev -> lets_write o -> src_history w G R g -> salloc_ok al -> str_ok s ->
  Z.of_nat (length s) <= len < Z.of_nat (length (s ++ 0%N :: rest)) -> line_room (created g) len ->
  exists d, decimal (Z.of_nat (g_before g + length (g_lines g))) d /\
    does o (lit ev 3 24) (src_line_d o fs al w (s ++ 0%N :: rest) len) (src_line al w (s ++ 0%N :: rest) len)
      [ToLog (text "Line " ++ d ++ text ": " ++ tabless s)].
Proof.
  intros Hh Ho H Hal Hs Hlen Hr. destruct (src_flag fs l ev Hh) as (t & Ht & Hon). pose proof (history_inv _ _ _ _ H) as I.
  destruct (history_tidy _ _ _ _ H) as (_ & Hu & _). exists (c_itoa (v_used w)). rewrite <- (n_used _ _ _ _ I).
  split; [apply itoa_decimal; unfold is_int; lia|].
  eapply P_does; [apply (line_does o (lit ev 3 24) fs t Ht Hon Ho); lia|].
  intros [w' p] n E (tx & -> & Htx). pose proof (C51_line al w G R g s rest len H Hal Hs Hlen Hr) as HL. rewrite E in HL.
  destruct HL as (_ & (r & Hb) & _). unfold str_at in Htx. rewrite (hget_Some _ _ _ Hb) in Htx. cbn [mbind res_bind] in Htx.
  rewrite c_string_spec in Htx by (by apply tabless_ok). by injection Htx as <-.
Qed.
(** src_cpp_line: the line number, and the file name if there is one *)
Theorem C91_cpp_line o fs l ev al w G R g src n s v0 v1 vs : flag_history true fs l ev -> lets_write o -> src_history w G R g -> salloc_ok al ->
  first_bytes src n s -> str_ok s -> Z.of_nat (length s) + 3 < 2 ^ 30 -> line true true s (v0 :: v1 :: vs) ->
  does o (lit ev 3 24) (src_cpp_line_d o fs al w src n) (src_cpp_line al w src n)
    [ToLog (text "lineno " ++ v1 ++ match vs with [] => [] | v2 :: _ => text " in " ++ v2 end ++ [10%N])].
Proof.
  intros Hh Ho H Hal Hf Hs Hl Hline. destruct (src_flag fs l ev Hh) as (t & Ht & Hon). pose proof (history_inv _ _ _ _ H) as I.
  pose proof (cpp_does o (lit ev 3 24) fs t Ht Hon Ho al w G R g src n s _ I Hal Hf Hs Hl Hline) as Hd. destruct vs as [|v2 vs]; [exact Hd|].
  rewrite <- !app_assoc. exact Hd.
Qed.
(** src_get prints the token on stdout: file, line, offset, length and the index of the line stored last *)
Theorem C91_get o fs l ev al w G R g n f : flag_history true fs l ev -> lets_write o -> src_history w G R g -> g_file g = Some f -> is_int n ->
  exists dl doff dn di, decimal (g_line g) dl /\ decimal (g_offset g) doff /\ decimal n dn /\
    decimal (Z.max 0 (Z.of_nat (g_before g + length (g_lines g)) - 1)) di /\
    does o (lit ev 3 24) (src_get_d fs al w n) (src_get al w n)
      [ToStdout (f ++ text ":" ++ dl ++ text " @ " ++ doff ++ text ", " ++ dn ++ text "; " ++ di ++ [10%N])].
Proof.
  intros Hh Ho H Hf Hn. destruct (src_flag fs l ev Hh) as (t & Ht & Hon). pose proof (history_inv _ _ _ _ H) as I.
  destruct (history_tidy _ _ _ _ H) as (Hi & Hu & Hoff & _). destruct (history_ints _ _ _ _ H) as [Hgl _].
  exists (c_itoa (g_line g)), (c_itoa (g_offset g)), (c_itoa n), (c_itoa (t_index (v_info w))).
  rewrite <- (n_used _ _ _ _ I), <- (n_offset _ _ _ _ I), <- Hi.
  split; [by apply itoa_decimal|]. split; [by apply itoa_decimal|]. split; [by apply itoa_decimal|].
  split; [apply itoa_decimal; unfold is_int; lia|]. rewrite <- (n_line _ _ _ _ I). apply (get_does o (lit ev 3 24) fs t Ht Hon).
  pose proof (n_file _ _ _ _ I) as Hfile. rewrite Hf in Hfile.
  destruct (file_read _ _ _ _ (lineage _ _ _ _ I) Hfile) as (b & r & E & Hs & Hb). rewrite E. unfold str_at.
  rewrite (hget_Some _ _ _ Hb). cbn [mbind res_bind]. by rewrite c_string_spec.
Qed.
(** before a file is named, the name is NULL: with the flag on printf is given NULL for %s, which is
    undefined; with the flag off the call is as ever *)
Theorem C91_get_unnamed o fs l ev al w G R g n : flag_history true fs l ev -> src_history w G R g -> g_file g = None ->
  if lit ev 3 24 then forall lw w' a, src_get al w n = Ret (w', a) -> src_get_d fs al w n lw = UB
  else does o false (src_get_d fs al w n) (src_get al w n) [].
Proof.
  intros Hh H Hf. destruct (src_flag fs l ev Hh) as (t & Ht & Hon). pose proof (history_inv _ _ _ _ H) as I.
  pose proof (n_file _ _ _ _ I) as Hfile. rewrite Hf in Hfile. cbn [file_ok] in Hfile. destruct (lit ev 3 24).
  - intros lw w' a E. unfold src_get in E. unfold src_get_d. destruct (v_lines w) as [v|]; [|done].
    destruct (heap_of (v_tokens w)) as [j| | | |]; try done. cbn [mbind res_bind] in E. unfold bind, lift. cbn [mbind res_bind].
    destruct (mem_get_object (sa_obj al) (w_tok w) j) as [[ow b]| | | |]; try done. cbn [mbind res_bind fst snd] in *.
    destruct (hget (oblk ow) b) as [x| | | |]; try done. cbn [mbind res_bind] in *. cbn [t_file]. rewrite Hfile.
    rewrite (stdout_UB true fs MAA_SRC t Ht Hon); done.
  - eapply P_does; [|intros a n0 _ Hn0; exact Hn0]. unfold src_get_d, src_get. destruct (v_lines w) as [v|]; [|by apply P_fail].
    apply P_lift. intros j _. apply P_lift. intros [ob a] _. cbn [fst snd]. apply P_lift. intros b _.
    eapply (P_seq _ _ _ _ _ []); [|apply P_lift; intros s2 _; by apply P_ret].
    intros lw G' g' Hw Hg. exists lw, G'. unfold say_stdout, bind, lift. rewrite Ht. cbn [mbind res_bind]. rewrite Hon. cbn [negb].
    split; [done|]. split; [done|]. apply told_nil.
Qed.
(** Errors: the text printed on the stream is the one without debugging; the message goes to the log *)
Theorem C91_parse_error o fs l ev w G R g st st' a t f tx s rest m : flag_history true fs l ev -> lets_write o -> src_history w G R g ->
  g_toks g !! a = Some t -> k_file t = Some f -> k_text t = Some tx -> str_ok s -> massage R s m ->
  exists ns w' x b doff dlen, src_parse_error w st' (Some a) (Some (s ++ 0%N :: rest)) = Ret (w', (x, b)) /\
    does o (lit ev 3 24) (src_parse_error_d o fs w st (Some a) (Some (s ++ 0%N :: rest))) (Ret w') ns /\
    printed (default LogModel.Stdout st) ns = b /\ decimal (k_offset t) doff /\ decimal (k_length t) dlen /\
    logged ns = [text "s->offset = " ++ doff ++ text ", fudge = 0, s->length = " ++ dlen ++ [10%N]].
Proof.
  intros Hh Ho H Ha Hf Hl Hs Hm. destruct (src_flag fs l ev Hh) as (tt & Ht & Hon). pose proof (history_inv _ _ _ _ H) as I.
  destruct (history_tidy _ _ _ _ H) as (_ & _ & _ & Htok). destruct (Htok a t Ha) as [Hoff Hlen].
  destruct (C66_parse_error w G R g st' a t f tx s rest m H Ha Hf Hl Hs Hm) as (w' & d & Hd & Hw' & E).
  pose proof E as E0. unfold src_parse_error in E. rewrite (head_ok w G R g a t f I Ha Hf) in E. cbn [mbind res_bind] in E.
  destruct (print_yyerror (w_prs w) (Some (s ++ 0%N :: rest))) as [[p' m']| | | |] eqn:Ey; try done. cbn [mbind res_bind] in E.
  destruct (print_error (set_prs w p') (Some a)) as [e| | | |] eqn:Ee; try done. cbn [mbind res_bind] in E. injection E as <- Eb.
  pose proof (history_inv _ _ _ _ Hw') as I'.
  eexists _, (set_prs w p'), _, _, (c_itoa (k_offset t)), (c_itoa (k_length t)). split; [exact E0|].
  split; [exact (parse_does o (lit ev 3 24) fs tt Ht Hon Ho w G R g st a t f tx (Some (s ++ 0%N :: rest)) p' m' I Ha Hf Hl Ey I')|].
  split; [|split; [by apply itoa_decimal|split; [by apply itoa_decimal|]]].
  - rewrite printed_app, error_printed. cbn [printed]. rewrite !decide_True, !app_nil_r by done.
    rewrite (print_error_ok _ G R g a t f tx I' Ha Hf Hl) in Ee. injection Ee as <-. etrans; [|exact Eb]. by rewrite <- !app_assoc.
  - rewrite logged_app, error_logged. done.
Qed.
Theorem C91_print_error o fs l ev w G R g st n a t f tx formatted : flag_history true fs l ev -> lets_write o -> src_history w G R g ->
  g_toks g !! a = Some t -> k_file t = Some f -> k_text t = Some tx ->
  exists ns x b doff dlen, src_print_error w (Some n) (Some a) formatted = Ret (x, b) /\
    does o (lit ev 3 24) (src_print_error_d o fs w (Some st) (Some a) formatted) (Ret ()) (Flushes st :: ns) /\
    printed st ns = b /\ decimal (k_offset t) doff /\ decimal (k_length t) dlen /\
    logged ns = [text "s->offset = " ++ doff ++ text ", fudge = 0, s->length = " ++ dlen ++ [10%N]].
Proof.
  intros Hh Ho H Ha Hf Hl. destruct (src_flag fs l ev Hh) as (tt & Ht & Hon). pose proof (history_inv _ _ _ _ H) as I.
  destruct (history_tidy _ _ _ _ H) as (_ & _ & _ & Htok). destruct (Htok a t Ha) as [Hoff Hlen].
  pose proof (print_does o (lit ev 3 24) fs tt Ht Hon Ho w G R g st a t f tx formatted I Ha Hf Hl) as Hd.
  unfold src_print_error. rewrite (head_ok w G R g a t f I Ha Hf), (print_error_ok _ G R g a t f tx I Ha Hf Hl). cbn [mbind res_bind].
  exists (match formatted with None => [] | Some m => [Prints st (place f (c_itoa (k_line t))); Prints st m; Prints st [10%N]] end ++
     error_notes st f (c_itoa (k_line t)) tx (c_itoa (k_offset t)) (c_itoa (k_length t)) t).
  destruct formatted as [m|]; (eexists _, _, (c_itoa (k_offset t)), (c_itoa (k_length t)); split; [reflexivity|]; split; [exact Hd|]);
  (split; [|split; [by apply itoa_decimal|split; [by apply itoa_decimal|]]]); rewrite ?printed_app, ?logged_app, ?error_printed, ?error_logged; try done.
  cbn [printed]. rewrite !decide_True, !app_nil_r by done. by rewrite <- !app_assoc.
Qed.
(** without a source there is no message *)
Theorem C91_null o fs l ev w G R g st st' s rest m : flag_history true fs l ev -> src_history w G R g -> str_ok s -> massage R s m ->
  exists ns w' x b, src_parse_error w st' None (Some (s ++ 0%N :: rest)) = Ret (w', (x, b)) /\
    does o (lit ev 3 24) (src_parse_error_d o fs w st None (Some (s ++ 0%N :: rest))) (Ret w') ns /\
    printed (default LogModel.Stdout st) ns = b /\ logged ns = [].
Proof.
  intros Hh H Hs Hm. destruct (C66_parse_error_null w G R g st' s rest m H Hs Hm) as (w' & Hw' & E).
  pose proof E as E0. unfold src_parse_error in E. cbn [SourceModel.head mbind res_bind] in E.
  destruct (print_yyerror (w_prs w) (Some (s ++ 0%N :: rest))) as [[p' m']| | | |] eqn:Ey; try done. cbn [mbind res_bind] in E. 
  injection E as <- Eb. apply app_inv_tail in Eb as ->.
  eexists _, (set_prs w p'), _, _. split; [exact E0|]. split; [exact (parse_null_does o (lit ev 3 24) fs w st _ p' m Ey)|].
  split; [|done]. cbn [app printed]. rewrite !decide_True, !app_nil_r by done. by rewrite <- !app_assoc.
Qed.
Print Assumptions C91_line.
Print Assumptions C91_cpp_line.
Print Assumptions C91_get.
Print Assumptions C91_get_unnamed.
Print Assumptions C91_parse_error.
Print Assumptions C91_print_error.
Print Assumptions C91_null.

(** ** Examples *)
(** the time advances with each event *)
Definition ex_sys : system := fun tr => os_at (50 + Z.of_nat (length tr)).
Example C91_lets_write : lets_write ex_sys.
Proof.
  intros tr G. unfold can_write. destruct (s_file G) as [[[fd name] fmt]|]; [|exact I]. unfold ex_sys. split.
  - unfold expansion. cbn [os_at strf LogModel.t_file]. rewrite app_length. destruct (_ <? 100); cbn; lia.
  - right. split; [done|]. cbn [os_at open_r]. destruct (decide _); by eexists.
Qed.
Definition ex_flag : fstate := getr (dbg_set_flag fempty MAA_SRC) fempty.
Example C91_flag : flag_history true ex_flag None [ESet MAA_SRC] /\ lit [ESet MAA_SRC] 3 24 = true.
Proof.
  destruct (C43_set_flag fempty None [] 3 24 (fh_start true) eq_refl eq_refl) as (s & E & Hh & _). split; [|reflexivity].
  assert (ex_flag = s) as -> by (unfold ex_flag; change MAA_SRC with (fl 3 24); rewrite E; reflexivity). exact Hh.
Qed.
(** the hypotheses of the theorems: a file, a line, two tokens; a log with two sinks *)
Example C91_reachable : (exists G g, src_history ex_w3 G [] g /\ g_file g = Some (text "f.c") /\ g_exists g = true) /\
  (exists G g, src_history ex_r6.1 G [] g /\ g_toks g !! 2%positive = Some (GTok (Some (text "f.c")) 7 2 1 (Some (tabless ex_text)))) /\
  src_history src_start ∅ [] g_start /\ g_file g_start = None /\ log_used LogProps.ex4 exG 0 /\ small 0.
Proof.
  split.
  { pose proof (C50_file ex_sal src_start ∅ [] g_start [102; 46; 99]%N [] 0 (rtc_refl _ _) (proj1 ex_sal_ok) ex_fc ex_name) as H1.
    rewrite ex_step1 in H1. destruct H1 as (G1 & H1 & _).
    destruct (C50_place ex_w1 G1 [] _ 6 0 0 H1 ltac:(unfold is_int; lia)) as (H2 & _).
    pose proof (C51_line ex_sal ex_w2 G1 [] _ ex_text [] 6 H2 (proj1 ex_sal_ok) ex_text_ok ltac:(cbn; lia)) as H3.
    rewrite ex_step3 in H3. destruct H3 as (H3 & _); [unfold line_room, is_int; cbn; lia|]. eexists _, _. split; [exact H3|]. split; reflexivity. }
  split; [destruct C50_reachable as (G & g & H & _ & H2); by exists G, g|].
  split; [apply rtc_refl|]. split; [done|]. split; [exact (history_used _ _ _ C52_example_history)|unfold small; lia].
Qed.
(** a line, a token and an error with debugging: what happens on the log file, on the stream of the log
    and on stdout *)
Definition events {A} (m : M A) (w : lstate) : list event := match m w with Ret (w', Go _) => drop (length (ltr w)) (ltr w') | _ => [] end.
Definition ex_log : lstate := run_st (os_at 50) (COpenFile (bytes "me") fmt0) lstart.
Definition stamp : list N := bytes "Thu Jan  1 00:00:00 1970 box me[7]: ".
Example C91_run :
  events (src_line_d ex_sys ex_flag ex_sal ex_w2 (ex_text ++ [0%N]) 6 ;> src_get_d ex_flag ex_sal ex_w3 1 ;>
          src_parse_error_d ex_sys ex_flag ex_w6 None (Some 2%positive) (Some (ex_msg ++ [0%N]))) ex_log =
  let l1 := stamp ++ text "Line 0: x + y" ++ [10; 10]%N in
  let l2 := stamp ++ text "s->offset = 2, fudge = 0, s->length = 1" ++ [10; 10]%N in
  [EWrite 3 l1 None; EWrite 3 l1 (Some 10%nat);
   EPrint LogModel.Stdout (text "f.c:7 @ 0, 1; 0" ++ [10%N]);
   EPrint LogModel.Stdout (text "f.c:7: "); EPrint LogModel.Stdout (text "bad `+' or `T_B' `('"); EPrint LogModel.Stdout [10%N];
   EPrint LogModel.Stdout (text "f.c:7: x + y" ++ [10%N]);
   EWrite 3 l2 None; EWrite 3 l2 (Some 10%nat);
   EPrint LogModel.Stdout (text "f.c:7: "); EPrint LogModel.Stdout [32%N]; EPrint LogModel.Stdout [32%N]; EPrint LogModel.Stdout [94%N];
   EPrint LogModel.Stdout [10%N]].
Proof. vm_compute. reflexivity. Qed.
(** before a file is named *)
Example C91_run_unnamed : src_get_d ex_flag ex_sal ex_e1 1 lstart = UB /\ events (src_get_d fempty ex_sal ex_e1 1) lstart = [] /\ 
  match src_get_d fempty ex_sal ex_e1 1 lstart with Ret _ => True | _ => False end.
Proof. vm_compute. auto. Qed.
