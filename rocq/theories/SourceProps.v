(** Properties C50, C51, C66-C71: source.c.  [w] is any state reached by any history of source,
    string and concrete-name calls (SourceSpec.v); [g] the view of the user: the current
    place, the lines and tokens stored; [R] the concrete names registered, [G] the string
    pools. *)
From Verif Require Import Base ListLemmas CStr StackModel StackProofs ObjModel ObjProofs MemModel MemProofs MemHist PrimeModel HashModel HashFnModel HashFnProofs.
From Verif Require ArgHist.
From Verif Require Import StrModel StrProofs StrHist ArgModel ArgSpec ArgProofs ArgProps PrsModel PrsSpec PrsProofs SourceModel SourceSpec SourceProofs SourceHist SourceMsg.
From Verif Require Import Alloc.
From Verif Require StrProps.
From Coq Require Import String.
Notation length := List.length.
Local Open Scope Z_scope.

Lemma src_step w G R g w' G' R' g' : src_history w G R g -> src_call (w, G, R, g) (w', G', R', g') -> src_history w' G' R' g'.
Proof. intros H Hc. eapply rtc_r; [exact H|exact Hc]. Qed.

(** ** C50 *)
(** src_get gives a new token for the place the user is at, or runs out of memory *)
Theorem C50_get al w G R g n : src_history w G R g -> g_exists g = true -> salloc_ok al -> token_room g n -> is_int n ->
  ok (fun '(w', a) => g_toks g !! a = None /\ src_history w' G R (took g a n) /\ shown w' a (here g n)) (src_fail al) (src_get al w n).
Proof.
  intros H Hex Hal Hr Hn. pose proof (history_inv _ _ _ _ H) as I.
  pose proof (get_inv al w G R g n I Hal (proj2 (exists_lines _ _ _ _ I) Hex) Hr) as Hg.
  destruct (src_get al w n) as [[w' a]| | | |] eqn:E; cbn [ok] in Hg |- *; try done. destruct Hg as (I' & Ha & _).
  split; [done|]. split; [eapply src_step; [exact H|by eapply sc_get]|]. eapply shown_ok; [exact I'|]. cbn [took g_toks]. apply lookup_insert.
Qed.
(** a token says what it said when it was made, whatever calls were made since, until the
    manager is destroyed *)
Theorem C50_token w G R g w' G' R' g' a t : src_history w G R g -> g_toks g !! a = Some t ->
  src_while (w, G, R, g) (w', G', R', g') -> src_history w' G' R' g' /\ g_toks g' !! a = Some t /\ shown w' a t.
Proof.
  intros H Ha Hw. remember (w, G, R, g) as x eqn:Ex. remember (w', G', R', g') as y eqn:Ey.
  revert w G R g H Ha Ex. induction Hw as [x|x [[[w1 G1] R1] g1] z [Hc Hx] _ IH]; intros w G R g H Ha ->.
  - injection Ey as -> -> -> ->. split; [done|]. split; [done|]. eapply shown_ok; [by eapply history_inv|done].
  - cbn [snd] in Hx. pose proof (history_inv _ _ _ _ H) as I. eapply (IH Ey); [by eapply src_step| |done].
    eapply call_keeps; [exact I|exact Hc|done|exact Ha|].
    pose proof (n_mem _ _ _ _ I) as Hm. destruct (v_lines w) as [v|]; [by destruct Hm as (? & ? & ? & ? & [])|].
    rewrite (d_toks _ _ Hm), lookup_empty in Ha. done.
Qed.
(** the line stored last is the text of the next token; its line number is one more than
    before and its offset is 0.  Further tokens begin where the one before ends. *)
Theorem C50_line_get al al1 al2 w G R g s rest len w1 p n1 w2 a1 n2 w3 a2 : src_history w G R g ->
  salloc_ok al -> salloc_ok al1 -> salloc_ok al2 ->
  str_ok s -> Z.of_nat (length s) <= len < Z.of_nat (length (s ++ 0%N :: rest)) -> line_room (created g) len ->
  is_int n1 -> is_int n2 -> is_int (n1 + n2) -> Z.of_nat (size (g_toks (created g))) + 2 < 2 ^ 31 ->
  src_line al w (s ++ 0%N :: rest) len = Ret (w1, p) -> src_get al1 w1 n1 = Ret (w2, a1) -> src_get al2 w2 n2 = Ret (w3, a2) ->
  spells (mblk (w_text w1)) p (tabless s) /\ a1 <> a2 /\
  shown w3 a1 (GTok (g_file g) (g_line g + 1) 0 n1 (Some (tabless s))) /\
  shown w3 a2 (GTok (g_file g) (g_line g + 1) n1 n2 (Some (tabless s))).
Proof.
  intros H Ha0 Ha1 Ha2 Hs Hlen Hr Hn1 Hn2 Hn3 Hsz E0 E1 E2. pose proof (history_inv _ _ _ _ H) as I.
  pose proof (line_any al w G R g s rest len I Ha0 Hs Hlen Hr) as Hl. rewrite E0 in Hl. destruct Hl as (I1 & _ & Hsp & _).
  assert (H1 : src_history w1 G R (lined g (tabless s) len)) by (eapply src_step; [exact H|by eapply (sc_line al)]).
  assert (Hcr : g_file (created g) = g_file g /\ g_line (created g) = g_line g) by (unfold created; by destruct (g_exists g)). destruct Hcr as [Hcf Hcl].
  pose proof (C50_get al1 w1 G R _ n1 H1 ltac:(done) Ha1) as Hg1. rewrite E1 in Hg1. cbn [lined token_room g_toks g_offset ok] in Hg1.
  destruct (Hg1 ltac:(split; [cbn [lined g_toks]; lia|done]) Hn1) as (Hna & H2 & _). clear Hg1.
  assert (Hsz2 : size (g_toks (took (lined g (tabless s) len) a1 n1)) = S (size (g_toks (created g)))) by (cbn [took g_toks]; by rewrite map_size_insert_None).
  pose proof (C50_get al2 w2 G R _ n2 H2 ltac:(done) Ha2) as Hg2. rewrite E2 in Hg2. cbn [ok] in Hg2.
  destruct (Hg2 ltac:(split; [rewrite Hsz2; lia|done]) Hn2) as (Hnb & H3 & Hs2).
  split; [done|]. split; [intros ->; cbn [took g_toks] in Hnb; by rewrite lookup_insert in Hnb|].
  assert (Hne : a1 <> a2) by (intros ->; cbn [took g_toks] in Hnb; by rewrite lookup_insert in Hnb).
  assert (Hh : here (lined g (tabless s) len) n1 = GTok (g_file g) (g_line g + 1) 0 n1 (Some (tabless s))).
  { unfold here. cbn [lined g_file g_line g_offset g_lines]. rewrite last_snoc. by rewrite Hcf, Hcl. }
  assert (Hh2 : here (took (lined g (tabless s) len) a1 n1) n2 = GTok (g_file g) (g_line g + 1) n1 n2 (Some (tabless s))).
  { unfold here. cbn [took lined g_file g_line g_offset g_lines]. rewrite last_snoc. rewrite Hcf, Hcl. by rewrite Z.add_0_l. }
  rewrite <- Hh2. split; [|done]. rewrite <- Hh.
  eapply (shown_ok w3 G R _ a1 _ (history_inv _ _ _ _ H3)). cbn [took g_toks].
  rewrite lookup_insert_ne by done. apply lookup_insert.
Qed.
(** the line number, the file and the offset can be set; they appear in the next token *)
Theorem C50_place w G R g l n d : src_history w G R g -> is_int l ->
  src_history (src_new_line w l) G R (numbered g l) /\ here (numbered g l) n = GTok (g_file g) l (g_offset g) n (last (g_lines g)) /\
  (is_int (g_offset g + d) -> exists w', src_advance w d = Ret w' /\ src_history w' G R (advanced g d)) /\
  here (advanced g d) n = GTok (g_file g) (g_line g) (g_offset g + d) n (last (g_lines g)).
Proof.
  intros H Hl. split; [eapply src_step; [exact H|by constructor]|]. split; [done|]. split; [|done]. intros Hd.
  assert (E : exists w', src_advance w d = Ret w').
  { unfold src_advance. rewrite (n_offset _ _ _ _ (history_inv _ _ _ _ H)), (sint_in (g_offset g + d)) by done. rb. eauto. }
  destruct E as [w' E]. exists w'. split; [done|]. eapply src_step; [exact H|by constructor].
Qed.
Theorem C50_file al w G R g s rest n : src_history w G R g -> salloc_ok al -> str_ok s -> name_room (rw (w_prs w)) G s ->
  match src_new_file al w (s ++ 0%N :: rest) with
  | Ret w' => exists G', src_history w' G' R (named_file g s) /\ here (named_file g s) n = GTok (Some s) (g_line g) (g_offset g) n (last (g_lines g))
  | Fatal => gfail (sa_str al)
  | _ => False
  end.
Proof.
  intros H Hal Hs Hr. pose proof (history_inv _ _ _ _ H) as I. destruct (src_new_file al w (s ++ 0%N :: rest)) as [w'| | | |] eqn:E; try done.
  2,3,4,5: unfold src_new_file in E; pose proof (gfind_ok (sa_str al) _ G s rest (lineage _ _ _ _ I) (sal_str _ Hal) Hs Hr) as Hf;
    by destruct (str_find (sa_str al) (rw (w_prs w)) (s ++ 0%N :: rest)) as [[w1 a]| | | |].
  pose proof E as E0. unfold src_new_file in E. pose proof (gfind_ok (sa_str al) _ G s rest (lineage _ _ _ _ I) (sal_str _ Hal) Hs Hr) as Hf.
  destruct (str_find (sa_str al) (rw (w_prs w)) (s ++ 0%N :: rest)) as [[w1 a]| | | |]; try done. cbn [mbind res_bind] in E. injection E as Ew.
  destruct Hf as (p & q & q' & Hf & _). eexists. split; [|done]. eapply src_step; [exact H|]. eapply sc_file; try done.
  rewrite <- Ew. cbn [w_prs rw]. exact Hf.
Qed.
(** a NULL source has no name, line number, offset, length or text *)
Theorem C50_null w G R g : src_history w G R g -> g_exists g = true ->
  src_filename w None = Ret (inl tt) /\ src_linenumber w None = Ret 0 /\ src_offset w None = Ret 0 /\
  src_length w None = Ret 0 /\ src_source_line w None = Ret (inl tt).
Proof.
  intros H Hex. destruct (proj2 (exists_lines _ _ _ _ (history_inv _ _ _ _ H)) Hex) as [v Hv].
  unfold src_filename, src_linenumber, src_offset, src_length, src_source_line, field. by rewrite Hv.
Qed.
(** without a manager everything that needs one is a fatal error; with one src_create is *)
Theorem C50_no_manager al w G R g a n : src_history w G R g ->
  (g_exists g = false -> src_get al w n = Fatal /\ src_filename w a = Fatal /\ src_linenumber w a = Fatal /\ src_offset w a = Fatal /\
     src_length w a = Fatal /\ src_source_line w a = Fatal /\ src_destroy w = Ret w) /\
  (g_exists g = true -> src_create al w = Fatal).
Proof.
  intros H. pose proof (exists_lines _ _ _ _ (history_inv _ _ _ _ H)) as Hx. split.
  - intros Hf. destruct (v_lines w) as [v|] eqn:Ev; [assert (g_exists g = true) by (apply Hx; eauto); congruence|].
    unfold src_get, src_filename, src_linenumber, src_offset, src_length, src_source_line, field, src_destroy. by rewrite Ev.
  - intros Ht. apply Hx in Ht as [v Hv]. unfold src_create. by rewrite Hv.
Qed.
(** before the first line is stored since src_create, asking for the text of a token reads an array
    element that was never written *)
Theorem C50_no_line w G R g a : src_history w G R g -> g_exists g = true -> g_lines g = [] -> is_Some (g_toks g !! a) ->
  src_source_line w (Some a) = UB.
Proof.
  intros H Hex Hl [t Ht]. pose proof (history_inv _ _ _ _ H) as I. pose proof (n_mem _ _ _ _ I) as Hm. unfold src_source_line, field.
  destruct (v_lines w) as [v|] eqn:El; [|by rewrite (d_toks _ _ Hm), lookup_empty in Ht].
  destruct Hm as (i & j & D & L & A). destruct (l_toks _ _ _ _ _ _ _ _ A a t Ht) as (x & Hx & _). rewrite (hget_Some _ _ _ Hx). rb.
  unfold line_at. rewrite El. destruct (t_index x <? 0); [done|]. destruct (l_room _ _ _ _ _ _ _ _ A) as [[Hne _]|(_ & _ & ->)]; [done|].
  unfold aget. destruct (replicate 1000 None !! Z.to_nat (t_index x)) as [e|] eqn:E; [|done]. apply lookup_replicate in E as [-> _]. done.
Qed.

(** ** C51 *)
(** src_line stores the line, or runs out of memory, or - exactly when this is the first line since
    src_create and 1000 lines or more were stored before - writes out of bounds *)
Theorem C51_line al w G R g s rest len : src_history w G R g -> salloc_ok al -> str_ok s ->
  Z.of_nat (length s) <= len < Z.of_nat (length (s ++ 0%N :: rest)) -> line_room (created g) len ->
  match src_line al w (s ++ 0%N :: rest) len with
  | Ret (w', a) => src_history w' G R (lined g (tabless s) len) /\ spells (mblk (w_text w')) a (tabless s) /\
      (g_lines g = [] -> (g_before g < 1000)%nat)
  | Fatal => src_fail al
  | UB => g_lines g = [] /\ (1000 <= g_before g)%nat
  | _ => False
  end.
Proof.
  intros H Hal Hs Hlen Hr. pose proof (line_any al w G R g s rest len (history_inv _ _ _ _ H) Hal Hs Hlen Hr) as Hl.
  destruct (src_line al w (s ++ 0%N :: rest) len) as [[w' a]| | | |] eqn:E; try done. destruct Hl as (_ & Hn & Hsp & _).
  split; [eapply src_step; [exact H|by eapply (sc_line al)]|]. split; [done|]. intros Hg. destruct (decide (1000 <= g_before g)%nat); [|lia]. tauto.
Qed.
(** in particular after src_destroy *)
Theorem C51_overrun al w G R g w1 s rest len : src_history w G R g -> g_exists g = true ->
  (1000 <= g_before g + length (g_lines g))%nat -> src_destroy w = Ret w1 ->
  salloc_ok al -> ~ src_fail al -> str_ok s -> Z.of_nat (length s) <= len < Z.of_nat (length (s ++ 0%N :: rest)) ->
  line_room (created (destroyed g)) len -> src_line al w1 (s ++ 0%N :: rest) len = UB.
Proof.
  intros H Hex Hk E Hal Hf Hs Hlen Hr.
  assert (H1 : src_history w1 G R (destroyed g)) by (eapply src_step; [exact H|by constructor]).
  pose proof (C51_line al w1 G R (destroyed g) s rest len H1 Hal Hs Hlen Hr) as Hl.
  destruct (src_line al w1 (s ++ 0%N :: rest) len) as [[w' a]| | | |]; try done. destruct Hl as (_ & _ & Hl).
  specialize (Hl eq_refl). cbn [destroyed g_before] in Hl. lia.
Qed.

(** ** Reachable cases: an allocator that never fails *)
Definition ex_mal : malloc := MA bump bump bump (fun n h => (fun a => (a, replicate (N.to_nat n) 7%N)) <$> bump h).
Definition ex_sal : salloc :=
  SA (fun _ => true) ex_mal (OA bump bump bump (fun n h => (fun a => (a, Tok None 0 0 0 0)) <$> bump h)) StrProps.ex_pal ex_aal.
Lemma ex_sal_ok : salloc_ok ex_sal /\ ~ src_fail ex_sal.
Proof.
  split.
  - constructor; cbn [ex_sal sa_mem sa_obj sa_str sa_arg].
    + constructor; [apply bump_ok..|]. intros n h a b. cbn [ex_mal m_blk].
      destruct (bump h) as [a'|] eqn:E; [|done]. cbn. intros [= <- <-]. split; [by apply bump_ok|apply replicate_length].
    + intros h; discriminate.
    + constructor; [apply bump_ok..|]. intros n h a b. cbn [al_blk].
      destruct (bump h) as [a'|] eqn:E; [|done]. cbn. intros [= <- <-]. split; [by apply bump_ok|done].
    + intros h; discriminate.
    + apply StrProps.ex_pal_ok.
    + apply ex_aal_ok.
  - unfold src_fail, may_fail. cbn. intros [[n H]|[(n & h & H)|[[h H]|[[h H]|[[h H]|[[h H]|(n & h & H)]]]]]]; discriminate H.
Qed.
(** "a", stored k times *)
Lemma many_lines k : Z.of_nat k + 1001 < 2 ^ 30 -> exists w g, src_history w ∅ [] g /\ g_exists g = true /\
  g_before g = 0%nat /\ length (g_lines g) = k /\ g_bytes g = 2 * Z.of_nat k /\ g_line g = Z.of_nat k /\ g_toks g = ∅.
Proof.
  assert (Hs : str_ok [97%N]) by (repeat constructor; lia).
  induction k as [|k IH]; intros Hk.
  - destruct (src_create ex_sal src_start) as [w| | | |] eqn:E; try (vm_compute in E; discriminate E).
    exists w, (created g_start). split; [|done]. eapply src_step; [apply rtc_refl|]. by apply (sc_create ex_sal), E; apply ex_sal_ok.
  - destruct IH as (w & g & H & Hx & Hb & Hl & Hy & Hn & Ht); [lia|].
    assert (Hr : line_room (created g) 1).
    { rewrite created_exists by done. unfold line_room, is_int. rewrite Hb, Hl, Hy, Hn. lia. }
    pose proof (C51_line ex_sal w ∅ [] g [97%N] [] 1 H (proj1 ex_sal_ok) Hs ltac:(cbn; lia) Hr) as Hc.
    destruct (src_line ex_sal w ([97%N] ++ 0%N :: []) 1) as [[w' a]| | | |]; try done; [|by apply ex_sal_ok in Hc|lia].
    destruct Hc as (H' & _). exists w', (lined g (tabless [97%N]) 1). split; [done|].
    unfold lined. rewrite created_exists by done. cbn [g_exists g_before g_lines g_bytes g_line g_toks]. rewrite app_length. cbn [length].
    repeat split; try done; lia.
Qed.
(** the overrun does happen for every number of lines *)
Theorem C51_reachable k : (1000 <= k)%nat -> Z.of_nat k + 1001 < 2 ^ 30 -> exists w g w1,
  src_history w ∅ [] g /\ length (g_lines g) = k /\ src_destroy w = Ret w1 /\ src_history w1 ∅ [] (destroyed g) /\
  src_line ex_sal w1 [97; 0]%N 1 = UB.
Proof.
  intros Hk Hk2. destruct (many_lines k Hk2) as (w & g & H & Hx & Hb & Hl & Hy & Hn & Ht).
  destruct (destroy_inv _ _ _ _ (history_inv _ _ _ _ H) Hx) as (w1 & E & _). exists w, g, w1. split; [done|]. split; [done|]. split; [done|].
  split; [eapply src_step; [exact H|by constructor]|].
  eapply (C51_overrun ex_sal w ∅ [] g w1 [97%N] [] 1 H Hx ltac:(lia) E (proj1 ex_sal_ok) (proj2 ex_sal_ok)).
  - repeat constructor; lia.
  - cbn; lia.
  - unfold line_room, is_int, created. cbn [destroyed g_exists g_before g_lines g_bytes g_line length]. rewrite Hb, Hl, Hn. lia.
Qed.

(** ** C66: error messages *)
Lemma set_prs_same w : set_prs w (w_prs w) = w.
Proof. by destruct w. Qed.
(** src_parse_error prints the massaged message, the line and carets under the token, each after
    the file and line of the token; the state of the user is unchanged *)
Theorem C66_parse_error w G R g st a t f l s rest m : src_history w G R g -> g_toks g !! a = Some t -> k_file t = Some f -> k_text t = Some l ->
  str_ok s -> massage R s m -> exists w' d, decimal (k_line t) d /\ src_history w' G R g /\
    src_parse_error w st (Some a) (Some (s ++ 0%N :: rest)) = Ret (w', (out_of st,
      place f d ++ m ++ [10%N] ++ (place f d ++ l) ++
      place f d ++ replicate (Z.to_nat (k_offset t)) 32%N ++ replicate (Z.to_nat (k_length t)) 94%N ++ [10%N])).
Proof.
  intros H Ha Hf Hl Hs Hm. pose proof (history_inv _ _ _ _ H) as I.
  destruct (yy_ok R s m Hm (w_prs w) G (S (length (s ++ 0%N :: rest))) rest (n_prs _ _ _ _ I) Hs ltac:(rewrite app_length; lia)) as (p' & E & Hp & Hr).
  exists (set_prs w p'), (c_itoa (k_line t)). split; [apply itoa_decimal; by eapply history_ints|].
  assert (I' : src_inv (set_prs w p') G R g) by (apply (prs_inv_step w G R g p' G R I Hp); intros fp name _; by rewrite Hr).
  assert (Hout : src_parse_error w st (Some a) (Some (s ++ 0%N :: rest)) = Ret (set_prs w p', (out_of st,
      place f (c_itoa (k_line t)) ++ m ++ [10%N] ++ (place f (c_itoa (k_line t)) ++ l) ++ caret_out f (c_itoa (k_line t)) t))).
  { unfold src_parse_error. rewrite (head_ok w G R g a t f I Ha Hf). rb. unfold print_yyerror. rewrite E. rb.
    rewrite (print_error_ok _ G R g a t f l I' Ha Hf Hl). by rb. }
  split; [|exact Hout]. eapply src_step; [exact H|by eapply sc_error].
Qed.
(** without a source *)
Theorem C66_parse_error_null w G R g st s rest m : src_history w G R g -> str_ok s -> massage R s m ->
  exists w', src_history w' G R g /\ src_parse_error w st None (Some (s ++ 0%N :: rest)) = Ret (w', (out_of st,
      text "?:?: " ++ m ++ [10%N] ++ (text "?:?: <source line not available>" ++ [10%N]) ++ text "?:?: " ++ [10%N])).
Proof.
  intros H Hs Hm. pose proof (history_inv _ _ _ _ H) as I.
  destruct (yy_ok R s m Hm (w_prs w) G (S (length (s ++ 0%N :: rest))) rest (n_prs _ _ _ _ I) Hs ltac:(rewrite app_length; lia)) as (p' & E & Hp & Hr).
  exists (set_prs w p').
  assert (Hout : src_parse_error w st None (Some (s ++ 0%N :: rest)) = Ret (set_prs w p', (out_of st,
      text "?:?: " ++ m ++ [10%N] ++ (text "?:?: <source line not available>" ++ [10%N]) ++ text "?:?: " ++ [10%N]))).
  { unfold src_parse_error, SourceModel.head. rb. unfold print_yyerror. rewrite E. by rb. }
  split; [|exact Hout]. eapply src_step; [exact H|by eapply sc_error].
Qed.
(** a NULL message is printed as (null) *)
Theorem C66_null_message w G R g st a t f l : src_history w G R g -> g_toks g !! a = Some t -> k_file t = Some f -> k_text t = Some l ->
  exists d, decimal (k_line t) d /\
    src_parse_error w st (Some a) None = Ret (w, (out_of st,
      place f d ++ text "(null)" ++ [10%N] ++ (place f d ++ l) ++
      place f d ++ replicate (Z.to_nat (k_offset t)) 32%N ++ replicate (Z.to_nat (k_length t)) 94%N ++ [10%N])).
Proof.
  intros H Ha Hf Hl. pose proof (history_inv _ _ _ _ H) as I. exists (c_itoa (k_line t)). split; [apply itoa_decimal; by eapply history_ints|].
  unfold src_parse_error. rewrite (head_ok w G R g a t f I Ha Hf). rb. unfold print_yyerror. rb. rewrite set_prs_same.
  rewrite (print_error_ok _ G R g a t f l I Ha Hf Hl). by rb.
Qed.
(** src_print_line, src_print_error and src_print_message on a stream *)
Theorem C66_prints w G R g n a t f l msg : src_history w G R g -> g_toks g !! a = Some t -> k_file t = Some f -> k_text t = Some l ->
  exists d, decimal (k_line t) d /\
    src_print_line w (Some a) = Ret (place f d ++ l) /\
    src_print_message w (Some n) (Some a) (Some msg) = Ret (Stream n, place f d ++ msg ++ [10%N]) /\
    src_print_error w (Some n) (Some a) (Some msg) = Ret (Stream n, (place f d ++ msg ++ [10%N]) ++ (place f d ++ l) ++
      place f d ++ replicate (Z.to_nat (k_offset t)) 32%N ++ replicate (Z.to_nat (k_length t)) 94%N ++ [10%N]) /\
    src_print_error w (Some n) (Some a) None = Ret (Stream n, (place f d ++ l) ++
      place f d ++ replicate (Z.to_nat (k_offset t)) 32%N ++ replicate (Z.to_nat (k_length t)) 94%N ++ [10%N]).
Proof.
  intros H Ha Hf Hl. pose proof (history_inv _ _ _ _ H) as I. exists (c_itoa (k_line t)). split; [apply itoa_decimal; by eapply history_ints|].
  split; [by eapply print_line_ok|]. unfold src_print_message, src_print_error. rewrite (head_ok w G R g a t f I Ha Hf). rb.
  split; [done|]. rewrite (print_error_ok _ G R g a t f l I Ha Hf Hl). by rb.
Qed.
(** every message has exactly one massaged form, unless it runs away *)
Theorem C66_massaged R s : str_ok s -> (exists m, massage R s m) \/ runaway s.
Proof. apply massage_or_runaway. Qed.
Theorem C66_massaged_once R s m m' : massage R s m -> massage R s m' -> m = m'.
Proof. intros H. by apply massage_unique. Qed.

(** ** C69: a NULL stream means stdout for src_parse_error only; the other two print to it,
    and src_print_error without a message fails its assertion *)
Theorem C69_null_stream w source msg f : src_print_error w None source (Some msg) = UB /\ src_print_message w None source (Some msg) = UB /\
  src_print_error w None source None = Abort /\
  forall w' o, src_parse_error w None source f = Ret (w', o) -> o.1 = Stdout.
Proof.
  split; [done|]. split; [done|]. split; [done|]. unfold src_parse_error. intros w' o E.
  destruct (SourceModel.head w source); try done. cbn [mbind res_bind] in E. destruct (print_yyerror _ _) as [[? ?]| | | |]; try done. cbn [mbind res_bind] in E.
  destruct (print_error _ _); try done. cbn [mbind res_bind] in E. by injection E as _ <-.
Qed.

(** ** C70: a message that runs away, up to the last byte of its object, is undefined behaviour *)
Theorem C70_runaway w G R g st a t f s : src_history w G R g -> g_toks g !! a = Some t -> k_file t = Some f ->
  str_ok s -> runaway s -> src_parse_error w st (Some a) (Some (s ++ [0%N])) = UB /\ src_parse_error w st None (Some (s ++ [0%N])) = UB.
Proof.
  intros H Ha Hf Hs Hr. pose proof (history_inv _ _ _ _ H) as I.
  pose proof (runaway_ub s Hr (w_prs w) G R (S (length (s ++ [0%N]))) (n_prs _ _ _ _ I) Hs ltac:(rewrite app_length; cbn [length]; lia)) as E.
  unfold src_parse_error. rewrite (head_ok w G R g a t f I Ha Hf). unfold print_yyerror, SourceModel.head. rb. by rewrite E.
Qed.

(** ** C67: # 12 "file" lines *)
Theorem C67_cpp_line al w G R g src n s ws : src_history w G R g -> salloc_ok al -> first_bytes src n s -> str_ok s ->
  Z.of_nat (length s) + 3 < 2 ^ 30 -> n < 2 ^ 31 - 1 -> line true true s ws ->
  (forall v0 v1 v2 vs, ws = v0 :: v1 :: v2 :: vs -> name_room (rw (w_prs w)) G v2) ->
  match ws with
  | v0 :: v1 :: vs => forall z, number v1 z ->
      match src_cpp_line al w src n with
      | Ret w' => is_int z /\
          match vs with
          | [] => src_history w' G R (numbered g (cpp_number z))
          | v2 :: _ => exists G', src_history w' G' R (named_file (numbered g (cpp_number z)) v2)
          end
      | Fatal => afail (sa_arg al) \/ (vs <> [] /\ gfail (sa_str al))
      | UB => ~ is_int z
      | _ => False
      end
  | _ => src_cpp_line al w src n = Abort \/ src_cpp_line al w src n = Fatal /\ afail (sa_arg al)
  end.
Proof.
  intros H Hal Hfb Hs Hlen Hn Hline Hroom. pose proof (history_inv _ _ _ _ H) as I.
  pose proof (line_chars _ true true s ws Hline Hs) as Hws.
  destruct (cpp_run al w G R g src n s ws I Hal Hfb Hs Hlen Hn Hline) as [[Hfa Ha]|(aw' & Haw & Er)].
  - destruct ws as [|v0 [|v1 vs]]; [by right|by right|]. intros z Hz. rewrite Hfa. by left.
  - destruct ws as [|v0 [|v1 vs]]; [by left|by left|]. intros z Hz.
    apply Forall_cons in Hws as [_ Hws]. apply Forall_cons in Hws as [Hv1 Hws].
    pose proof Er as Er0. rewrite (number_atoi v1 z Hz Hv1) in Er. destruct (decide (is_int z)) as [Hi|Hi].
    2: { unfold sint, int_range, INT_MIN, INT_MAX in Er. unfold is_int in Hi.
         assert (((- 2 ^ 31 <=? z) && (z <=? 2 ^ 31 - 1)) = false) as Hb.
         { destruct (Z.leb_spec (- 2 ^ 31) z), (Z.leb_spec z (2 ^ 31 - 1)); try done. lia. }
         rewrite Hb in Er. cbn [mbind res_bind] in Er. by rewrite Er. }
    rewrite (sint_in z Hi) in Er. cbn [mbind res_bind] in Er. destruct vs as [|v2 vs].
    + cbn [mbind res_bind] in Er. rewrite Er. split; [done|]. eapply src_step; [exact H|].
      eapply (sc_cpp2 al w G R g src n s v0 v1 z); try done.
    + apply Forall_cons in Hws as [Hv2 _]. pose proof (Hroom v0 v1 v2 vs eq_refl) as Hr.
      pose proof (gfind_ok (sa_str al) (rw (w_prs w)) G v2 [] (lineage _ _ _ _ I) (sal_str _ Hal) Hv2 Hr) as Hf.
      unfold src_new_file in Er. change (rw (w_prs (src_new_line w (cpp_number z)))) with (rw (w_prs w)) in Er.
      destruct (str_find (sa_str al) (rw (w_prs w)) (v2 ++ [0%N])) as [[w1 b]| | | |]; try done; cbn [mbind res_bind] in Er; rewrite Er; [|right; split; [discriminate|exact Hf]].
      destruct Hf as (p & q & q' & Hf & _). split; [done|]. eexists. eapply src_step; [exact H|].
      eapply (sc_cpp al w G R g src n s v0 v1 v2 vs z); try done.
Qed.
(** every text is a number for atoi *)
Lemma span (P : N -> Prop) (dec : forall c, {P c} + {~ P c}) l : exists a b, l = a ++ b /\ Forall P a /\ match b with [] => True | c :: _ => ~ P c end.
Proof.
  induction l as [|c l (a & b & -> & Ha & Hb)]; [by exists [], []|]. destruct (dec c) as [Hc|Hc].
  - exists (c :: a), b. split; [done|]. split; [by constructor|done].
  - by exists [], (c :: a ++ b).
Qed.
Lemma space_dec c : {space c} + {~ space c}.
Proof. unfold space. destruct (decide (c = 32%N \/ (9 <= c <= 13)%N)); [by left|by right]. Qed.
Lemma digit_dec c : {digit c} + {~ digit c}.
Proof. unfold digit. destruct (decide (48 <= c <= 57)%N); [by left|by right]. Qed.
Theorem C67_number v : exists z, number v z.
Proof.
  destruct (span space space_dec v) as (sp & r & -> & Hsp & Hr). destruct r as [|c r].
  { exists (value []). by apply (num_plus sp [] [] []); [done|left|constructor|..]. }
  destruct (decide (c = 45%N)) as [->|H45].
  { destruct (span digit digit_dec r) as (ds & tl & -> & Hds & Htl). exists (- value ds). by apply num_minus. }
  destruct (decide (c = 43%N)) as [->|H43].
  { destruct (span digit digit_dec r) as (ds & tl & -> & Hds & Htl). exists (value ds). apply (num_plus sp [43%N] ds tl); auto. done. }
  destruct (span digit digit_dec (c :: r)) as (ds & tl & E & Hds & Htl). rewrite E. exists (value ds). apply (num_plus sp [] ds tl); auto.
  intros _ ->. cbn [app] in E. subst tl. done.
Qed.

(** ** C68: a line without a NUL among the len + 1 bytes copied *)
Theorem C68_unterminated al w G R g src len : src_history w G R g -> salloc_ok al -> 0 <= len < Z.of_nat (length src) ->
  0%N ∉ take (Z.to_nat len + 1) src -> line_room (created g) len ->
  match src_line al w src len with UB => True | Fatal => src_fail al | _ => False end.
Proof.
  assert (Hgo : forall w g, src_inv w G R g -> salloc_ok al -> is_Some (v_lines w) -> 0 <= len < Z.of_nat (length src) ->
    0%N ∉ take (Z.to_nat len + 1) src -> line_room g len -> match src_line al w src len with UB => True | Fatal => src_fail al | _ => False end).
  { clear w g. intros w g I Hal [v Hv] Hlen Hno (Hr1 & Hr2 & Hr3). pose proof (n_mem _ _ _ _ I) as Hm. rewrite Hv in Hm.
    destruct Hm as (i & j & D & L & [A1 A2 A3 [M IM] A5 A6 A7 A8 A9 A10 A11 A12 A13 A14 A15]).
    unfold src_line. rewrite Hv. rb. rewrite (n_line _ _ _ _ I). rewrite (sint_in (g_line g + 1)) by exact Hr3. rb.
    rewrite A2. unfold heap_of. rb.
    pose proof (strncpy_spec (sa_mem al) (w_text w) _ M i _ src len IM (sal_mem _ Hal) (sal_node _ Hal) (lookup_singleton _ _)) as Hc.
    cbn [s_done s_bytes] in Hc. rewrite A6 in Hc. specialize (Hc ltac:(lia) ltac:(lia) A7 ltac:(lia) ltac:(lia)).
    destruct (mem_strncpy _ _ _ _ _) as [[m a]| | | |]; try done; [|right; by left]. destruct Hc as (M1 & IM1 & Hfresh & Hblk). rb. rewrite Hv.
    unfold aset. destruct (v !! Z.to_nat (v_used w)); [|done]. rb. rewrite Hblk.
    rewrite (hget_Some _ _ _ (lookup_insert _ _ _)). rb. by rewrite detab_none. }
  intros H Hal Hlen Hno Hr. pose proof (history_inv _ _ _ _ H) as I. destruct (v_lines w) as [v|] eqn:El.
  - assert (Hex : g_exists g = true) by (apply (exists_lines _ _ _ _ I); rewrite El; eauto). rewrite (created_exists g Hex) in Hr.
    by apply (Hgo w g).
  - rewrite line_creates by done. pose proof (create_inv al w G R g I Hal El) as Hc. destruct (src_create al w) as [w1| | | |]; cbn [ok] in Hc; try done.
    destruct Hc as (I1 & _ & Hl & _). rb. by apply (Hgo w1 (created g)).
Qed.

(** ** C71: statistics, and what is left after src_destroy *)
Theorem C71_stats w G R g : src_history w G R g ->
  src_get_stats true w = Ret (if g_exists g then
    (Z.of_nat (g_before g + length (g_lines g)),
     (if decide (g_lines g = []) then 1000 else 1000 * (Z.of_nat (g_before g + length (g_lines g)) / 1000 + 1)),
     g_bytes g, Z.of_nat (size (g_toks g)), 0, 24) else (0, 0, 0, 0, 0, 0)).
Proof.
  intros H. pose proof (history_inv _ _ _ _ H) as I. pose proof (n_mem _ _ _ _ I) as Hm. unfold src_get_stats.
  destruct (v_lines w) as [v|] eqn:El; [|by rewrite (d_exists _ _ Hm)].
  destruct Hm as (i & j & D & L & [A1 A2 A3 [M IM] [Mo IO] A6 A7 A8 A9 A10 A11 A12 A13 A14 A15]). rewrite A1, A2, A3.
  unfold mem_get_string_stats. destruct (mi_info _ _ _ IM i _ (lookup_singleton _ _)) as (x & L2 & Hx & HL & Hok). rewrite (hget_Some _ _ _ Hx). rb.
  rewrite (stats_spec any_tok _ _ _ j _ IO (lookup_singleton _ _)). rb. cbn [p_log p_size].
  rewrite (so_bytes _ _ _ _ Hok), (n_used _ _ _ _ I). cbn [s_bytes]. rewrite size_list_to_set by done. rewrite Z.sub_diag.
  rewrite (log_size L (g_toks g) A13 A14). do 6 f_equal. destruct A10 as [[Hne ->]|(He & -> & _)].
  - rewrite decide_False by done. by rewrite (n_used _ _ _ _ I).
  - by rewrite decide_True.
Qed.
Theorem C71_print_stats w G R g st : src_history w G R g -> g_exists g = true -> Z.of_nat (size (g_toks g)) * 24 < 2 ^ 31 ->
  Z.of_nat (g_before g + length (g_lines g)) + 1000 < 2 ^ 31 -> g_bytes g < 2 ^ 31 ->
  exists d1 d2 d3 d4 d5,
    decimal (Z.of_nat (g_before g + length (g_lines g))) d1 /\ decimal (g_bytes g) d2 /\
    decimal (if decide (g_lines g = []) then 1000 else 1000 * (Z.of_nat (g_before g + length (g_lines g)) / 1000 + 1)) d3 /\
    decimal (Z.of_nat (size (g_toks g))) d4 /\ decimal (Z.of_nat (size (g_toks g)) * 24) d5 /\
    src_print_stats true w st = Ret (out_of st,
      text "Statistics for source manager:" ++ [10%N] ++
      text "   " ++ d1 ++ text " lines using " ++ d2 ++ text " bytes (" ++ d3 ++ text " allocated)" ++ [10%N] ++
      text "   " ++ d4 ++ text " tokens using " ++ d5 ++ text " bytes (" ++ text "0" ++ text " reused)" ++ [10%N]).
Proof.
  intros H Hex H1 H2 H3. pose proof (history_inv _ _ _ _ H) as I. pose proof (n_mem _ _ _ _ I) as Hm.
  assert (Hb : 0 <= g_bytes g).
  { destruct (v_lines w); [|pose proof (d_exists _ _ Hm); congruence]. by destruct Hm as (? & ? & ? & ? & []). }
  eexists _, _, _, _, _. unfold src_print_stats. rewrite (C71_stats w G R g H), Hex. rb. rewrite (sint_in (Z.of_nat (size (g_toks g)) * 24)) by (unfold is_int; lia). rb.
  split; [apply itoa_decimal; unfold is_int; lia|]. split; [apply itoa_decimal; unfold is_int; lia|]. split; [|split; [|split; [|done]]].
  - apply itoa_decimal. unfold is_int. destruct (decide _); [lia|]. clear - H2. set (u := Z.of_nat _) in *. assert (0 <= u) by lia. Z.div_mod_to_equations. lia.
  - apply itoa_decimal. unfold is_int. lia.
  - apply itoa_decimal. unfold is_int. lia.
Qed.
(** src_destroy gives all the memory of lines and tokens back *)
Theorem C71_destroy w G R g : src_history w G R g -> g_exists g = true ->
  exists w', src_destroy w = Ret w' /\ src_history w' G R (destroyed g) /\ v_lines w' = None /\
    mblk (w_text w') = ∅ /\ minf (w_text w') = ∅ /\ stks (msh (w_text w')) = ∅ /\ nodes (msh (w_text w')) = ∅ /\
    oblk (w_tok w') = ∅ /\ oinf (w_tok w') = ∅ /\ stks (osh (w_tok w')) = ∅ /\ nodes (osh (w_tok w')) = ∅.
Proof.
  intros H Hex. destruct (destroy_inv _ _ _ _ (history_inv _ _ _ _ H) Hex) as (w' & E & I' & Hb & Ho & Hl). exists w'. split; [done|].
  split; [eapply src_step; [exact H|by constructor]|]. split; [done|]. pose proof (n_mem _ _ _ _ I') as Hm. rewrite Hl in Hm.
  destruct (d_text _ _ Hm) as [M IM]. destruct (d_tok _ _ Hm) as [Mo IO].
  assert (Hinf : minf (w_text w') = ∅).
  { apply map_empty. intros i. apply eq_None_not_Some. rewrite (mi_dom _ _ _ IM), lookup_empty. by intros [? ?]. }
  assert (HM : forall s, M !! s = None).
  { intros s. apply eq_None_not_Some. intros Hs. destruct (mi_stkall _ _ _ IM s Hs) as (i & x & Hx & _). by rewrite Hinf, lookup_empty in Hx. }
  assert (Hoinf : oinf (w_tok w') = ∅).
  { apply map_empty. intros i. apply eq_None_not_Some. rewrite (oi_dom _ _ _ _ IO), lookup_empty. by intros [? ?]. }
  assert (HMo : forall s, Mo !! s = None).
  { intros s. apply eq_None_not_Some. intros Hs. destruct (oi_stkall _ _ _ _ IO s Hs) as (i & x & Hx & _). by rewrite Hoinf, lookup_empty in Hx. }
  split; [done|]. split; [done|]. split.
  { apply map_empty. intros s. apply eq_None_not_Some. rewrite (si_dom _ _ (mi_stk _ _ _ IM)), HM. by intros [? ?]. }
  split. { apply map_empty. intros a. apply eq_None_not_Some. intros Ha. destruct (si_all _ _ (mi_stk _ _ _ IM) a Ha) as (s & L & HL & _). by rewrite HM in HL. }
  split; [done|]. split; [done|]. split.
  { apply map_empty. intros s. apply eq_None_not_Some. rewrite (si_dom _ _ (oi_stk _ _ _ _ IO)), HMo. by intros [? ?]. }
  apply map_empty. intros a. apply eq_None_not_Some. intros Ha. destruct (si_all _ _ (oi_stk _ _ _ _ IO) a Ha) as (s & L & HL & _). by rewrite HMo in HL.
Qed.

(** ** A concrete run: file "f.c", line 7 "x<tab>+ y<newline>", tokens "x" and "+" *)
Definition ex_text : list N := [120; 9; 43; 32; 121; 10]%N.
Definition ex_w1 := getr (src_new_file ex_sal src_start [102; 46; 99; 0]%N) src_start.
Definition ex_w2 := src_new_line ex_w1 6.
Definition ex_w3 := (getr (src_line ex_sal ex_w2 (ex_text ++ [0%N]) 6) (src_start, 1%positive)).1.
Definition ex_w4 := (getr (src_get ex_sal ex_w3 1) (src_start, 1%positive)).1.
Definition ex_w5 := getr (src_advance ex_w4 1) src_start.
Definition ex_r6 := getr (src_get ex_sal ex_w5 1) (src_start, 1%positive).
Definition ex_p6 := getr (prs_register_concrete true StrProps.ex_pal (w_prs ex_r6.1) [84; 95; 65; 0]%N [43; 0]%N) prs_start.
Definition ex_w6 := set_prs ex_r6.1 ex_p6.
(** "bad `T_A' or `T_B'" *)
Definition ex_msg : list N := text "bad `T_A' or `T_B' ``(''".
Example C66_output : (r ← src_parse_error ex_w6 None (Some ex_r6.2) (Some (ex_msg ++ [0%N])); Ret r.2) =
  Ret (Stdout, text "f.c:7: bad `+' or `T_B' `('" ++ [10%N] ++ text "f.c:7: x + y" ++ [10%N] ++ text "f.c:7:   ^" ++ [10%N]).
Proof. vm_compute. reflexivity. Qed.
Lemma ex_step1 : src_new_file ex_sal src_start ([102; 46; 99]%N ++ 0%N :: []) = Ret ex_w1.
Proof. apply (getr_ok _ src_start). vm_compute. reflexivity. Qed.
Lemma ex_step3 : src_line ex_sal ex_w2 (ex_text ++ 0%N :: []) 6 = Ret (ex_w3, 1%positive).
Proof. unfold ex_w3. vm_compute. reflexivity. Qed.
Lemma ex_step4 : src_get ex_sal ex_w3 1 = Ret (ex_w4, 1%positive).
Proof. vm_compute. reflexivity. Qed.
Lemma ex_step5 : src_advance ex_w4 1 = Ret ex_w5.
Proof. vm_compute. reflexivity. Qed.
Lemma ex_step6 : src_get ex_sal ex_w5 1 = Ret (ex_r6.1, 2%positive).
Proof. vm_compute. reflexivity. Qed.
Lemma ex_fc : str_ok [102; 46; 99]%N.
Proof. repeat constructor; lia. Qed.
Lemma ex_text_ok : str_ok ex_text.
Proof. repeat constructor; lia. Qed.
Lemma ex_name : name_room (rw (w_prs src_start)) ∅ [102; 46; 99]%N.
Proof. intros q Hq _. cbn in Hq. subst q. split; [done|]. unfold room. cbn. lia. Qed.
(** the history reaches two tokens with a file and a text *)
Example C50_reachable : exists G g, src_history ex_r6.1 G [] g /\
  g_toks g !! 1%positive = Some (GTok (Some [102; 46; 99]%N) 7 0 1 (Some (tabless ex_text))) /\
  g_toks g !! 2%positive = Some (GTok (Some [102; 46; 99]%N) 7 2 1 (Some (tabless ex_text))).
Proof.
  pose proof (C50_file ex_sal src_start ∅ [] g_start [102; 46; 99]%N [] 0 (rtc_refl _ _) (proj1 ex_sal_ok) ex_fc ex_name) as H1.
  rewrite ex_step1 in H1. destruct H1 as (G1 & H1 & _).
  destruct (C50_place ex_w1 G1 [] _ 6 0 0 H1 ltac:(unfold is_int; lia)) as (H2 & _).
  pose proof (C51_line ex_sal ex_w2 G1 [] _ ex_text [] 6 H2 (proj1 ex_sal_ok) ex_text_ok ltac:(cbn; lia)) as H3.
  rewrite ex_step3 in H3. destruct H3 as (H3 & _); [unfold line_room, is_int; cbn; lia|].
  pose proof (C50_get ex_sal ex_w3 G1 [] _ 1 H3 eq_refl (proj1 ex_sal_ok)) as H4. rewrite ex_step4 in H4. cbn [ok] in H4.
  destruct H4 as (_ & H4 & _); [split; [vm_compute; done|unfold is_int; vm_compute; done]|unfold is_int; lia|].
  set (g4 := took _ _ _) in H4.
  assert (H5 : src_history ex_w5 G1 [] (advanced g4 1)) by (eapply src_step; [exact H4|]; exact (sc_advance _ _ _ _ _ _ ex_step5)).
  pose proof (C50_get ex_sal ex_w5 G1 [] _ 1 H5 eq_refl (proj1 ex_sal_ok)) as H6. rewrite ex_step6 in H6. cbn [ok] in H6.
  destruct H6 as (_ & H6 & _); [split; [vm_compute; done|unfold is_int; vm_compute; done]|unfold is_int; lia|].
  eexists _, _. split; [exact H6|]. split; vm_compute; reflexivity.
Qed.
(** # 12 "g.c" *)
Example C67_run : (w' ← src_cpp_line ex_sal ex_w3 (text "# 12 " ++ [34%N] ++ text "g.c" ++ [34; 0]%N) 20; Ret (t_line (v_info w'))) = Ret 11 /\ src_cpp_line ex_sal ex_w3 (text "# " ++ [0%N]) 2 = Abort.
Proof. split; vm_compute; reflexivity. Qed.
Example C67_reachable : exists w0 w1 w2, line true true (text "# 12 x") [w0; w1; w2] /\ number w1 12 /\ first_bytes (text "# 12 x" ++ [0; 9]%N) 7 (text "# 12 x").
Proof.
  destruct (ArgHist.line_total true true (text "# 12 x")) as [ws Hws]. pose proof (ArgHist.line_tok _ _ _ _ Hws) as E. vm_compute in E. subst ws.
  eexists _, _, _. split; [exact Hws|]. split.
  - change 12 with (value [49; 50]%N). apply (num_plus [] [] [49; 50]%N []); try done; [by left|]. repeat constructor; unfold digit; lia.
  - exists [0; 9]%N. split; [done|]. right. split; [done|]. by exists [9%N].
Qed.
Example C68_reachable : src_line ex_sal ex_w2 [97; 98; 99]%N 2 = UB.
Proof. vm_compute. reflexivity. Qed.
Example C70_reachable : runaway (text "x `T_AB") /\ src_parse_error ex_w6 None (Some ex_r6.2) (Some (text "x `T_AB" ++ [0%N])) = UB.
Proof.
  split; [|vm_compute; reflexivity]. apply r_char; [done|]. apply r_char; [done|]. apply r_open; [|by eexists].
  repeat (apply not_elem_of_cons; split; [done|]). apply not_elem_of_nil.
Qed.
Example C71_run : src_get_stats true ex_w6 = Ret (1, 1000, 7, 2, 0, 24).
Proof. vm_compute. reflexivity. Qed.
(** a token made before the first line of all: no text yet; it shows the line stored later *)
Definition ex_e1 := getr (src_create ex_sal src_start) src_start.
Definition ex_e2 := (getr (src_get ex_sal ex_e1 1) (src_start, 1%positive)).1.
Definition ex_e3 := (getr (src_line ex_sal ex_e2 [97; 0]%N 1) (src_start, 1%positive)).1.
Lemma ex_early1 : is_ret (src_create ex_sal src_start) = true /\ is_ret (src_get ex_sal ex_e1 1) = true /\ is_ret (src_line ex_sal ex_e2 [97; 0]%N 1) = true.
Proof. split; [|split]; vm_compute; reflexivity. Qed.
Example C50_early : src_source_line ex_e2 (Some 1%positive) = UB /\ src_source_line ex_e3 (Some 1%positive) = Ret (inr 1%positive).
Proof. split; vm_compute; reflexivity. Qed.

Print Assumptions C50_get.
Print Assumptions C50_token.
Print Assumptions C50_line_get.
Print Assumptions C50_place.
Print Assumptions C50_file.
Print Assumptions C50_null.
Print Assumptions C50_no_manager.
Print Assumptions C50_no_line.
Print Assumptions C51_line.
Print Assumptions C51_overrun.
Print Assumptions C51_reachable.
Print Assumptions C66_parse_error.
Print Assumptions C66_parse_error_null.
Print Assumptions C66_null_message.
Print Assumptions C66_prints.
Print Assumptions C66_massaged.
Print Assumptions C66_massaged_once.
Print Assumptions C67_cpp_line.
Print Assumptions C67_number.
Print Assumptions C68_unterminated.
Print Assumptions C69_null_stream.
Print Assumptions C70_runaway.
Print Assumptions C71_stats.
Print Assumptions C71_print_stats.
Print Assumptions C71_destroy.
