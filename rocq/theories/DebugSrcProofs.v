(** Proofs for C91: the debugging output of source.c. *)
From Verif Require Import Base CStr StackModel ObjModel MemModel PrimeModel HashModel HashFnModel HashFnProofs StrModel ArgModel PrsModel.
From Verif Require Import FlagModel LogModel LogSpec LogProofs DebugModel DebugSpec DebugFollow SourceModel DebugSrcModel.
From Verif Require Import StrHist SourceMsg ArgSpec ArgProps PrsSpec SourceSpec SourceProofs SourceHist SourceProps.
From Verif Require ArgHist.
From Coq Require Import String.
Notation length := List.length.
Local Open Scope Z_scope.

Lemma detab_string b b' : detab b = Ret b' -> exists t, c_string b' = Ret t.
Proof.
  revert b'. induction b as [|c b IH]; intros b' E; cbn [detab] in E; [done|].
  destruct (N.eqb_spec c 0) as [->|Hc]; [injection E as <-; cbn; by eexists|].
  destruct (detab b) as [r| | | |] eqn:Er; try done. cbn [mbind res_bind] in E. injection E as <-.
  destruct (IH r eq_refl) as [t Ht]. exists ((if (c =? 9)%N then 32%N else c) :: t). cbn [c_string].
  destruct (N.eqb_spec (if (c =? 9)%N then 32%N else c) 0) as [E0|_]; [destruct (c =? 9)%N; lia|]. rewrite Ht. done.
Qed.

(** ** numbers are ints; the index of the line stored last *)
Definition tidy (w : srcw) (g : gsrc) : Prop :=
  t_index (v_info w) = Z.max 0 (v_used w - 1) /\ 0 <= v_used w < 2 ^ 31 /\ is_int (t_offset (v_info w)) /\
  (forall a t, g_toks g !! a = Some t -> is_int (k_offset t) /\ is_int (k_length t)).
Lemma sint_int z n : sint z = Ret n -> n = z /\ is_int z.
Proof. unfold sint. destruct (int_range z) eqn:E; [|done]. intros [= <-]. split; [done|]. unfold int_range, INT_MIN, INT_MAX in E. unfold is_int. lia. Qed.
Ltac unb H := repeat match type of H with
  | mbind ?f ?r = Ret _ => let E := fresh "E" in destruct r eqn:E; try discriminate H; cbn [mbind res_bind] in H
  | (let '(_, _) := ?x in _) = Ret _ => destruct x; cbn [mbind res_bind fst snd] in H
  | (if ?b then _ else _) = Ret _ => let E := fresh "E" in destruct b eqn:E; try discriminate H
  | match ?x with Some _ => _ | None => _ end = Ret _ => let E := fresh "E" in destruct x eqn:E; try discriminate H
  end.
Lemma create_same al s s' : src_create al s = Ret s' -> v_used s' = v_used s /\ v_info s' = v_info s.
Proof. unfold src_create. intros H. unb H. injection H as <-. done. Qed.
Lemma cpp_same al w src n w' : src_cpp_line al w src n = Ret w' ->
  v_used w' = v_used w /\ t_index (v_info w') = t_index (v_info w) /\ t_offset (v_info w') = t_offset (v_info w).
Proof.
  unfold src_cpp_line. intros H. unb H; injection H as <-; cbn [v_used v_info].
  match goal with H : (if _ then _ else _) = Ret ?x |- _ => rename H into Hs end. unfold src_new_file in Hs. unb Hs; injection Hs as <-; done.
Qed.
Lemma call_tidy w G R g w' G' R' g' : src_inv w G R g -> src_call (w, G, R, g) (w', G', R', g') -> tidy w g -> tidy w' g'.
Proof.
  intros I Hc (H1 & H2 & H3 & H5). inversion Hc; subst; clear Hc; unfold tidy.
  - match goal with H : src_create _ _ = _ |- _ => destruct (create_same _ _ _ H) as [-> ->] end. split; [done|]. split; [done|]. split; [done|].
    unfold created. destruct (g_exists g); [done|]. cbn [g_toks]. intros b t. by rewrite lookup_empty.
  - match goal with H : src_destroy _ = _ |- _ => unfold src_destroy in H; unb H; injection H as <- end;
    cbn [v_used v_info destroyed g_toks]; (split; [done|]); (split; [done|]); (split; [done|]); intros b t; by rewrite lookup_empty.
  - match goal with H : src_line _ _ _ _ = _ |- _ => rename H into HL end. unfold src_line in HL.
    destruct (match v_lines w with None => src_create al w | Some _ => Ret w end) as [s1| | | |] eqn:Es; try discriminate HL.
    assert (Eu : v_used s1 = v_used w) by (destruct (v_lines w); [injection Es as <-; done|by destruct (create_same _ _ _ Es)]).
    cbn [mbind res_bind] in HL. unb HL. injection HL as <- <-. cbn [v_used v_info t_index t_offset].
    match goal with H : sint (v_used s1 + 1) = _ |- _ => apply sint_int in H as [-> Hi] end. unfold is_int in *.
    cbn [lined g_toks]. split; [lia|]. split; [lia|]. split; [lia|]. unfold created. destruct (g_exists g); [done|]. cbn [g_toks]. intros b t. by rewrite lookup_empty.
  - match goal with H : src_new_file _ _ _ = _ |- _ => unfold src_new_file in H; unb H; injection H as <- end. done.
  - done.
  - match goal with H : src_advance _ _ = _ |- _ => unfold src_advance in H; unb H; injection H as <- end.
    match goal with H : sint _ = _ |- _ => apply sint_int in H as [-> Hi] end. done.
  - match goal with H : src_cpp_line _ _ _ _ = _ |- _ => destruct (cpp_same _ _ _ _ _ H) as (-> & -> & ->) end. done.
  - match goal with H : src_cpp_line _ _ _ _ = _ |- _ => destruct (cpp_same _ _ _ _ _ H) as (-> & -> & ->) end. done.
  - match goal with H : src_get _ _ _ = _ |- _ => rename H into HL end. unfold src_get in HL. unb HL. injection HL as <- <-.
    match goal with H : src_advance _ _ = _ |- _ => unfold src_advance in H; unb H; injection H as <- end.
    match goal with H : sint _ = _ |- _ => apply sint_int in H as [-> Hi] end. cbn [took set_info v_info v_used t_index t_offset g_toks] in *.
    split; [done|]. split; [done|]. split; [done|]. intros b t [[<- <-]|[_ Hb]]%lookup_insert_Some; [|by eapply H5]. cbn [here k_offset k_length].
    by rewrite <- (n_offset _ _ _ _ I).
  - match goal with H : src_parse_error _ _ _ _ = _ |- _ => unfold src_parse_error in H; unb H; injection H as <- end. done.
  - done.
  - done.
  - done.
Qed.
Lemma history_tidy w G R g : src_history w G R g -> tidy w g.
Proof.
  unfold src_history. intros H.
  assert (forall x y, src_later x y -> match x, y with (w, G, R, g), (w', G', R', g') => src_inv w G R g -> tidy w g -> tidy w' g' end) as HH.
  { clear. induction 1 as [[[[w G] R] g]|[[[w G] R] g] [[[w1 G1] R1] g1] [[[w2 G2] R2] g2] Hc _ IH]; [done|].
    intros I T. apply IH; [by eapply call_inv|by eapply call_tidy]. }
  apply (HH _ _ H); [apply inv_start|]. unfold tidy, is_int. cbn. split; [lia|]. split; [lia|]. split; [lia|]. intros a t. by rewrite lookup_empty.
Qed.

Section src.
Context (o : system) (on : bool) (fs : fstate) (t : Z) (Ht : dbg_test fs MAA_SRC = Ret t) (Hon : (t =? 0) = negb on) (Ho : lets_write o).

Lemma line_does al s line len : 0 <= v_used s ->
  doesP o on (src_line_d o fs al s line len) (src_line al s line len) (fun '(s', p) n =>
    exists tx, n = [ToLog (text "Line " ++ c_itoa (v_used s) ++ text ": " ++ tx)] /\ str_at (mblk (w_text s')) (Some p) = Ret tx).
Proof using Ht Hon Ho.
  intros Hu. unfold src_line_d, src_line. apply P_lift. intros s1 E1.
  assert (Eu : v_used s1 = v_used s).
  { destruct (v_lines s) eqn:El; [injection E1 as <-; done|]. unfold src_create in E1. rewrite El in E1.
    destruct (sa_vec _ _); [|done]. destruct (mem_create_strings _ _) as [[m i]| | | |]; try done. cbn [mbind res_bind] in E1.
    destruct (mem_create_objects _ _ _) as [[ob j]| | | |]; try done. cbn [mbind res_bind] in E1. injection E1 as <-. done. }
  apply P_lift. intros n _. apply P_lift. intros h _. apply P_lift. intros [m a] _. cbn [fst snd].
  destruct (v_lines s1) as [v|]; [|by apply P_fail]. apply P_lift. intros v1 Ev1. apply P_lift. intros b Eb. apply P_lift. intros b' Eb'.
  destruct (detab_string b b' Eb') as [tx Etx]. rewrite Etx. cbn [mbind res_bind].
  eapply P_seq; [apply (does_say o on fs MAA_SRC t Ht Hon); exact Ho|].
  apply P_lift. intros u Eu1. apply P_lift. intros [c v2] Ec. cbn [fst snd]. apply P_lift. intros r Er.
  destruct r as [p|]; [|by apply P_fail]. apply P_ret. exists tx. rewrite Eu. split; [done|].
  assert (p = a) as ->.
  { assert (u = v_used s1 + 1) as -> by (unfold sint in Eu1; destruct (int_range (v_used s1 + 1)); [by injection Eu1|done]).
    rewrite Z.add_simpl_r in Er. unfold aset in Ev1. destruct (v !! Z.to_nat (v_used s1)) as [x|] eqn:Hl; [|done]. injection Ev1 as <-. apply lookup_lt_Some in Hl.
    assert (Hx : <[Z.to_nat (v_used s1) := Some a]> v !! Z.to_nat (v_used s1) = Some (Some a)) by (by apply list_lookup_insert).
    unfold aget in Er. destruct (v_used s1 + 1 >=? v_count s1) eqn:Eg.
    - destruct (sint (v_count s1 + _)) as [c0| | | |] eqn:Ec0; try done. cbn [mbind res_bind] in Ec. destruct (sa_vec _ _); [|done].
      injection Ec as <- <-. assert (c0 = v_count s1 + Z.of_nat INCREMENT) by (unfold sint in Ec0; destruct (int_range _); [by injection Ec0|done]).
      destruct ((take _ _ ++ _) !! _) as [e|] eqn:El; [|done]. injection Er as ->.
      apply lookup_app_Some in El as [El|[Hge El]].
      + apply lookup_take_Some in El as [El _]. congruence.
      + by apply lookup_replicate in El as [? _].
    - injection Ec as <- <-. rewrite Hx in Er. by injection Er. }
  unfold str_at. cbn [w_text mblk]. rewrite (hget_Some _ a b'); [|apply lookup_insert]. exact Etx.
Qed.

(** src_cpp_line, with the words of the line *)
Definition cpp_notes (ws : list (list N)) : list note :=
  match ws with
  | [_; v1] => [ToLog (text "lineno " ++ v1 ++ [10%N])]
  | _ :: v1 :: v2 :: _ => [ToLog (text "lineno " ++ v1 ++ text " in " ++ v2 ++ [10%N])]
  | _ => []
  end.
Lemma cpp_does al w G R g src n s ws : src_inv w G R g -> salloc_ok al -> first_bytes src n s -> str_ok s ->
  Z.of_nat (length s) + 3 < 2 ^ 30 -> line true true s ws ->
  does o on (src_cpp_line_d o fs al w src n) (src_cpp_line al w src n) (cpp_notes ws).
Proof using Ht Hon Ho.
  intros I Hal Hfb Hs Hl Hline. destruct (strncpy_text src n s Hfb Hs) as (z & Ez & Hz & Hn0).
  eapply (P_does _ _ _ _ (fun _ n => n = cpp_notes ws)); [|done].
  unfold src_cpp_line_d, src_cpp_line. apply P_lift. intros n' _. destruct (n <? 0); [by apply P_fail|].
  rewrite Ez. apply P_lift. intros tmp [= <-].
  assert (exists r, (s ++ z) ++ [0%N] = s ++ 0%N :: r) as [r ->].
  { rewrite <- app_assoc. destruct z as [|c z]; [by exists []|]. apply Forall_cons in Hz as [<- _]. by exists (z ++ [0%N]). }
  pose proof (C41_argify (w_arg w) ∅ (sa_arg al) s r 0 ws (n_arg _ _ _ _ I) (sal_arg _ Hal) Hs Hl Hline) as Ha.
  apply P_lift. intros [aw p] Ea. rewrite Ea in Ha. cbn [fst snd]. destruct Ha as (_ & [ga Hga] & Hcount & Hget).
  pose proof (line_chars _ true true s ws Hline Hs) as Hws.
  assert (Hstr : forall i v, ws !! i = Some v -> exists q, arg_get aw (Some p) (Z.of_nat i) = Ret (Some q) /\ str_at (mblk (amem aw)) (Some q) = Ret v).
  { intros i v Hi. destruct (Hget i v Hi) as (q & E1 & E2). exists q. split; [done|]. unfold str_at. rewrite (hget_Some _ _ _ E2). cbn [mbind res_bind].
    apply c_string_spec. rewrite Forall_lookup in Hws. by eapply Hws. }
  assert (Hshort : (length ws <= 1)%nat -> arg_get aw (Some p) 1 = Abort).
  { intros Hw. eapply (C40_get_range aw _ p ga 1 Hga (lookup_insert _ _ _)).
    destruct (C40_vector aw _ p ga Hga (lookup_insert _ _ _)) as (Hc & _). rewrite Hcount in Hc. injection Hc as Hc. right. lia. }
  apply P_lift. intros a1 E1. apply P_lift. intros b1 _. apply P_lift. intros l _. rewrite Hcount. apply P_lift. intros c [= <-].
  destruct ws as [|v0 [|v1 vs]]; [rewrite Hshort in E1 by (cbn; lia); discriminate E1..|].
  destruct (Hstr 1%nat v1 eq_refl) as (q1 & F1 & S1). change (Z.of_nat 1) with 1 in F1. clear E1.
  destruct vs as [|v2 vs].
  - change (Z.of_nat (length [v0; v1]) =? 2) with true. cbn iota.
    eapply (P_bind _ _ _ _ _ _ (fun _ n => n = cpp_notes [v0; v1])).
    + assert (Em : (a ← arg_get aw (Some p) 1; t ← str_at (mblk (amem aw)) a; Ret (text "lineno " ++ t ++ [10%N])) = Ret (text "lineno " ++ v1 ++ [10%N]))
        by (rewrite F1; cbn [mbind res_bind]; by rewrite S1).
      rewrite Em. eapply P_seq; [apply (does_say o on fs MAA_SRC t Ht Hon); exact Ho|]. by apply P_ret.
    + intros s2 n1 _ ->. apply P_lift. intros w' _. by apply P_ret.
  - assert (E2 : (Z.of_nat (length (v0 :: v1 :: v2 :: vs)) =? 2) = false) by (cbn [length]; lia). rewrite E2.
    destruct (Hstr 2%nat v2 eq_refl) as (q2 & F2 & S2). change (Z.of_nat 2) with 2 in F2.
    eapply (P_bind _ _ _ _ _ _ (fun _ n => n = cpp_notes (v0 :: v1 :: v2 :: vs))).
    + assert (Em : (a ← arg_get aw (Some p) 1; a' ← arg_get aw (Some p) 2; t ← str_at (mblk (amem aw)) a; t' ← str_at (mblk (amem aw)) a';
                      Ret (text "lineno " ++ t ++ text " in " ++ t' ++ [10%N])) = Ret (text "lineno " ++ v1 ++ text " in " ++ v2 ++ [10%N]))
        by (rewrite F1; cbn [mbind res_bind]; rewrite F2; cbn [mbind res_bind]; rewrite S1; cbn [mbind res_bind]; by rewrite S2).
      rewrite Em. eapply P_seq; [apply (does_say o on fs MAA_SRC t Ht Hon); exact Ho|].
      apply P_lift. intros a _. apply P_lift. intros b2 _. by apply P_end.
    + intros s2 n1 _ ->. apply P_lift. intros w' _. by apply P_ret.
Qed.

(** src_get *)
Lemma get_does al s n f : str_at (mblk (pmem (rw (w_prs s)))) (t_file (v_info s)) = Ret f ->
  does o on (src_get_d fs al s n) (src_get al s n)
    [ToStdout (f ++ text ":" ++ c_itoa (t_line (v_info s)) ++ text " @ " ++ c_itoa (t_offset (v_info s)) ++ text ", " ++ c_itoa n ++ text "; " ++
               c_itoa (t_index (v_info s)) ++ [10%N])].
Proof using Ht Hon.
  intros Hf. eapply (P_does _ _ _ _ (fun _ n => n = _)); [|done]. unfold src_get_d, src_get. destruct (v_lines s) as [v|]; [|by apply P_fail].
  apply P_lift. intros j _. apply P_lift. intros [ob a] _. cbn [fst snd]. apply P_lift. intros b _.
  cbn [t_file t_line t_offset t_length t_index]. rewrite Hf. cbn [mbind res_bind].
  eapply P_seq; [apply (does_stdout o on fs MAA_SRC t Ht Hon)|]. apply P_lift; intros s2 _. apply P_ret. by rewrite app_nil_r.
Qed.

(** the errors *)
Definition fudge_note (off len : list N) : list N := text "s->offset = " ++ off ++ text ", fudge = 0, s->length = " ++ len ++ [10%N].
Definition error_notes (st : LogModel.stream) (f d l off len : list N) (t : gtok) : list note :=
  [Prints st (place f d ++ l); ToLog (fudge_note off len); Prints st (place f d)] ++
  replicate (Z.to_nat (k_offset t)) (Prints st [32%N]) ++ replicate (Z.to_nat (k_length t)) (Prints st [94%N]) ++ [Prints st [10%N]].
Lemma error_does w G R g st a tk f l : src_inv w G R g -> g_toks g !! a = Some tk -> k_file tk = Some f -> k_text tk = Some l ->
  does o on (print_error_d o fs w st (Some a)) (Ret tt) (error_notes st f (c_itoa (k_line tk)) l (c_itoa (k_offset tk)) (c_itoa (k_length tk)) tk).
Proof using Ht Hon Ho.
  intros I Ha Hf Hl. destruct (label_ok w G R g a tk f I Ha Hf) as (x & Hx & Hlab & Hoff & Hlen).
  unfold print_error_d, src_print_line_d. rewrite (print_line_ok w G R g a tk f l I Ha Hf Hl). unfold error_notes.
  cbn [app]. eapply (does_seq o on _ _ _ [_]); [apply does_pure, does_print|]. rewrite (hget_Some _ _ _ Hx).
  set (r1 := replicate (Z.to_nat (k_offset tk)) _). set (r2 := replicate (Z.to_nat (k_length tk)) _).
  assert (El : forall n1 n2, n1 :: n2 :: r1 ++ r2 ++ [Prints st [10%N]] = ([n1] ++ [n2] ++ r1 ++ r2) ++ [Prints st [10%N]]) by (intros; cbn [app]; by rewrite <- app_assoc).
  rewrite El. eapply does_seq; [|apply does_print]. apply does_pure. rewrite Hoff, Hlen.
  eapply does_seq; [apply (does_say o on fs MAA_SRC t Ht Hon); exact Ho|]. rewrite Hlab. apply does_pure.
  eapply does_seq; [apply does_print|]. eapply does_seq; apply does_prints.
Qed.
Lemma error_null_does w st : does o on (print_error_d o fs w st None) (Ret tt)
  [Prints st (text "?:?: <source line not available>" ++ [10%N]); Prints st (text "?:?: "); Prints st [10%N]].
Proof using Type.
  unfold print_error_d, src_print_line_d, src_print_line. eapply (does_seq o on _ _ _ [_]); [apply does_pure, does_print|].
  eapply (does_seq o on _ _ _ [_] [_]); apply does_print.
Qed.
Lemma parse_does w G R g st a tk f l message p' m : src_inv w G R g -> g_toks g !! a = Some tk -> k_file tk = Some f -> k_text tk = Some l ->
  print_yyerror (w_prs w) message = Ret (p', m) -> src_inv (set_prs w p') G R g ->
  does o on (src_parse_error_d o fs w st (Some a) message) (Ret (set_prs w p'))
    ([Prints (default LogModel.Stdout st) (place f (c_itoa (k_line tk))); Prints (default LogModel.Stdout st) m; Prints (default LogModel.Stdout st) [10%N]] ++
     error_notes (default LogModel.Stdout st) f (c_itoa (k_line tk)) l (c_itoa (k_offset tk)) (c_itoa (k_length tk)) tk).
Proof using Ht Hon Ho.
  intros I Ha Hf Hl E I'. unfold src_parse_error_d. rewrite (head_ok w G R g a tk f I Ha Hf). apply does_pure.
  cbn [app]. eapply (does_seq o on _ _ _ [_]); [apply does_print|]. rewrite E. apply does_pure. cbn [fst snd].
  eapply (does_seq o on _ _ _ [_]); [apply does_print|]. eapply (does_seq o on _ _ _ [_]); [apply does_print|].
  set (ns := error_notes _ _ _ _ _ _ _). rewrite <- (app_nil_r ns). eapply does_seq; [exact (error_does _ G R g _ a tk f l I' Ha Hf Hl)|]. apply does_ret.
Qed.
Lemma parse_null_does w st message p' m : print_yyerror (w_prs w) message = Ret (p', m) ->
  does o on (src_parse_error_d o fs w st None message) (Ret (set_prs w p'))
    ([Prints (default LogModel.Stdout st) (text "?:?: "); Prints (default LogModel.Stdout st) m; Prints (default LogModel.Stdout st) [10%N]] ++
     [Prints (default LogModel.Stdout st) (text "?:?: <source line not available>" ++ [10%N]); Prints (default LogModel.Stdout st) (text "?:?: ");
      Prints (default LogModel.Stdout st) [10%N]]).
Proof using Type.
  intros E. unfold src_parse_error_d. unfold SourceModel.head. apply does_pure. cbn [app].
  eapply (does_seq o on _ _ _ [_]); [apply does_print|]. rewrite E. apply does_pure. cbn [fst snd].
  eapply (does_seq o on _ _ _ [_]); [apply does_print|]. eapply (does_seq o on _ _ _ [_]); [apply does_print|].
  eapply (does_seq o on _ _ _ [_; _; _] []); [apply error_null_does|]. apply does_ret.
Qed.
Lemma print_does w G R g st a tk f l formatted : src_inv w G R g -> g_toks g !! a = Some tk -> k_file tk = Some f -> k_text tk = Some l ->
  does o on (src_print_error_d o fs w (Some st) (Some a) formatted) (Ret tt)
    ([Flushes st] ++ match formatted with None => [] | Some m => [Prints st (place f (c_itoa (k_line tk))); Prints st m; Prints st [10%N]] end ++
     error_notes st f (c_itoa (k_line tk)) l (c_itoa (k_offset tk)) (c_itoa (k_length tk)) tk).
Proof using Ht Hon Ho.
  intros I Ha Hf Hl. unfold src_print_error_d. eapply does_seq; [apply does_flush|].
  eapply does_seq; [|exact (error_does _ G R g _ a tk f l I Ha Hf Hl)]. destruct formatted as [m|]; [|apply does_ret].
  rewrite (head_ok w G R g a tk f I Ha Hf). apply does_pure. eapply (does_seq o on _ _ _ [_]); [apply does_print|]. eapply (does_seq o on _ _ _ [_] [_]); apply does_print.
Qed.
End src.

Lemma printed_app st a b : printed st (a ++ b) = printed st a ++ printed st b.
Proof. induction a as [|n a IH]; [done|]. destruct n; cbn [app printed]; try done. by rewrite IH, app_assoc. Qed.
Lemma printed_repl st c n : printed st (replicate n (Prints st [c])) = replicate n c.
Proof. induction n as [|n IH]; [done|]. cbn [replicate printed]. rewrite decide_True by done. by rewrite IH. Qed.
Lemma logged_app a b : logged (a ++ b) = logged a ++ logged b.
Proof. induction a as [|n a IH]; [done|]. destruct n; cbn [app logged]; try done. by rewrite IH. Qed.
Lemma logged_repl st c n : logged (replicate n (Prints st [c])) = [].
Proof. by induction n. Qed.
Lemma error_printed st f d l off len t : printed st (error_notes st f d l off len t) = (place f d ++ l) ++ caret_out f d t.
Proof.
  unfold error_notes, caret_out. rewrite !printed_app, !printed_repl. cbn [printed]. by rewrite !decide_True, !app_nil_r, <- !app_assoc by done.
Qed.
Lemma error_logged st f d l off len t : logged (error_notes st f d l off len t) = [fudge_note off len].
Proof. unfold error_notes. by rewrite !logged_app, !logged_repl. Qed.
