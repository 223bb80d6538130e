(** pr_readwrite and pr_filter. *)
From Verif Require Import Base Alloc ListLemmas CStr StackModel StackProofs ObjModel ObjProofs MemModel MemProofs MemHist.
From Verif Require Import ArgModel ArgProofs ArgSpec ArgHist PrModel PrSpec PrProofs PrHist.
Local Open Scope Z_scope.

Lemma pr_wait_kind ans : pr_wait ans <> Fatal /\ pr_wait ans <> Abort /\ pr_wait ans <> UB.
Proof. induction ans as [|a x IH]; [done|]. destruct a; cbn; done. Qed.
Lemma store_ok got rest bs : (length bs <= length rest)%nat ->
  store (got ++ rest) (length got) bs = Ret (got ++ bs ++ drop (length bs) rest).
Proof.
  intros H. unfold store. rewrite app_length. destruct (Nat.leb_spec (length got + length bs) (length got + length rest)); [|lia].
  rewrite take_app. do 3 f_equal. rewrite drop_app_ge by lia. f_equal. lia.
Qed.
Definition closed_in (inn inlen : Z) (w : prw) : prw := if decide (inlen = 0) then w else after_close w inn.
Definition buf_of (a : rans) : list N := match a with Got bs => bs | _ => [] end.
Lemma rw_loop_ok inn out ans sched : forall w R inb inlen buf outlen room sent got rest pid,
  base w R -> R !! out = Some pid -> (inlen <> 0 -> is_Some (R !! inn)) -> inn <> out ->
  fd_set_ok out = true -> (inlen <> 0 -> fd_set_ok inn = true) ->
  0 <= inlen <= Z.of_nat (length inb) -> 0 <= room <= Z.of_nat (length rest) -> buf = got ++ rest ->
  outlen = Z.of_nat (length got) -> outlen + room < 2 ^ 31 -> kernel inlen room sched ->
  match rw_loop inn out ans sched (RW w inb inlen buf outlen room sent) with
  | Ret e => e_sent e = sent ++ take (Z.to_nat inlen) inb /\
      e_len e = outlen + Z.of_nat (length (received sched)) /\
      e_buf e = got ++ received sched ++ drop (length (received sched)) rest /\
      Z.of_nat (length (received sched)) <= room /\
      e_w e = after_close (closed_in inn inlen w) out /\ eof_seen sched /\ (exists l, pr_wait ans = Ret (e_status e, l))
  | Fatal => trouble sched \/ premature inlen sched
  | Diverge => ~ eof_seen sched \/ pr_wait ans = Diverge
  | _ => False
  end.
Proof.
  induction sched as [|t sched IH]; intros w R inb inlen buf outlen room sent got rest pid B Hout Hin Hio Hfo Hfi Hil Hr -> -> Hov HK.
  { left. intros H. inversion H. }
  cbn [rw_loop]. unfold rw_turn. rewrite Hfo. cbn [negb]. cbn [r_inlen].
  assert (Hfi' : negb (inlen =? 0) && negb (fd_set_ok inn) = false).
  { destruct (Z.eqb_spec inlen 0); [done|]. by rewrite Hfi. }
  rewrite Hfi'. destruct t as [sel wa ra]; cbn [t_sel t_w t_r] in *.
  destruct sel; cbn [negb]; [|left; apply Exists_cons; cbn; auto].
  destruct HK as (HKw & HKr & HK). cbn [t_w t_r] in HKw, HKr, HK.
  (* the write half *)
  assert (W : (wa = WErr /\ inlen <> 0 /\ rw_write inn wa (RW w inb inlen (got ++ rest) (Z.of_nat (length got)) room sent) = Fatal) \/
     exists w1 inb1 sent1 R1, rw_write inn wa (RW w inb inlen (got ++ rest) (Z.of_nat (length got)) room sent) =
       Ret (RW w1 inb1 (todo_after inlen wa) (got ++ rest) (Z.of_nat (length got)) room sent1) /\
       base w1 R1 /\ R1 !! out = Some pid /\ (todo_after inlen wa <> 0 -> is_Some (R1 !! inn)) /\
       (todo_after inlen wa <> 0 -> inlen <> 0) /\
       0 <= todo_after inlen wa <= Z.of_nat (length inb1) /\
       sent1 ++ take (Z.to_nat (todo_after inlen wa)) inb1 = sent ++ take (Z.to_nat inlen) inb /\
       closed_in inn (todo_after inlen wa) w1 = closed_in inn inlen w).
  { unfold rw_write; cbn [r_inlen r_in r_w r_sent r_buf r_outlen r_room]. destruct (Z.eqb_spec inlen 0) as [->|Hne].
    - right. exists w, inb, sent, R. assert (Et : todo_after 0 wa = 0) by (unfold todo_after; by destruct wa). rewrite Et.
      split; [done|]. split; [done|]. split; [done|]. split; [done|]. split; [done|]. split; [lia|]. done.
    - assert (Eb : (inlen <? 0) || (Z.of_nat (length inb) <? inlen) = false) by lia. rewrite Eb.
      destruct wa as [n| |]; [|right|left; done].
      + right. destruct HKw as [?|Hn]; [done|]. assert (Et : todo_after inlen (Wrote n) = inlen - n) by (unfold todo_after; by rewrite decide_False).
        rewrite Et. assert (Ed : take (Z.to_nat n) inb ++ take (Z.to_nat (inlen - n)) (drop (Z.to_nat n) inb) = take (Z.to_nat inlen) inb).
        { rewrite take_take_drop. f_equal. lia. }
        destruct (Hin Hne) as [pi Hpi]. destruct (Z.eqb_spec (inlen - n) 0) as [E0|E0].
        * rewrite (close_nowait_ok w R inn pi B Hpi). rb.
          exists (after_close w inn), (drop (Z.to_nat n) inb), (sent ++ take (Z.to_nat n) inb), (delete inn R).
          split; [done|]. split; [by eapply base_close|]. split; [by rewrite lookup_delete_ne|]. split; [done|]. split; [done|].
          split; [lia|]. rewrite <- app_assoc, Ed. split; [done|]. unfold closed_in. rewrite decide_True by done. by rewrite decide_False.
        * exists w, (drop (Z.to_nat n) inb), (sent ++ take (Z.to_nat n) inb), R.
          split; [done|]. split; [done|]. split; [done|]. split; [auto|]. split; [done|].
          split; [rewrite drop_length; lia|]. rewrite <- app_assoc, Ed. split; [done|]. unfold closed_in.
          rewrite decide_False by done. by rewrite decide_False.
      + exists w, inb, sent, R. cbn [todo_after]. split; [done|]. split; [done|]. split; [done|]. split; [auto|]. split; [done|]. split; [lia|]. done. }
  destruct W as [(-> & Hne & ->)|(w1 & inb1 & sent1 & R1 & -> & B1 & Hout1 & Hin1 & Hmono & Hil1 & Hsent & Hcl)].
  { cbn. left. apply Exists_cons. cbn. auto. }
  rb. unfold rw_read. cbn [r_room r_inlen r_w r_buf r_outlen r_sent r_in]. destruct (Z.ltb_spec room 0); [lia|].
  assert (Cont : forall got' rest' room' rcv, match ra with Got [] => False | _ => True end ->
     buf_of ra = rcv -> got' = got ++ rcv -> rest' = drop (length rcv) rest -> room' = room - Z.of_nat (length rcv) -> 0 <= room' ->
     kernel (todo_after inlen wa) room' sched ->
     match rw_loop inn out ans sched (RW w1 inb1 (todo_after inlen wa) (got' ++ rest') (Z.of_nat (length got')) room' sent1) with
     | Ret e => e_sent e = sent ++ take (Z.to_nat inlen) inb /\
         e_len e = Z.of_nat (length got) + Z.of_nat (length (received (Turn true wa ra :: sched))) /\
         e_buf e = got ++ received (Turn true wa ra :: sched) ++ drop (length (received (Turn true wa ra :: sched))) rest /\
         Z.of_nat (length (received (Turn true wa ra :: sched))) <= room /\
         e_w e = after_close (closed_in inn inlen w) out /\ eof_seen (Turn true wa ra :: sched) /\
         (exists l, pr_wait ans = Ret (e_status e, l))
     | Fatal => trouble (Turn true wa ra :: sched) \/ premature inlen (Turn true wa ra :: sched)
     | Diverge => ~ eof_seen (Turn true wa ra :: sched) \/ pr_wait ans = Diverge
     | _ => False
     end).
  { intros got' rest' room' rcv Hra Hb -> -> -> Hr' HK'.
    assert (Erec : received (Turn true wa ra :: sched) = rcv ++ received sched).
    { cbn. rewrite <- Hb. destruct ra as [[|b bs]| |]; done. }
    specialize (IH w1 R1 inb1 (todo_after inlen wa) ((got ++ rcv) ++ drop (length rcv) rest) (Z.of_nat (length (got ++ rcv)))
      (room - Z.of_nat (length rcv)) sent1 (got ++ rcv) (drop (length rcv) rest) pid B1 Hout1 Hin1 Hio Hfo (fun H => Hfi (Hmono H)) Hil1).
    assert (Hd : 0 <= room - Z.of_nat (length rcv) <= Z.of_nat (length (drop (length rcv) rest))) by (rewrite drop_length; lia).
    specialize (IH Hd eq_refl eq_refl). rewrite app_length in IH |- *. specialize (IH ltac:(lia) HK').
    destruct (rw_loop _ _ _ _ _) as [e| | | |]; try done.
    - destruct IH as (I1 & I2 & I3 & I4 & I5 & I6 & I7). rewrite Erec, !app_length. split; [congruence|]. split; [lia|]. split.
      { rewrite I3, <- !app_assoc, drop_drop. done. }
      split; [lia|]. split; [congruence|]. split; [by apply Exists_cons; right|done].
    - destruct IH as [H1|H1]; [left; by apply Exists_cons; right|]. right. cbn. right. split; [|done].
      intros ->. done.
    - destruct IH as [H1|H1]; [left|by right]. intros H2. apply Exists_cons in H2 as [H2|H2]; [|done]. cbn in H2. by subst ra. }
  destruct ra as [[|b bs]| |].
  - (* read returned 0 *)
    destruct (Z.eqb_spec (todo_after inlen wa) 0) as [E0|E0]; cbn [negb].
    2: { right. cbn. left. done. }
    unfold pr_close. rewrite (close_nowait_ok w1 R1 out pid B1 Hout1). rb.
    destruct (pr_wait ans) as [[st l]| | | |] eqn:Ew; cbn [mbind res_bind]; try (destruct (pr_wait_kind ans) as (? & ? & ?); congruence).
    2: { by right. }
    cbn [e_sent e_len e_buf e_w e_status]. rewrite E0 in Hsent, Hcl. cbn in Hsent. rewrite app_nil_r in Hsent.
    unfold closed_in in Hcl at 1. rewrite decide_True in Hcl by done. cbn [received t_r]. rewrite app_nil_l. cbn.
    split; [done|]. split; [lia|]. split; [done|]. split; [lia|]. split; [congruence|]. split; [by apply Exists_cons; left|]. eauto.
  - rewrite Nat2Z.id. assert (Hlb : (length (b :: bs) <= length rest)%nat) by lia. rewrite (store_ok got rest (b :: bs)) by done. rb.
    unfold sint. assert (R1' : int_range (Z.of_nat (length got) + Z.of_nat (length (b :: bs))) = true) by (unfold int_range, INT_MIN, INT_MAX; lia).
    rewrite R1'. rb. assert (R2' : int_range (room - Z.of_nat (length (b :: bs))) = true) by (unfold int_range, INT_MIN, INT_MAX; lia).
    rewrite R2'. rb. destruct (Z.ltb_spec (room - Z.of_nat (length (b :: bs))) 0); [lia|].
    rewrite app_assoc. rewrite <- Nat2Z.inj_add, <- app_length. by apply (Cont (got ++ b :: bs) (drop (length (b :: bs)) rest) _ (b :: bs)).
  - specialize (Cont got rest room []). rewrite Z.sub_0_r in Cont. apply Cont; try done. by rewrite app_nil_r.
  - cbn. left. apply Exists_cons. cbn. auto.
Qed.

Lemma delivered sched : forall todo out room, kernel todo room sched -> 0 <= room -> delivers out room sched -> eof_seen sched ->
  received sched = take (Z.to_nat room) out.
Proof.
  induction sched as [|t sched IH]; intros todo out room HK Hr HD HE; [inversion HE|].
  destruct t as [sel wa ra]. destruct HK as (_ & HKr & HK). cbn [t_w t_r delivers received] in *.
  apply Exists_cons in HE. cbn [t_r] in HE. destruct ra as [[|b bs]| |].
  - destruct HD as [H1 _]. destruct (decide (room = 0)) as [->|]; [done|]. rewrite H1 by (done || lia). by rewrite take_nil.
  - destruct HE as [?|HE]; [done|]. destruct HD as (_ & rest & -> & HD).
    rewrite (IH _ rest _ HK ltac:(lia) (HD ltac:(done)) HE).
    rewrite (take_app_ge (b :: bs)) by lia. f_equal. f_equal. lia.
  - destruct HE as [?|HE]; [done|]. by eapply IH.
  - destruct HE as [?|HE]; [done|]. by eapply IH.
Qed.

Lemma readwrite_ok w R C inn out inb inlen outb room sched ans pid pido :
  pinv w R C -> R !! inn = Some pid -> R !! out = Some pido -> inn <> out -> inn < FD_SETSIZE -> out < FD_SETSIZE ->
  0 <= inlen <= Z.of_nat (length inb) -> 0 <= room <= Z.of_nat (length outb) -> room < 2 ^ 31 -> kernel inlen room sched ->
  match pr_readwrite w inn out inb inlen outb room sched ans with
  | Ret e => e_sent e = take (Z.to_nat inlen) inb /\
      e_len e = Z.of_nat (length (received sched)) /\
      e_buf e = received sched ++ drop (length (received sched)) outb /\
      Z.of_nat (length (received sched)) <= room /\
      e_w e = after_close (closed_in inn inlen w) out /\ eof_seen sched /\ (exists l, pr_wait ans = Ret (e_status e, l))
  | Fatal => trouble sched \/ premature inlen sched
  | Diverge => ~ eof_seen sched \/ pr_wait ans = Diverge
  | _ => False
  end.
Proof.
  intros I Hi Ho Hne Hfi Hfo Hil Hr Hov HK. unfold FD_SETSIZE in *.
  destruct (i_reg _ _ _ I inn pid Hi) as (ei & ki & ci & Hei & _). destruct (i_reg _ _ _ I out pido Ho) as (eo & ko & co & Heo & _).
  pose proof (i_nonneg _ _ _ I inn ei Hei). pose proof (i_nonneg _ _ _ I out eo Heo).
  unfold pr_readwrite. rewrite Hei, Heo. unfold sint.
  assert (Er : int_range (Z.max inn out + 1) = true) by (unfold int_range, INT_MIN, INT_MAX; lia). rewrite Er. rb.
  apply (rw_loop_ok inn out ans sched w R inb inlen outb 0 room [] [] outb pido); try done.
  - apply I.
  - unfold fd_set_ok, FD_SETSIZE. lia.
  - unfold fd_set_ok, FD_SETSIZE. lia.
Qed.
Lemma rw_history w R C inn out inlen pid pido : pr_history (PS w R C) -> R !! inn = Some pid -> R !! out = Some pido -> inn <> out ->
  pr_history (PS (after_close (closed_in inn inlen w) out) (delete out (if decide (inlen = 0) then R else delete inn R)) C).
Proof.
  intros H Hi Ho Hne. pose proof (history_pinv _ H) as I. cbn [ps_w ps_reg ps_kids] in I. unfold closed_in. case_decide.
  - eapply ph_step; [done|]. eapply pc_close; [done|]. eapply close_nowait_ok; [apply I|done].
  - assert (H1 : pr_history (PS (after_close w inn) (delete inn R) C)).
    { eapply ph_step; [done|]. eapply pc_close; [done|]. eapply close_nowait_ok; [apply I|done]. }
    pose proof (history_pinv _ H1) as I1. cbn [ps_w ps_reg ps_kids] in I1.
    assert (delete inn R !! out = Some pido) by (by rewrite lookup_delete_ne).
    eapply ph_step; [done|]. eapply pc_close; [done|]. eapply close_nowait_ok; [apply I1|done].
Qed.

Definition FILTER := Z.lor PR_CREATE_STDIN PR_CREATE_STDOUT.
Lemma filter_proper w m : proper (p_tab w) m FILTER (arg3 (Some 0) (Some 0) None).
Proof.
  constructor.
  - apply flags_legal. reflexivity.
  - intros s [->|[->| ->]]; cbn; try done; eauto.
  - intros s f [->|[->| ->]] (H & _); done.
  - intros s s' f [->|[->| ->]] _ (H & _); done.
Qed.
Lemma polite_none t flags fds : polite None t flags fds.
Proof. intros T fd _ _. done. Qed.
Lemma no_copies_none : no_copies None.
Proof. intros T fd e H _. done. Qed.

Lemma filter_ok o w R C s rest ws inb inlen outb room sched ans out :
  pr_history (PS w R C) -> os_ok o (limit o w) -> limit o w <= FD_SETSIZE ->
  str_ok s -> Z.of_nat (length s) + 3 < 2 ^ 30 -> line true true s ws ->
  0 <= inlen <= Z.of_nat (length inb) -> 0 <= room <= Z.of_nat (length outb) -> room < 2 ^ 31 ->
  kernel inlen room sched -> delivers out room sched ->
  match pr_filter o w (s ++ 0%N :: rest) inb inlen outb room sched ans with
  | Ret (e, c) =>
      e_sent e = take (Z.to_nat inlen) inb /\
      e_len e = Z.of_nat (length (take (Z.to_nat room) out)) /\
      e_buf e = take (Z.to_nat room) out ++ drop (length (take (Z.to_nat room) out)) outb /\
      c_words c = ws /\
      (exists k1 k2, c_tab c !! 0 = Some (REnd k1) /\ c_tab c !! 1 = Some (WEnd k2) /\ c_tab c !! 2 = p_tab w !! 2 /\
        (0 < inlen -> p_tab (e_w e) = p_tab w /\ pr_history (PS (e_w e) R ((o_fork o, c) :: C))) /\
        (inlen = 0 -> exists f, p_tab w !! f = None /\ p_tab (e_w e) = <[f := WEnd k1]> (p_tab w) /\
           pr_history (PS (e_w e) (<[f := o_fork o]> R) ((o_fork o, c) :: C)))) /\
      (exists l, pr_wait ans = Ret (e_status e, l))
  | Fatal => os_can_fail o \/ trouble sched \/ premature inlen sched
  | Diverge => ~ eof_seen sched \/ pr_wait ans = Diverge
  | _ => False
  end.
Proof.
  intros H Ho Hlim Hs Hl Hline Hil Hr Hov HK HD. pose proof (history_pinv _ H) as I. cbn [ps_w ps_reg ps_kids] in I.
  unfold pr_filter, pr_open.
  pose proof (open_ok o w R s rest ws None FILTER (Some 0) (Some 0) None (i_base _ _ _ I) Ho (filter_proper w _) (polite_none _ _ _) Hs Hl Hline) as HO.
  fold FILTER. destruct (pr_open2 o w (s ++ 0%N :: rest) None FILTER (Some 0) (Some 0) None) as [[w1 p]| | | |] eqn:E; try done; [|by left].
  cbn [ok] in HO. destruct HO as (B & Hmax & _ & K & T & HE & _ & _). rb.
  assert (S0 : stream 0) by (unfold stream; lia). assert (S1 : stream 1) by (unfold stream; lia).
  assert (S2 : stream 2) by (unfold stream; lia).
  destruct (oe_new _ _ _ _ _ _ _ _ _ _ _ HE 0 S0 eq_refl) as (fi & Hfi & Hti & Hfi3 & Hti').
  destruct (oe_new _ _ _ _ _ _ _ _ _ _ _ HE 1 S1 eq_refl) as (fo & Hfo & Hto & Hfo3 & Hto').
  destruct (oe_distinct _ _ _ _ _ _ _ _ _ _ _ HE 0 1 S0 S1 ltac:(lia) eq_refl eq_refl) as [Hd _].
  assert (Ei : op_in p = Some fi) by exact Hfi. assert (Eo : op_out p = Some fo) by exact Hfo. rewrite Ei, Eo.
  assert (Hne : fi <> fo) by congruence.
  assert (H1 : pr_history (PS w1 (reg_after FILTER (arg3 (Some 0) (Some 0) None) p R) ((op_pid p, op_child p) :: C))).
  { eapply ph_step; [exact H|]. eapply (pc_open o w R C s rest ws None); try done; [apply filter_proper|apply no_copies_none]. }
  assert (HR : reg_after FILTER (arg3 (Some 0) (Some 0) None) p R = <[fo := op_pid p]> (<[fi := op_pid p]> R)).
  { unfold reg_after, reg1. change (creates FILTER 2) with false. change (uses FILTER 2) with false.
    change (creates FILTER 1) with true. change (creates FILTER 0) with true. cbv iota. by rewrite Hfi, Hfo. }
  rewrite HR in *. destruct (oe_pid _ _ _ _ _ _ _ _ _ _ _ HE) as [Epid Hpid]. rewrite Epid in *.
  pose proof (history_pinv _ H1) as I1. cbn [ps_w ps_reg ps_kids] in I1.
  assert (Hri : <[fo := o_fork o]> (<[fi := o_fork o]> R) !! fi = Some (o_fork o)) by (rewrite lookup_insert_ne, lookup_insert by done; done).
  assert (Hro : <[fo := o_fork o]> (<[fi := o_fork o]> R) !! fo = Some (o_fork o)) by (by rewrite lookup_insert).
  assert (Hlt : forall f pid, <[fo := o_fork o]> (<[fi := o_fork o]> R) !! f = Some pid -> f < FD_SETSIZE).
  { intros f pid Hf. destruct (reg_range _ _ _ _ B Hf) as (objs & Eobjs & _ & Hrange & _).
    pose proof (b_objs _ _ B) as Hb. rewrite Eobjs in Hb. lia. }
  pose proof (readwrite_ok w1 _ _ fi fo inb inlen outb room sched ans _ _ I1 Hri Hro Hne (Hlt _ _ Hri) (Hlt _ _ Hro) Hil Hr Hov HK) as HW.
  destruct (pr_readwrite w1 fi fo inb inlen outb room sched ans) as [e| | | |] eqn:ER; cbn [mbind res_bind]; try done; [|by right].
  destruct HW as (W1 & W2 & W3 & W4 & W5 & W6 & W7). pose proof (delivered sched _ out room HK (proj1 Hr) HD W6) as Ercv.
  rewrite <- Ercv. split; [done|]. split; [done|]. split; [done|]. split; [apply (oe_words _ _ _ _ _ _ _ _ _ _ _ HE)|]. split; [|done].
  exists (K 0), (K 1).
  split; [by apply (oe_std _ _ _ _ _ _ _ _ _ _ _ HE 0 S0)|]. split; [by apply (oe_std _ _ _ _ _ _ _ _ _ _ _ HE 1 S1)|].
  split; [by apply (oe_std _ _ _ _ _ _ _ _ _ _ _ HE 2 S2)|].
  pose proof (rw_history w1 _ _ fi fo inlen _ _ H1 Hri Hro Hne) as H2. rewrite <- W5 in H2.
  assert (HRi : R !! fi = None). { destruct (R !! fi) eqn:Er; [|done]. destruct (i_reg _ _ _ I _ _ Er) as (? & ? & ? & ? & _). congruence. }
  assert (HRo : R !! fo = None). { destruct (R !! fo) eqn:Er; [|done]. destruct (i_reg _ _ _ I _ _ Er) as (? & ? & ? & ? & _). congruence. }
  assert (Tab : forall fd, p_tab w1 !! fd = if decide (fd = fi) then Some (WEnd (K 0)) else if decide (fd = fo) then Some (REnd (K 1)) else p_tab w !! fd).
  { intros fd. destruct (decide (fd = fi)) as [->|N1]; [exact Hti'|]. destruct (decide (fd = fo)) as [->|N2]; [exact Hto'|].
    apply (oe_rest _ _ _ _ _ _ _ _ _ _ _ HE).
    - intros x [->|[->| ->]] Hc; [rewrite Hfi|rewrite Hfo|done]; congruence.
    - intros x [->|[->| ->]] (Hg & _); done. }
  split.
  - intros Hpos. rewrite decide_False in H2 by lia. rewrite (delete_commute _ fo fi), delete_insert in H2.
    2: { by rewrite lookup_insert_ne. }
    rewrite delete_insert in H2 by done. split; [|done]. rewrite W5. unfold closed_in. rewrite decide_False by lia.
    cbn [after_close p_tab]. apply map_eq. intros fd. destruct (decide (fd = fo)) as [->|N2]; [by rewrite lookup_delete|].
    rewrite lookup_delete_ne by done. destruct (decide (fd = fi)) as [->|N1]; [by rewrite lookup_delete|].
    rewrite lookup_delete_ne by done. rewrite Tab. by rewrite !decide_False by done.
  - intros Hz. rewrite decide_True in H2 by done. rewrite delete_insert in H2. 2: { by rewrite lookup_insert_ne. }
    exists fi. split; [done|]. split; [|done]. rewrite W5. unfold closed_in. rewrite decide_True by done.
    cbn [after_close p_tab]. apply map_eq. intros fd. destruct (decide (fd = fo)) as [->|N2].
    { rewrite lookup_delete. by rewrite lookup_insert_ne. }
    rewrite lookup_delete_ne by done. rewrite Tab. destruct (decide (fd = fi)) as [->|N1]; [by rewrite lookup_insert|].
    rewrite decide_False by done. by rewrite lookup_insert_ne.
Qed.
