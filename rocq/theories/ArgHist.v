(** Histories of argument list calls; arg_argify. *)
From Verif Require Import Base CStr StackModel StackProofs ObjModel ObjProofs MemModel MemProofs MemHist ArgModel ArgProofs ArgSpec.
Local Open Scope Z_scope.

Notation ast := (aworld * gmap positive sgh)%type.

(** One call that returned, with its effect on the lists as their user sees them. *)
Inductive acall : ast -> ast -> Prop :=
| ac_create al w G w' p : aalloc_ok al -> arg_create al w = Ret (w', p) ->
    acall (w, G) (w', <[p := SG [] [] 0]> G)
| ac_destroy w G w' p g : G !! p = Some g -> arg_destroy w (Some p) = Ret w' ->
    acall (w, G) (w', delete p G)
| ac_add al w G w' p g s rest a : aalloc_ok al -> G !! p = Some g -> str_ok s ->
    room g (Z.of_nat (length s) + 1) -> slot g ->
    arg_add al w (Some p) (s ++ 0%N :: rest) = Ret w' ->
    arg_get w' (Some p) (Z.of_nat (length (s_done g))) = Ret (Some a) ->
    acall (w, G) (w', <[p := stored g a (s ++ [0%N]) (Z.of_nat (length s) + 1)]> G)
| ac_addn al w G w' p g src len a : aalloc_ok al -> G !! p = Some g ->
    0 <= len < Z.of_nat (length src) -> room g (len + 1) -> slot g ->
    arg_addn al w (Some p) src len = Ret w' ->
    arg_get w' (Some p) (Z.of_nat (length (s_done g))) = Ret (Some a) ->
    acall (w, G) (w', <[p := stored g a (take (Z.to_nat len + 1) src) (len + 1)]> G)
| ac_grow al w G w' p g src len : aalloc_ok al -> G !! p = Some g ->
    0 <= len <= Z.of_nat (length src) -> room g len ->
    arg_grow al w (Some p) src len = Ret w' ->
    acall (w, G) (w', <[p := grown g (take (Z.to_nat len) src) len]> G)
| ac_finish al w G w' p g a : aalloc_ok al -> G !! p = Some g -> room g 1 -> slot g ->
    arg_finish al w (Some p) = Ret w' ->
    arg_get w' (Some p) (Z.of_nat (length (s_done g))) = Ret (Some a) ->
    acall (w, G) (w', <[p := stored g a (s_cur g ++ [0%N]) 1]> G).

Definition later : ast -> ast -> Prop := rtc acall.
Definition arg_history (w : aworld) (G : gmap positive sgh) : Prop := later (aempty, ∅) (w, G).
(** the list [p] is not destroyed on the way *)
Definition keeps (p : positive) : ast -> ast -> Prop := rtc (fun s s' => acall s s' /\ is_Some (s'.2 !! p)).

Definition sinv (s : ast) : Prop := exists GM, ainv s.1 s.2 GM.

Lemma last_get w G GM p g a b n : ainv w G GM -> G !! p = Some (stored g a b n) ->
  arg_get w (Some p) (Z.of_nat (length (s_done g))) = Ret (Some a).
Proof.
  intros I Hg. rewrite (get_ok w G GM I p _ Hg). cbn [stored s_done].
  rewrite decide_True by (rewrite app_length; simpl; lia).
  rewrite Nat2Z.id, lookup_app_r by lia. by rewrite Nat.sub_diag.
Qed.

Lemma acall_inv s s' : acall s s' -> sinv s -> sinv s'.
Proof.
  intros Hc [GM I]. unfold sinv. destruct Hc as
    [al w G w' p Hal E|w G w' p g Hg E|al w G w' p g s rest a Hal Hg Hs Hr Hsl E Ea
    |al w G w' p g src len a Hal Hg Hl Hr Hsl E Ea|al w G w' p g src len Hal Hg Hl Hr E
    |al w G w' p g a Hal Hg Hr Hsl E Ea]; cbn [fst snd] in *.
  - pose proof (create_ok w G GM I al Hal) as Hc. rewrite E in Hc. apply Hc.
  - destruct (destroy_ok w G GM I p g Hg) as (w2 & E2 & _ & GM' & H). rewrite E in E2. injection E2 as <-. eauto.
  - pose proof (add_ok w G GM I al Hal p g Hg s rest Hs Hr Hsl) as Hc. rewrite E in Hc. cbn [ok] in Hc.
    destruct Hc as (a' & _ & GM' & H). rewrite (last_get _ _ _ _ _ _ _ _ H (lookup_insert _ _ _)) in Ea. injection Ea as ->. eauto.
  - pose proof (addn_ok w G GM I al Hal p g Hg src len Hl Hr Hsl) as Hc. rewrite E in Hc. cbn [ok] in Hc.
    destruct Hc as (a' & _ & GM' & H). rewrite (last_get _ _ _ _ _ _ _ _ H (lookup_insert _ _ _)) in Ea. injection Ea as ->. eauto.
  - pose proof (grow_ok w G GM I al Hal p g Hg src len Hl Hr) as Hc. rewrite E in Hc. apply Hc.
  - pose proof (finish_ok w G GM I al Hal p g Hg Hr Hsl) as Hc. rewrite E in Hc. cbn [ok] in Hc.
    destruct Hc as (a' & GM' & H). rewrite (last_get _ _ _ _ _ _ _ _ H (lookup_insert _ _ _)) in Ea. injection Ea as ->. eauto.
Qed.
Lemma later_inv s s' : later s s' -> sinv s -> sinv s'.
Proof. induction 1 as [|s1 s2 s3 H12 H IH]; [done|]. intros Hs. apply IH. by eapply acall_inv. Qed.
Lemma arg_history_inv w G : arg_history w G -> exists GM, ainv w G GM.
Proof. intros H. apply (later_inv _ _ H). exists ∅. apply ainv_start. Qed.
Lemma keeps_later p s s' : keeps p s s' -> later s s'.
Proof. apply rtc_congruence with (f := id). intros ?? [H _]. exact H. Qed.
Lemma history_later w G w' G' : arg_history w G -> later (w, G) (w', G') -> arg_history w' G'.
Proof. intros H1 H2. by eapply rtc_transitive. Qed.
Lemma history_step w G w' G' : arg_history w G -> acall (w, G) (w', G') -> arg_history w' G'.
Proof. intros H1 H2. by eapply rtc_r. Qed.

(** the calls, with the step they make *)
Section calls.
Context (w : aworld) (G : gmap positive sgh) (I : sinv (w, G)) (al : aalloc) (Hal : aalloc_ok al).

Lemma c_create : ok (fun '(w', p) => G !! p = None /\ acall (w, G) (w', <[p := SG [] [] 0]> G)) (afail al) (arg_create al w).
Proof.
  destruct I as [GM J]. cbn [fst snd] in J. pose proof (create_ok w G GM J al Hal) as Hc.
  destruct (arg_create al w) as [[w' p]| | | |] eqn:E; cbn [ok] in *; try done. split; [apply Hc|]. by eapply ac_create.
Qed.
Context (p : positive) (g : sgh) (Hg : G !! p = Some g).
Lemma c_grow src len : 0 <= len <= Z.of_nat (length src) -> room g len ->
  ok (fun w' => acall (w, G) (w', <[p := grown g (take (Z.to_nat len) src) len]> G)) (afail al) (arg_grow al w (Some p) src len).
Proof.
  intros H1 H2. destruct I as [GM J]. cbn [fst snd] in J. pose proof (grow_ok w G GM J al Hal p g Hg src len H1 H2) as Hc.
  destruct (arg_grow al w (Some p) src len) as [w'| | | |] eqn:E; cbn [ok] in *; try done. by eapply ac_grow.
Qed.
Lemma c_finish : room g 1 -> slot g ->
  ok (fun w' => exists a, acall (w, G) (w', <[p := stored g a (s_cur g ++ [0%N]) 1]> G)) (afail al) (arg_finish al w (Some p)).
Proof.
  intros H1 H2. destruct I as [GM J]. cbn [fst snd] in J. pose proof (finish_ok w G GM J al Hal p g Hg H1 H2) as Hc.
  destruct (arg_finish al w (Some p)) as [w'| | | |] eqn:E; cbn [ok] in *; try done.
  destruct Hc as (a & GM' & Hi). exists a. eapply ac_finish; try done. eapply last_get; [exact Hi|apply lookup_insert].
Qed.
Lemma c_add s rest : str_ok s -> room g (Z.of_nat (length s) + 1) -> slot g ->
  ok (fun w' => exists a, mblk (amem w) !! a = None /\ acall (w, G) (w', <[p := stored g a (s ++ [0%N]) (Z.of_nat (length s) + 1)]> G))
    (afail al) (arg_add al w (Some p) (s ++ 0%N :: rest)).
Proof.
  intros H1 H2 H3. destruct I as [GM J]. cbn [fst snd] in J. pose proof (add_ok w G GM J al Hal p g Hg s rest H1 H2 H3) as Hc.
  destruct (arg_add al w (Some p) (s ++ 0%N :: rest)) as [w'| | | |] eqn:E; cbn [ok] in *; try done.
  destruct Hc as (a & Hfr & GM' & Hi). exists a. split; [done|]. eapply ac_add; try done. eapply last_get; [exact Hi|apply lookup_insert].
Qed.
Lemma c_addn src len : 0 <= len < Z.of_nat (length src) -> room g (len + 1) -> slot g ->
  ok (fun w' => exists a, mblk (amem w) !! a = None /\ acall (w, G) (w', <[p := stored g a (take (Z.to_nat len + 1) src) (len + 1)]> G))
    (afail al) (arg_addn al w (Some p) src len).
Proof.
  intros H1 H2 H3. destruct I as [GM J]. cbn [fst snd] in J. pose proof (addn_ok w G GM J al Hal p g Hg src len H1 H2 H3) as Hc.
  destruct (arg_addn al w (Some p) src len) as [w'| | | |] eqn:E; cbn [ok] in *; try done.
  destruct Hc as (a & Hfr & GM' & Hi). exists a. split; [done|]. eapply ac_addn; try done. eapply last_get; [exact Hi|apply lookup_insert].
Qed.
End calls.

(** items only get appended while the list lives *)
Lemma acall_prefix p s s' g : acall s s' -> sinv s -> s.2 !! p = Some g -> is_Some (s'.2 !! p) ->
  exists g' L, s'.2 !! p = Some g' /\ s_done g' = s_done g ++ L.
Proof.
  intros Hc [GM I] Hg. destruct Hc as
    [al w G w' q Hal E|w G w' q h Hh E|al w G w' q h s rest a Hal Hh Hs Hr Hsl E Ea
    |al w G w' q h src len a Hal Hh Hl Hr Hsl E Ea|al w G w' q h src len Hal Hh Hl Hr E
    |al w G w' q h a Hal Hh Hr Hsl E Ea]; cbn [fst snd] in *; intros Hs'.
  1: { pose proof (create_ok w G GM I al Hal) as Hc. rewrite E in Hc. cbn [ok] in Hc. destruct Hc as [Hn _].
       exists g, []. rewrite app_nil_r. split; [|done]. rewrite lookup_insert_ne; congruence. }
  1: { apply lookup_delete_is_Some in Hs' as [Hne _]. exists g, []. rewrite app_nil_r. split; [|done]. by rewrite lookup_delete_ne. }
  all: destruct (decide (p = q)) as [->|Hne];
    [rewrite Hg in Hh; injection Hh as <-; rewrite lookup_insert
    |exists g, []; rewrite app_nil_r, lookup_insert_ne by done; done].
  - eexists _, [_]. split; [reflexivity|]. done.
  - eexists _, [_]. split; [reflexivity|]. done.
  - eexists _, []. split; [reflexivity|]. cbn [grown s_done]. by rewrite app_nil_r.
  - eexists _, [_]. split; [reflexivity|]. done.
Qed.
Lemma keeps_prefix p s s' : keeps p s s' -> forall g, sinv s -> s.2 !! p = Some g ->
  exists g' L, s'.2 !! p = Some g' /\ s_done g' = s_done g ++ L.
Proof.
  induction 1 as [s|s1 s2 s3 [H12 Hk] H IH]; intros g Hs Hg.
  - exists g, []. by rewrite app_nil_r.
  - destruct (acall_prefix p _ _ g H12 Hs Hg Hk) as (g2 & L2 & Hg2 & E2).
    destruct (IH g2 (acall_inv _ _ H12 Hs) Hg2) as (g3 & L3 & Hg3 & E3).
    exists g3, (L2 ++ L3). split; [done|]. by rewrite E3, E2, app_assoc.
Qed.

(** ** The tokenizer *)
Section tok.
Context (esc quo : bool).
Inductive tst := Out | Dq | Sq | Bs.
Definition isblank (c : N) : bool := ((c =? 32) || (c =? 9) || (c =? 13) || (c =? 11) || (c =? 10))%N.
Definition add (cur : option (list N)) (c : list N) : option (list N) := Some (default [] cur ++ c).
Definition close (cur : option (list N)) : list (list N) := match cur with Some v => [v] | None => [] end.
Fixpoint tok (q : tst) (cur : option (list N)) (s : list N) : list (list N) :=
  match s with
  | [] => close cur
  | c :: s =>
      match q with
      | Out => if quo && (c =? 34)%N then tok Dq (add cur []) s
               else if quo && (c =? 39)%N then tok Sq (add cur []) s
               else if esc && (c =? 92)%N then tok Bs (add cur []) s
               else if isblank c then close cur ++ tok Out None s
               else tok Out (add cur [c]) s
      | Dq => if (c =? 34)%N then tok Out cur s else tok Dq (add cur [c]) s
      | Sq => if (c =? 39)%N then tok Out cur s else tok Sq (add cur [c]) s
      | Bs => tok Out (add cur [c]) s
      end
  end.

Lemma isblank_spec c : isblank c = true <-> blank c.
Proof. unfold isblank, blank. lia. Qed.
Lemma isblank_false c : isblank c = false <-> ~ blank c.
Proof. unfold isblank, blank. lia. Qed.

Lemma add_add cur a b : add (add cur a) b = add cur (a ++ b).
Proof. unfold add. cbn [default]. by rewrite app_assoc. Qed.
Lemma tok_dq v : forall u s, (34%N ∉ v) -> tok Dq (Some u) (v ++ 34%N :: s) = tok Out (Some (u ++ v)) s.
Proof.
  induction v as [|c v IH]; intros u s Hv; cbn [app tok].
  - by rewrite app_nil_r.
  - rewrite not_elem_of_cons in Hv. destruct Hv as [H1 H2]. rewrite (proj2 (N.eqb_neq c 34)) by congruence.
    unfold add. cbn [default]. rewrite IH by done. by rewrite <- app_assoc.
Qed.
Lemma tok_sq v : forall u s, (39%N ∉ v) -> tok Sq (Some u) (v ++ 39%N :: s) = tok Out (Some (u ++ v)) s.
Proof.
  induction v as [|c v IH]; intros u s Hv; cbn [app tok].
  - by rewrite app_nil_r.
  - rewrite not_elem_of_cons in Hv. destruct Hv as [H1 H2]. rewrite (proj2 (N.eqb_neq c 39)) by congruence.
    unfold add. cbn [default]. rewrite IH by done. by rewrite <- app_assoc.
Qed.
Lemma tok_dq_end v : forall u, (34%N ∉ v) -> tok Dq (Some u) v = [u ++ v].
Proof.
  induction v as [|c v IH]; intros u Hv; cbn [app tok close].
  - by rewrite app_nil_r.
  - rewrite not_elem_of_cons in Hv. destruct Hv as [H1 H2]. rewrite (proj2 (N.eqb_neq c 34)) by congruence.
    unfold add. cbn [default]. rewrite IH by done. by rewrite <- app_assoc.
Qed.
Lemma tok_sq_end v : forall u, (39%N ∉ v) -> tok Sq (Some u) v = [u ++ v].
Proof.
  induction v as [|c v IH]; intros u Hv; cbn [app tok close].
  - by rewrite app_nil_r.
  - rewrite not_elem_of_cons in Hv. destruct Hv as [H1 H2]. rewrite (proj2 (N.eqb_neq c 39)) by congruence.
    unfold add. cbn [default]. rewrite IH by done. by rewrite <- app_assoc.
Qed.

Lemma tok_piece t v cur s : piece esc quo t v -> tok Out cur (t ++ s) = tok Out (add cur v) s.
Proof.
  destruct 1 as [c Hb Hs|c He|u Hq Hu|u Hq Hu]; cbn [app tok].
  - unfold special in Hs. assert (quo && (c =? 34)%N = false) as -> by (destruct quo; simpl; lia).
    assert (quo && (c =? 39)%N = false) as -> by (destruct quo; simpl; lia).
    assert (esc && (c =? 92)%N = false) as -> by (destruct esc; simpl; lia).
    by rewrite (proj2 (isblank_false c) Hb).
  - rewrite He. destruct quo; cbn; by rewrite add_add.
  - rewrite Hq. cbn. rewrite <- app_assoc. cbn [app]. unfold add. rewrite tok_dq by done. cbn [default]. by rewrite app_nil_r.
  - rewrite Hq. cbn. rewrite <- app_assoc. cbn [app]. unfold add. rewrite tok_sq by done. cbn [default]. by rewrite app_nil_r.
Qed.
Lemma tok_word t v : word esc quo t v -> forall cur s, tok Out cur (t ++ s) = tok Out (add cur v) s.
Proof.
  induction 1 as [t v H|t v t' v' H _ IH]; intros cur s.
  - by apply tok_piece.
  - rewrite <- app_assoc, (tok_piece _ _ _ _ H), IH. by rewrite add_add.
Qed.
Lemma tok_open t v cur : open_piece esc quo t v -> tok Out cur t = [default [] cur ++ v].
Proof.
  destruct 1 as [He|u Hq Hu|u Hq Hu]; cbn [app tok].
  - rewrite He. destruct quo; cbn; done.
  - rewrite Hq. cbn. unfold add. rewrite tok_dq_end by done. by rewrite app_nil_r.
  - rewrite Hq. cbn. unfold add. rewrite tok_sq_end by done. by rewrite app_nil_r.
Qed.
Lemma tok_last t v : last_word esc quo t v -> forall cur, tok Out cur t = [default [] cur ++ v].
Proof.
  induction 1 as [t v H|t v H|t v t' v' H _ IH]; intros cur.
  - rewrite <- (app_nil_r t), (tok_word _ _ H). done.
  - by apply tok_open.
  - rewrite (tok_piece _ _ _ _ H), IH. cbn [add default]. by rewrite app_assoc.
Qed.
Lemma line_tok s ws : line esc quo s ws -> tok Out None s = ws.
Proof.
  assert (Hblank : forall c cur s, blank c -> tok Out cur (c :: s) = close cur ++ tok Out None s).
  { intros c cur s0 Hc. cbn [tok]. rewrite (proj2 (isblank_spec c) Hc). unfold blank in Hc.
    assert (quo && (c =? 34)%N = false) as -> by (destruct quo; simpl; lia).
    assert (quo && (c =? 39)%N = false) as -> by (destruct quo; simpl; lia).
    assert (esc && (c =? 92)%N = false) as -> by (destruct esc; simpl; lia). done. }
  induction 1 as [|c s ws Hc _ IH|t v H|t v c s ws H Hc _ IH].
  - done.
  - rewrite Hblank by done. done.
  - by rewrite (tok_last _ _ H).
  - rewrite (tok_word _ _ H), Hblank by done. by rewrite IH.
Qed.

(** every string is a command line *)
Lemma split_at (c : N) s : (c ∉ s) \/ exists u r, s = u ++ c :: r /\ c ∉ u.
Proof.
  destruct (decide (c ∈ s)) as [H|H]; [right|by left].
  induction s as [|x s IH]; [by apply elem_of_nil in H|].
  destruct (decide (c = x)) as [->|Hne].
  - exists [], s. split; [done|]. intros H2. by apply elem_of_nil in H2.
  - apply elem_of_cons in H as [->|H]; [done|]. destruct (IH H) as (u & r & -> & Hu).
    exists (x :: u), r. split; [done|]. rewrite not_elem_of_cons. done.
Qed.
Lemma first_piece c s : ~ blank c ->
  (exists v, open_piece esc quo (c :: s) v) \/ exists t v r, piece esc quo t v /\ c :: s = t ++ r /\ (length r < length (c :: s))%nat.
Proof.
  intros Hb. destruct (decide (quo = true /\ c = 34%N)) as [[Hq ->]|H1].
  { destruct (split_at 34 s) as [Hn|(u & r & -> & Hu)].
    - left. eexists. by apply o_dquote.
    - right. eexists _, u, r. split; [by apply p_dquote|]. cbn. rewrite <- app_assoc. split; [done|].
      cbn [length]. rewrite app_length. simpl. lia. }
  destruct (decide (quo = true /\ c = 39%N)) as [[Hq ->]|H2].
  { destruct (split_at 39 s) as [Hn|(u & r & -> & Hu)].
    - left. eexists. by apply o_squote.
    - right. eexists _, u, r. split; [by apply p_squote|]. cbn. rewrite <- app_assoc. split; [done|].
      cbn [length]. rewrite app_length. simpl. lia. }
  destruct (decide (esc = true /\ c = 92%N)) as [[He ->]|H3].
  { destruct s as [|d s].
    - left. eexists. by apply o_esc.
    - right. exists [92%N; d], [d], s. split; [by apply p_esc|]. split; [done|]. simpl. lia. }
  right. exists [c], [c], s. split; [|split; [done|simpl; lia]]. apply p_plain; [done|]. unfold special. intuition.
Qed.
Lemma line_total s : exists ws, line esc quo s ws.
Proof.
  remember (length s) as n eqn:Hn. revert s Hn. induction (lt_wf n) as [n _ IH]. intros [|c s] ->.
  { exists []. apply l_nil. }
  destruct (decide (isblank c = true)) as [Hb|Hb].
  { apply isblank_spec in Hb. destruct (IH (length s) ltac:(simpl; lia) s eq_refl) as [ws Hws].
    exists ws. by apply l_blank. }
  rewrite isblank_spec in Hb. destruct (first_piece c s Hb) as [[v Hv]|(t & v & r & Hp & E & Hlt)].
  { exists [v]. by apply l_last, lw_open. }
  rewrite E. destruct (IH (length r) Hlt r eq_refl) as [ws Hws].
  destruct Hws as [|d r ws Hd Hws|t' v' H'|t' v' d r ws H' Hd Hws].
  - rewrite app_nil_r. exists [v]. by apply l_last, lw_word, w_one.
  - exists (v :: ws). apply l_word; [by apply w_one|done..].
  - exists [v ++ v']. by apply l_last, lw_more.
  - exists ((v ++ v') :: ws). rewrite app_assoc. apply l_word; [by apply w_more|done..].
Qed.
End tok.

(** ** The loop of arg_argify follows the tokenizer *)
Lemma land_quote st : (Z.land ARG_NO_QUOTE st =? 0) = quotes st.
Proof.
  unfold ARG_NO_QUOTE, quotes. destruct (Z.testbit st 1) eqn:E; cbn [negb].
  - apply Z.eqb_neq. intros H. assert (Hb : Z.testbit (Z.land 2 st) 1 = true) by (rewrite Z.land_spec, E; done).
    rewrite H in Hb. done.
  - apply Z.eqb_eq. apply Z.bits_inj_0. intros i. rewrite Z.land_spec. destruct (decide (i = 1)) as [->|Hi].
    + by rewrite E, andb_false_r.
    + replace 2 with (2 ^ 1) by done. rewrite Z.pow2_bits_false; [done|congruence].
Qed.
Lemma land_escape st : (Z.land ARG_NO_ESCAPE st =? 0) = escapes st.
Proof.
  unfold ARG_NO_ESCAPE, escapes. destruct (Z.testbit st 0) eqn:E; cbn [negb].
  - apply Z.eqb_neq. intros H. assert (Hb : Z.testbit (Z.land 1 st) 0 = true) by (rewrite Z.land_spec, E; done).
    rewrite H in Hb. done.
  - apply Z.eqb_eq. apply Z.bits_inj_0. intros i. rewrite Z.land_spec. destruct (decide (i = 0)) as [->|Hi].
    + by rewrite E, andb_false_r.
    + replace 1 with (2 ^ 0) by done. rewrite Z.pow2_bits_false; [done|congruence].
Qed.

Lemma ctype_spec st c : char2char_type st c =
  (if quotes st && (c =? 34)%N then 0 else if quotes st && (c =? 39)%N then 1
   else if escapes st && (c =? 92)%N then 3 else if isblank c then 5 else if (c =? 0)%N then 4 else 2).
Proof.
  unfold char2char_type. rewrite land_quote, land_escape. fold (isblank c).
  destruct (N.eqb_spec c 34) as [->|H1]. { destruct (quotes st), (escapes st); done. }
  destruct (N.eqb_spec c 39) as [->|H2]. { destruct (quotes st), (escapes st); done. }
  destruct (N.eqb_spec c 92) as [->|H3]. { destruct (quotes st), (escapes st); done. }
  rewrite !andb_false_r. done.
Qed.

Definition lst (g : sgh) (pre : list N) (last : option nat) (cur : option (list N)) : Prop :=
  match last with
  | None => cur = None /\ s_cur g = []
  | Some l => (l <= length pre)%nat /\ cur = Some (s_cur g ++ drop l pre)
  end.
Definition gap (pre : list N) (last : option nat) : Z :=
  match last with None => 0 | Some l => Z.of_nat (length pre) - Z.of_nat l end.

Section loop.
Context (al : aalloc) (Hal : aalloc_ok al) (style : Z) (p : positive).

Lemma drop_pre (l : nat) (pre s : list N) : (l <= length pre)%nat ->
  take (Z.to_nat (Z.of_nat (length pre) - Z.of_nat l)) (drop l (pre ++ s)) = drop l pre.
Proof.
  intros H. rewrite drop_app_le by done. replace (Z.to_nat _) with (length (drop l pre)) by (rewrite drop_length; lia).
  by rewrite take_app.
Qed.

(** the grow before a skip or a finish *)
Lemma grow_step w G g pre s l cur : sinv (w, G) -> G !! p = Some g -> lst g pre (Some l) cur ->
  Z.of_nat (length (s_done g)) + 1 < 2 ^ 31 -> s_bytes g + gap pre (Some l) < 2 ^ 31 ->
  ok (fun w1 => exists g1, acall (w, G) (w1, <[p := g1]> G) /\ s_done g1 = s_done g /\ Some (s_cur g1) = cur /\
        s_bytes g1 = s_bytes g + gap pre (Some l))
     (afail al) (arg_grow al w (Some p) (drop l (pre ++ s)) (Z.of_nat (length pre) - Z.of_nat l)).
Proof.
  intros I Hg [Hl ->] H1 H2. unfold gap in *.
  eapply ok_mono; [apply (c_grow w G I al Hal p g Hg)| |done].
  - rewrite drop_length, app_length. lia.
  - split; [done|]. lia.
  - intros w1 Hc. rewrite drop_pre in Hc by done. eexists. split; [exact Hc|]. cbn [grown s_done s_cur s_bytes]. done.
Qed.

Definition zst (q : tst) (z : Z) : Prop :=
  match q with
  | Out => z = 0 \/ z = 3
  | Dq => z = 1 /\ quotes style = true
  | Sq => z = 2 /\ quotes style = true
  | Bs => z = 4
  end.

(** what the table says *)
Lemma table_char q z c : zst q z -> c <> 0%N ->
  exists z', table2 transition_table z (char2char_type style c) = Ret z' /\ 0 <= z' /\
  match q with
  | Out => if quotes style && (c =? 34)%N then table2 action_table z (char2char_type style c) = Ret 0 /\ zst Dq z'
           else if quotes style && (c =? 39)%N then table2 action_table z (char2char_type style c) = Ret 0 /\ zst Sq z'
           else if escapes style && (c =? 92)%N then table2 action_table z (char2char_type style c) = Ret 0 /\ zst Bs z'
           else if isblank c then table2 action_table z (char2char_type style c) = Ret 2 /\ zst Out z'
           else table2 action_table z (char2char_type style c) = Ret 1 /\ zst Out z'
  | Dq => if (c =? 34)%N then table2 action_table z (char2char_type style c) = Ret 0 /\ zst Out z'
          else table2 action_table z (char2char_type style c) = Ret 1 /\ zst Dq z'
  | Sq => if (c =? 39)%N then table2 action_table z (char2char_type style c) = Ret 0 /\ zst Out z'
          else table2 action_table z (char2char_type style c) = Ret 1 /\ zst Sq z'
  | Bs => table2 action_table z (char2char_type style c) = Ret 1 /\ zst Out z'
  end.
Proof.
  intros Hz Hc. rewrite ctype_spec. rewrite (proj2 (N.eqb_neq c 0) Hc).
  assert (Hx : (c =? 34)%N && (c =? 39)%N = false) by lia.
  destruct q; cbn [zst] in Hz.
  - destruct Hz as [-> | ->]; destruct (quotes style) eqn:Eq, (escapes style) eqn:Ee, (c =? 34)%N, (c =? 39)%N, (c =? 92)%N, (isblank c);
      cbn; eexists; (split; [reflexivity|]); cbn; rewrite ?Eq; repeat split; auto; lia.
  - destruct Hz as [-> Eq]. rewrite Eq. destruct (escapes style) eqn:Ee, (c =? 34)%N, (c =? 39)%N, (c =? 92)%N, (isblank c);
      try done; cbn; eexists; (split; [reflexivity|]); cbn; rewrite ?Eq; repeat split; auto; lia.
  - destruct Hz as [-> Eq]. rewrite Eq. destruct (escapes style) eqn:Ee, (c =? 34)%N, (c =? 39)%N, (c =? 92)%N, (isblank c);
      try done; cbn; eexists; (split; [reflexivity|]); cbn; rewrite ?Eq; repeat split; auto; lia.
  - subst z. destruct (quotes style) eqn:Eq, (escapes style) eqn:Ee, (c =? 34)%N, (c =? 39)%N, (c =? 92)%N, (isblank c);
      try done; cbn; eexists; (split; [reflexivity|]); cbn; rewrite ?Eq; repeat split; auto; lia.
Qed.
Lemma table_nul q z : zst q z ->
  table2 action_table z (char2char_type style 0) = Ret 2 /\
  exists z', table2 transition_table z (char2char_type style 0) = Ret z' /\ (z' = -1 \/ z' = -2).
Proof.
  intros Hz. assert (E : char2char_type style 0 = 4) by done. rewrite E.
  destruct q; cbn [zst] in Hz; [destruct Hz as [-> | ->]|destruct Hz as [-> _]|destruct Hz as [-> _]|subst z]; cbn; eauto.
Qed.

Definition words0 (ws : list (list N)) : list (list N) := (fun v => v ++ [0%N]) <$> ws.

(** FINISH *)
Lemma finish_step w G g pre s last cur : sinv (w, G) -> G !! p = Some g -> lst g pre last cur ->
  slot g -> s_bytes g + gap pre last + 1 < 2 ^ 31 ->
  ok (fun '(w1, last1) => last1 = None /\ exists g1 L, later (w, G) (w1, <[p := g1]> G) /\
        s_done g1 = s_done g ++ L /\ (L.*2 : list (list N)) = words0 (close cur) /\ s_cur g1 = [] /\
        s_bytes g1 = s_bytes g + gap pre last + Z.of_nat (length L))
     (afail al)
     (match last with
      | Some l => w1 ← arg_grow al w (Some p) (drop l (pre ++ s)) (Z.of_nat (length pre) - Z.of_nat l);
                  w2 ← arg_finish al w1 (Some p); Ret (w2, None)
      | None => Ret (w, last)
      end).
Proof.
  intros I Hg Hlst Hsl Hb. unfold slot in Hsl. destruct last as [l|].
  - eapply ok_bind; [apply (grow_step w G g pre s l cur I Hg Hlst); lia|].
    intros w1 (g1 & Hc & E1 & E2 & E3). cbv beta.
    pose proof (acall_inv _ _ Hc I) as I1. eapply ok_bind.
    + eapply (c_finish w1 _ I1 al Hal p g1 (lookup_insert _ _ _)).
      * split; rewrite ?E1; lia.
      * unfold slot. rewrite E1. lia.
    + intros w2 [a Hf]. cbv beta. cbn [ok]. split; [done|]. rewrite insert_insert in Hf.
      eexists _, [_]. split; [by eapply rtc_l, rtc_once|]. cbn [stored s_done s_cur s_bytes].
      rewrite E1, <- E2, E3. split; [reflexivity|]. cbn. done.
  - destruct Hlst as [-> Hcur]. cbn [ok]. split; [done|]. exists g, []. cbn. rewrite app_nil_r, insert_id by done.
    split; [apply rtc_refl|]. repeat split; try done. lia.
Qed.

(** the bytes counted from [g] to [g']: those of the words and of their NULs, but for what was counted in [g] already *)
Definition counted (g g' : sgh) (ws : list (list N)) : Prop :=
  s_bytes g' + Z.of_nat (length (s_cur g)) = s_bytes g + Z.of_nat (length (concat (words0 ws))).
Lemma lst_length g pre last cur : lst g pre last cur -> Z.of_nat (length (default [] cur)) = Z.of_nat (length (s_cur g)) + gap pre last.
Proof.
  destruct last as [l|]; cbn [lst gap].
  - intros [Hl ->]. change (default [] (Some (s_cur g ++ drop l pre))) with (s_cur g ++ drop l pre). rewrite app_length, drop_length. lia.
  - intros [-> ->]. done.
Qed.
Lemma lst_close g pre last cur : lst g pre last cur ->
  Z.of_nat (length (concat (words0 (close cur)))) = Z.of_nat (length (s_cur g)) + gap pre last + Z.of_nat (length (close cur)).
Proof.
  intros H. rewrite <- (lst_length g pre last cur H). destruct cur as [v|]; cbn; [|done]. rewrite !app_length. cbn. lia.
Qed.

Lemma loop_ok s : forall w G g pre rest last cur q z fuel,
  str_ok s -> sinv (w, G) -> G !! p = Some g -> lst g pre last cur -> zst q z ->
  (q <> Out -> is_Some cur) ->
  (length s < fuel)%nat ->
  Z.of_nat (length (s_done g)) + Z.of_nat (length s) + 2 < 2 ^ 30 ->
  s_bytes g + gap pre last + 2 * Z.of_nat (length s) + 1 < 2 ^ 31 ->
  ok (fun '(w', st) => (st = -1 \/ st = -2) /\ exists g' L, later (w, G) (w', <[p := g']> G) /\
        s_done g' = s_done g ++ L /\ (L.*2 : list (list N)) = words0 (tok (escapes style) (quotes style) q cur s) /\ s_cur g' = [] /\
        counted g g' (tok (escapes style) (quotes style) q cur s))
     (afail al) (argify_loop al style (pre ++ s ++ 0%N :: rest) p fuel w last (length pre) z).
Proof.
  induction s as [|c s IH]; intros w G g pre rest last cur q z fuel Hs I Hg Hlst Hz Hsome Hf Hd Hb;
    (destruct fuel as [|fuel]; [simpl in Hf; lia|]); cbn [argify_loop].
  - rewrite (aget_Some _ _ 0%N) by (rewrite lookup_app_r, Nat.sub_diag by lia; done). rb.
    destruct (table_nul q z Hz) as (Ea & z' & Et & Hz'). rewrite Ea, Et. rb. cbn [Z.eqb].
    eapply ok_bind; [apply (finish_step w G g pre _ last cur I Hg Hlst); unfold slot; simpl in *; lia|].
    intros [w1 l1] [-> (g1 & L & Hl & E1 & E2 & E3 & E4)]. cbv beta iota. cbn. split; [done|].
    exists g1, L. repeat (split; [done|]). unfold counted. rewrite (lst_close _ _ _ _ Hlst), E4.
    apply (f_equal length) in E2. rewrite fmap_length in E2. unfold words0 in E2. rewrite fmap_length in E2. rewrite E2. lia.
  - apply Forall_cons in Hs as [Hc Hs]. cbn [length] in *.
    rewrite (aget_Some _ _ c) by (rewrite lookup_app_r, Nat.sub_diag by lia; done). rb.
    destruct (table_char q z c Hz ltac:(lia)) as (z' & Et & Hz' & Htab). rewrite Et.
    assert (Hne : negb (c =? 0)%N && (z' >=? 0) = true) by (destruct (N.eqb_spec c 0); simpl; lia).
    assert (Epre : pre ++ (c :: s) ++ 0%N :: rest = (pre ++ [c]) ++ s ++ 0%N :: rest) by (rewrite <- app_assoc; done).
    assert (Elen : length (pre ++ [c]) = S (length pre)) by (rewrite app_length; simpl; lia).
    (* the three actions *)
    assert (Hskip : forall q', zst q' z' -> table2 action_table z (char2char_type style c) = Ret 0 ->
      tok (escapes style) (quotes style) q cur (c :: s) = tok (escapes style) (quotes style) q' (add cur []) s ->
      ok (fun '(w', st) => (st = -1 \/ st = -2) /\ exists g' L, later (w, G) (w', <[p := g']> G) /\
        s_done g' = s_done g ++ L /\ (L.*2 : list (list N)) = words0 (tok (escapes style) (quotes style) q cur (c :: s)) /\ s_cur g' = [] /\
        counted g g' (tok (escapes style) (quotes style) q cur (c :: s)))
        (afail al)
        (curr_act ← table2 action_table z (char2char_type style c);
         state' ← Ret z';
         '(w', last') ←
          (if curr_act =? 1 then Ret (w, match last with None => Some (length pre) | Some l => Some l end)
           else if curr_act =? 0 then
             w1 ← match last with
                | Some l => arg_grow al w (Some p) (drop l (pre ++ (c :: s) ++ 0%N :: rest)) (Z.of_nat (length pre) - Z.of_nat l)
                | None => Ret w
                end;
             Ret (w1, Some (S (length pre)))
           else if curr_act =? 2 then
             match last with
             | Some l => w1 ← arg_grow al w (Some p) (drop l (pre ++ (c :: s) ++ 0%N :: rest)) (Z.of_nat (length pre) - Z.of_nat l);
                  w2 ← arg_finish al w1 (Some p); Ret (w2, None)
             | None => Ret (w, last)
             end
           else Abort);
         if negb (c =? 0)%N && (state' >=? 0)
         then argify_loop al style (pre ++ (c :: s) ++ 0%N :: rest) p fuel w' last' (S (length pre)) state'
         else Ret (w', state'))).
    { intros q' Hq' Ea Htok. rewrite Ea. rb. cbn [Z.eqb]. rewrite Htok.
      eapply (ok_bind (fun '(w1, l1) => l1 = Some (S (length pre)) /\ exists g1, later (w, G) (w1, <[p := g1]> G) /\
         s_done g1 = s_done g /\ s_cur g1 = default [] cur /\ s_bytes g1 = s_bytes g + gap pre last)).
      - destruct last as [l|].
        + eapply ok_bind; [apply (grow_step w G g pre _ l cur I Hg Hlst); lia|].
          intros w1 (g1 & Hcl & E1 & E2 & E3). cbv beta. cbn [ok]. split; [done|]. exists g1.
          split; [by apply rtc_once|]. rewrite <- E2. done.
        + destruct Hlst as [-> Hcur]. rb. cbn [ok]. split; [done|]. exists g. rewrite insert_id by done.
          split; [apply rtc_refl|]. cbn [gap]. rewrite Hcur. repeat split; try done. lia.
      - intros [w1 l1] [-> (g1 & Hl & E1 & E2 & E3)]. cbv beta iota. rewrite Hne, Epre, <- Elen.
        eapply ok_mono; [apply (IH w1 (<[p := g1]> G) g1 (pre ++ [c]) rest (Some (length (pre ++ [c]))) (add cur []) q' z' fuel); try done|..].
        + by eapply later_inv.
        + apply lookup_insert.
        + split; [done|]. rewrite drop_all. unfold add. by rewrite E2.
        + lia.
        + rewrite E1. lia.
        + unfold gap in *. lia.
        + intros [w2 st] [Hst (g2 & L & Hl2 & H1 & H2 & H3 & H4)]. split; [done|]. exists g2, L.
          rewrite (insert_insert G p g2 g1) in Hl2. split; [by eapply rtc_transitive|]. split; [by rewrite <- E1|].
          split; [done|]. split; [done|]. unfold counted in *. rewrite E2, E3, (lst_length _ _ _ _ Hlst) in H4. lia.
        + done. }
    assert (Hincl : forall q', zst q' z' -> table2 action_table z (char2char_type style c) = Ret 1 ->
      (tok (escapes style) (quotes style) q cur (c :: s) = tok (escapes style) (quotes style) q' (add cur [c]) s) ->
      ok (fun '(w', st) => (st = -1 \/ st = -2) /\ exists g' L, later (w, G) (w', <[p := g']> G) /\
        s_done g' = s_done g ++ L /\ (L.*2 : list (list N)) = words0 (tok (escapes style) (quotes style) q cur (c :: s)) /\ s_cur g' = [] /\
        counted g g' (tok (escapes style) (quotes style) q cur (c :: s)))
        (afail al)
        (if negb (c =? 0)%N && (z' >=? 0)
         then argify_loop al style (pre ++ (c :: s) ++ 0%N :: rest) p fuel w match last with None => Some (length pre) | Some l => Some l end (S (length pre)) z'
         else Ret (w, z'))).
    { intros q' Hq' Ea ->. rewrite Hne, Epre, <- Elen.
      eapply ok_mono; [apply (IH w G g (pre ++ [c]) rest (match last with None => Some (length pre) | Some l => Some l end) (add cur [c]) q' z' fuel); try done|..].
      - destruct last as [l|]; cbn [lst] in *.
        + destruct Hlst as [Hl ->]. split; [lia|]. unfold add. cbn [default]. rewrite drop_app_le by lia. by rewrite app_assoc.
        + destruct Hlst as [-> Hcur]. split; [lia|]. unfold add. cbn [default]. by rewrite drop_app, Hcur.
      - lia.
      - lia.
      - destruct last as [l|]; unfold gap in *; cbn [lst] in *; rewrite app_length; simpl; lia.
      - intros [w2 st] [Hst (g2 & L & Hl2 & H1 & H2 & H3 & H4)]. split; [done|]. exists g2, L. done.
      - done. }
    destruct q.
    + cbn [tok] in *.
      destruct (quotes style && (c =? 34)%N); [destruct Htab; by apply (Hskip Dq)|].
      destruct (quotes style && (c =? 39)%N); [destruct Htab; by apply (Hskip Sq)|].
      destruct (escapes style && (c =? 92)%N); [destruct Htab; by apply (Hskip Bs)|].
      destruct (isblank c).
      * destruct Htab as [Ea Hq']. rewrite Ea. rb. cbn [Z.eqb].
        eapply ok_bind; [apply (finish_step w G g pre _ last cur I Hg Hlst); unfold slot; simpl in *; lia|].
        intros [w1 l1] [-> (g1 & L & Hl & E1 & E2 & E3 & E4)]. cbv beta iota. rewrite Hne, Epre, <- Elen.
        assert (HL : (length L <= 1)%nat).
        { apply (f_equal length) in E2. rewrite fmap_length in E2. unfold words0 in E2. rewrite fmap_length in E2.
          destruct cur; simpl in E2; lia. }
        eapply ok_mono; [apply (IH w1 (<[p := g1]> G) g1 (pre ++ [c]) rest None None Out z' fuel); try done|..].
        -- by eapply later_inv.
        -- apply lookup_insert.
        -- lia.
        -- rewrite E1, app_length. lia.
        -- unfold gap in *. lia.
        -- intros [w2 st] [Hst (g2 & L2 & Hl2 & H1 & H2 & H3 & H4)]. split; [done|]. exists g2, (L ++ L2).
           rewrite (insert_insert G p g2 g1) in Hl2. split; [by eapply rtc_transitive|].
           split; [by rewrite H1, E1, app_assoc|]. split; [|split; [done|]].
           ++ rewrite fmap_app, E2, H2. unfold words0. by rewrite fmap_app.
           ++ unfold counted in *. assert (words0 (close cur ++ tok (escapes style) (quotes style) Out None s) =
                words0 (close cur) ++ words0 (tok (escapes style) (quotes style) Out None s)) as -> by apply fmap_app.
              rewrite concat_app, app_length, Nat2Z.inj_add, (lst_close _ _ _ _ Hlst). rewrite E3, E4 in H4. cbn [length] in H4.
              apply (f_equal length) in E2. rewrite fmap_length in E2. unfold words0 at 1 in E2. rewrite fmap_length in E2. rewrite E2 in H4. lia.
        -- done.
      * destruct Htab as [Ea Hq']. rewrite Ea. rb. cbn [Z.eqb]. by apply (Hincl Out).
    + cbn [tok] in *. destruct (Hsome ltac:(done)) as [v ->].
      destruct (c =? 34)%N; destruct Htab as [Ea Hq'].
      * apply (Hskip Out); try done. unfold add. cbn [default]. by rewrite app_nil_r.
      * rewrite Ea. rb. cbn [Z.eqb]. by apply (Hincl Dq).
    + cbn [tok] in *. destruct (Hsome ltac:(done)) as [v ->].
      destruct (c =? 39)%N; destruct Htab as [Ea Hq'].
      * apply (Hskip Out); try done. unfold add. cbn [default]. by rewrite app_nil_r.
      * rewrite Ea. rb. cbn [Z.eqb]. by apply (Hincl Sq).
    + destruct Htab as [Ea Hq']. rewrite Ea. rb. cbn [Z.eqb]. by apply (Hincl Out).
Qed.
End loop.

Lemma argify_ok al w G s rest style : sinv (w, G) -> aalloc_ok al -> str_ok s -> Z.of_nat (length s) + 3 < 2 ^ 30 ->
  ok (fun '(w', p) => G !! p = None /\ exists g, later (w, G) (w', <[p := g]> G) /\
        ((s_done g).*2 : list (list N)) = words0 (tok (escapes style) (quotes style) Out None s) /\ s_cur g = [] /\
        s_bytes g = Z.of_nat (length (concat (words0 (tok (escapes style) (quotes style) Out None s)))))
     (afail al) (arg_argify al w (s ++ 0%N :: rest) style).
Proof.
  intros I Hal Hs Hl. unfold arg_argify.
  eapply ok_bind; [apply (c_create w G I al Hal)|].
  intros [w0 p] [Hn Hc]. cbv beta iota.
  eapply ok_bind.
  - eapply (loop_ok al Hal style p s w0 _ (SG [] [] 0) [] rest None None Out 0 (length (s ++ 0%N :: rest))); try done.
    + by eapply acall_inv.
    + apply lookup_insert.
    + by left.
    + rewrite app_length. simpl. lia.
    + cbn [s_done length]. lia.
    + cbn [s_bytes gap]. lia.
  - intros [w1 st] [Hst (g & L & Hlat & E1 & E2 & E3 & E4)]. cbv beta iota.
    assert ((st =? -1) || (st =? -2) = true) as -> by lia. cbn [ok]. split; [done|]. exists g.
    rewrite insert_insert in Hlat. split; [by eapply rtc_l|]. cbn [s_done app] in E1. rewrite E1. split; [done|]. split; [done|].
    unfold counted in E4. cbn [s_bytes s_cur length] in E4. lia.
Qed.
