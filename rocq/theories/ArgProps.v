(** C40-C42: argument vectors.  [arg_history w G]: any sequence of arg_create, arg_destroy,
    arg_add, arg_addn, arg_grow, arg_finish (and hence arg_argify) from the start; for each
    live list [p], [G !! p] is what its user knows: [s_done] the items in order with their
    bytes, [s_cur] the bytes of the item being grown.  [keeps p]: further calls that do not
    destroy [p].  [room], [slot]: the int counters do not overflow. *)
From Verif Require Import Base Alloc ListLemmas CStr StackModel StackProofs ObjModel ObjProofs MemModel MemProofs MemHist.
From Verif Require Import ArgModel ArgProofs ArgSpec ArgHist.
Local Open Scope Z_scope.

(** ** C40 *)
Theorem C40_create : forall w G al, arg_history w G -> aalloc_ok al ->
  ok (fun '(w', p) => G !! p = None /\ arg_history w' (<[p := SG [] [] 0]> G)) (afail al) (arg_create al w).
Proof.
  intros w G al H Hal. eapply ok_mono; [apply (c_create w G (arg_history_inv _ _ H) al Hal)| |done].
  intros [w' p] [Hn Hc]. split; [done|]. by eapply history_step.
Qed.
Print Assumptions C40_create.
Theorem C40_add : forall w G p g al s rest, arg_history w G -> G !! p = Some g -> aalloc_ok al -> str_ok s ->
  room g (Z.of_nat (length s) + 1) -> slot g ->
  ok (fun w' => exists a g', keeps p (w, G) (w', <[p := g']> G) /\ s_done g' = s_done g ++ [(a, s ++ [0%N])] /\
        mblk (amem w) !! a = None)
     (afail al) (arg_add al w (Some p) (s ++ 0%N :: rest)).
Proof.
  intros w G p g al s rest H Hg Hal Hs Hr Hsl.
  eapply ok_mono; [apply (c_add w G (arg_history_inv _ _ H) al Hal p g Hg s rest Hs Hr Hsl)| |done].
  intros w' (a & Hf & Hc). exists a. eexists. split; [apply rtc_once; split; [exact Hc|]; cbn [snd]; rewrite lookup_insert; eauto|done].
Qed.
Print Assumptions C40_add.
(** arg_addn copies length + 1 bytes of its source: it does not add the NUL its
    documentation promises, it expects to find it *)
Theorem C40_addn : forall w G p g al src len, arg_history w G -> G !! p = Some g -> aalloc_ok al ->
  0 <= len < Z.of_nat (length src) -> room g (len + 1) -> slot g ->
  ok (fun w' => exists a g', keeps p (w, G) (w', <[p := g']> G) /\
        s_done g' = s_done g ++ [(a, take (Z.to_nat len + 1) src)] /\ mblk (amem w) !! a = None)
     (afail al) (arg_addn al w (Some p) src len).
Proof.
  intros w G p g al src len H Hg Hal Hs Hr Hsl.
  eapply ok_mono; [apply (c_addn w G (arg_history_inv _ _ H) al Hal p g Hg src len Hs Hr Hsl)| |done].
  intros w' (a & Hf & Hc). exists a. eexists. split; [apply rtc_once; split; [exact Hc|]; cbn [snd]; rewrite lookup_insert; eauto|done].
Qed.
Print Assumptions C40_addn.
Theorem C40_addn_overread : forall w G p g al src len, arg_history w G -> G !! p = Some g -> aalloc_ok al ->
  0 <= len < 2 ^ 31 - 1 -> Z.of_nat (length src) <= len -> ~ afail al -> arg_addn al w (Some p) src len = UB.
Proof.
  intros w G p g al src len H Hg Hal H1 H2 Hn. destruct (arg_history_inv _ _ H) as [GM I].
  destruct (get_arg _ _ _ _ _ I Hg) as (x & Hx & Ho & Hm & Ec). unfold arg_addn. rewrite Ec. rb.
  rewrite (sh_overread _ _ (ai_mem _ _ _ I) _ _ _ _ _ (aal_mem _ Hal) Hm H1 H2); [done|]. unfold afail in Hn. tauto.
Qed.
Print Assumptions C40_addn_overread.
Theorem C40_grow : forall w G p g al src len, arg_history w G -> G !! p = Some g -> aalloc_ok al ->
  0 <= len <= Z.of_nat (length src) -> room g len ->
  ok (fun w' => exists g', keeps p (w, G) (w', <[p := g']> G) /\ s_done g' = s_done g /\
        s_cur g' = s_cur g ++ take (Z.to_nat len) src)
     (afail al) (arg_grow al w (Some p) src len).
Proof.
  intros w G p g al src len H Hg Hal Hs Hr.
  eapply ok_mono; [apply (c_grow w G (arg_history_inv _ _ H) al Hal p g Hg src len Hs Hr)| |done].
  intros w' Hc. eexists. split; [apply rtc_once; split; [exact Hc|]; cbn [snd]; rewrite lookup_insert; eauto|done].
Qed.
Print Assumptions C40_grow.
Theorem C40_finish : forall w G p g al, arg_history w G -> G !! p = Some g -> aalloc_ok al -> room g 1 -> slot g ->
  ok (fun w' => exists a g', keeps p (w, G) (w', <[p := g']> G) /\
        s_done g' = s_done g ++ [(a, s_cur g ++ [0%N])] /\ s_cur g' = [])
     (afail al) (arg_finish al w (Some p)).
Proof.
  intros w G p g al H Hg Hal Hr Hsl.
  eapply ok_mono; [apply (c_finish w G (arg_history_inv _ _ H) al Hal p g Hg Hr Hsl)| |done].
  intros w' [a Hc]. exists a. eexists. split; [apply rtc_once; split; [exact Hc|]; cbn [snd]; rewrite lookup_insert; eauto|done].
Qed.
Print Assumptions C40_finish.
(** the vector: as many strings as arg_count says, in order, then NULL *)
Theorem C40_vector : forall w G p g, arg_history w G -> G !! p = Some g ->
  arg_count w (Some p) = Ret (Z.of_nat (length (s_done g))) /\
  exists v, arg_get_vector w (Some p) = Ret (Z.of_nat (length (s_done g)), v) /\
    v !! length (s_done g) = Some (Some None) /\
    forall i a b, s_done g !! i = Some (a, b) -> v !! i = Some (Some (Some a)) /\ mblk (amem w) !! a = Some b.
Proof.
  intros w G p g H Hg. destruct (arg_history_inv _ _ H) as [GM I].
  destruct (vector_ok w G GM I p g Hg) as (v & rest & E1 & E2 & Ev). split; [done|]. exists v. split; [done|]. subst v.
  split.
  - rewrite lookup_app_r by (rewrite fmap_length, items_length; lia). by rewrite fmap_length, items_length, Nat.sub_diag.
  - intros i a b Hi. split.
    + rewrite lookup_app_l by (rewrite fmap_length, items_length; by apply lookup_lt_Some in Hi).
      unfold items. by rewrite !list_lookup_fmap, Hi.
    + apply (text_ok w G GM I p g Hg). by eapply elem_of_list_lookup_2.
Qed.
Print Assumptions C40_vector.
Theorem C40_get : forall w G p g i, arg_history w G -> G !! p = Some g ->
  (forall a b, s_done g !! i = Some (a, b) -> arg_get w (Some p) (Z.of_nat i) = Ret (Some a)).
Proof.
  intros w G p g i H Hg a b Hi. destruct (arg_history_inv _ _ H) as [GM I].
  rewrite (get_ok w G GM I p g Hg). pose proof (lookup_lt_Some _ _ _ Hi).
  rewrite decide_True by lia. by rewrite Nat2Z.id, Hi.
Qed.
Print Assumptions C40_get.
Theorem C40_get_range : forall w G p g i, arg_history w G -> G !! p = Some g ->
  i < 0 \/ Z.of_nat (length (s_done g)) <= i -> arg_get w (Some p) i = Abort.
Proof.
  intros w G p g i H Hg Hi. destruct (arg_history_inv _ _ H) as [GM I].
  rewrite (get_ok w G GM I p g Hg). rewrite decide_False by lia. done.
Qed.
Print Assumptions C40_get_range.
(** later calls do not disturb the items: same pointers, same text, same places *)
Theorem C40_stable : forall w G p g w' G', arg_history w G -> G !! p = Some g -> keeps p (w, G) (w', G') ->
  exists g' L, arg_history w' G' /\ G' !! p = Some g' /\ s_done g' = s_done g ++ L /\
    forall a b, (a, b) ∈ s_done g -> mblk (amem w') !! a = Some b.
Proof.
  intros w G p g w' G' H Hg Hk. pose proof (history_later _ _ _ _ H (keeps_later _ _ _ Hk)) as H'.
  destruct (keeps_prefix p _ _ Hk g (arg_history_inv _ _ H) Hg) as (g' & L & Hg' & E).
  exists g', L. split; [done|]. split; [done|]. split; [done|]. intros a b Hab.
  destruct (arg_history_inv _ _ H') as [GM I]. apply (text_ok w' G' GM I p g' Hg'). rewrite E. apply elem_of_app. by left.
Qed.
Print Assumptions C40_stable.
(** calls on one list leave the others alone *)
Theorem C40_independent : forall s s' p, acall s s' -> arg_history s.1 s.2 -> is_Some (s.2 !! p) ->
  s'.2 !! p = s.2 !! p \/ s'.2 = delete p s.2 \/ (exists g', s'.2 = <[p := g']> s.2).
Proof.
  intros s s' p Hc H Hp. destruct (arg_history_inv _ _ H) as [GM I]. destruct Hc as
    [al w G w' q Hal E|w G w' q h Hh E|al w G w' q h s rest a Hal Hh Hs Hr Hsl E Ea
    |al w G w' q h src len a Hal Hh Hl Hr Hsl E Ea|al w G w' q h src len Hal Hh Hl Hr E
    |al w G w' q h a Hal Hh Hr Hsl E Ea]; cbn [fst snd] in *.
  1: { pose proof (create_ok w G GM I al Hal) as Hc. rewrite E in Hc. cbn [ok] in Hc. destruct Hc as [Hn _].
       left. rewrite lookup_insert_ne; [done|]. intros ->. rewrite Hn in Hp. by destruct Hp. }
  1: { destruct (decide (q = p)) as [->|Hne]; [right; left; eauto|left; by rewrite lookup_delete_ne]. }
  all: destruct (decide (q = p)) as [->|Hne]; [right; right; eauto|left; by rewrite lookup_insert_ne].
Qed.
Print Assumptions C40_independent.
Theorem C40_destroy : forall w G p g, arg_history w G -> G !! p = Some g ->
  exists w', arg_destroy w (Some p) = Ret w' /\ arg_history w' (delete p G) /\
    forall a b, (a, b) ∈ s_done g -> mblk (amem w') !! a = None.
Proof.
  intros w G p g H Hg. destruct (arg_history_inv _ _ H) as [GM I].
  destruct (destroy_ok w G GM I p g Hg) as (w' & E & Hf & _). exists w'. split; [done|]. split; [|done].
  eapply history_step; [done|]. by eapply ac_destroy.
Qed.
Print Assumptions C40_destroy.
(** when every list has been destroyed nothing remains allocated *)
Theorem C40_no_leak : forall w, arg_history w ∅ ->
  args w = ∅ /\ mblk (amem w) = ∅ /\ minf (amem w) = ∅ /\ stks (msh (amem w)) = ∅ /\ nodes (msh (amem w)) = ∅.
Proof.
  intros w H. destruct (arg_history_inv _ _ H) as [GM I]. destruct (ainv_no_leak w GM I) as (H1 & H2 & H3 & H4 & H5). done.
Qed.
Print Assumptions C40_no_leak.
Theorem C40_null : forall w al s n, arg_count w None = Abort /\ arg_get w None n = Abort /\ arg_get_vector w None = Abort /\
  arg_add al w None s = Abort /\ arg_addn al w None s n = Abort /\ arg_grow al w None s n = Abort /\
  arg_finish al w None = Abort /\ arg_destroy w None = Abort.
Proof. done. Qed.
Print Assumptions C40_null.

(** ** C41: [line] is the grammar of ArgSpec *)
Theorem C41_argify : forall w G al s rest style ws, arg_history w G -> aalloc_ok al ->
  str_ok s -> Z.of_nat (length s) + 3 < 2 ^ 30 -> line (escapes style) (quotes style) s ws ->
  ok (fun '(w', p) => G !! p = None /\ (exists g, arg_history w' (<[p := g]> G)) /\
        arg_count w' (Some p) = Ret (Z.of_nat (length ws)) /\
        forall i v, ws !! i = Some v -> exists a, arg_get w' (Some p) (Z.of_nat i) = Ret (Some a) /\
           mblk (amem w') !! a = Some (v ++ [0%N]))
     (afail al) (arg_argify al w (s ++ 0%N :: rest) style).
Proof.
  intros w G al s rest style ws H Hal Hs Hl Hline.
  eapply ok_mono; [apply (argify_ok al w G s rest style (arg_history_inv _ _ H) Hal Hs Hl)| |done].
  intros [w' p] [Hn (g & Hlat & Ed & _)]. rewrite (line_tok _ _ _ _ Hline) in Ed. split; [done|].
  pose proof (history_later _ _ _ _ H Hlat) as H'. split; [eauto|].
  assert (El : length (s_done g) = length ws).
  { apply (f_equal length) in Ed. rewrite fmap_length in Ed. unfold words0 in Ed. by rewrite fmap_length in Ed. }
  split; [rewrite <- El; by eapply (C40_vector w' _ p g H'), lookup_insert|].
  intros i v Hi.
  assert (Hv : (s_done g).*2 !! i = Some (v ++ [0%N])) by (rewrite Ed; unfold words0; by rewrite list_lookup_fmap, Hi).
  rewrite list_lookup_fmap in Hv. destruct (s_done g !! i) as [[a b]|] eqn:Ei; [|done]. cbn in Hv. injection Hv as ->.
  exists a. split; [by eapply C40_get; [|apply lookup_insert|exact Ei]|].
  destruct (C40_vector w' _ p g H' (lookup_insert _ _ _)) as (_ & vec & _ & _ & Hvec). by eapply Hvec.
Qed.
Print Assumptions C41_argify.
(** every string has words, and only one list of them *)
Theorem C41_total : forall esc quo s, exists ws, line esc quo s ws.
Proof. intros. apply line_total. Qed.
Print Assumptions C41_total.
Theorem C41_unambiguous : forall esc quo s ws ws', line esc quo s ws -> line esc quo s ws' -> ws = ws'.
Proof. intros esc quo s ws ws' H1 H2. by rewrite <- (line_tok _ _ _ _ H1), (line_tok _ _ _ _ H2). Qed.
Print Assumptions C41_unambiguous.

(** ** C42 *)
Lemma escape_cons c v : escape_word (c :: v) = [92%N; c] ++ escape_word v.
Proof. done. Qed.
Lemma escape_is_word v : v <> [] -> word true true (escape_word v) v.
Proof.
  induction v as [|c v IH]; intros Hv; [done|]. rewrite escape_cons. destruct v as [|d v].
  - apply w_one. by apply p_esc.
  - change (c :: d :: v) with ([c] ++ (d :: v)). apply w_more; [by apply p_esc|by apply IH].
Qed.
Lemma plain_is_word v : v <> [] -> Forall (fun c => ~ blank c /\ c <> 34%N /\ c <> 39%N /\ c <> 92%N) v -> word true true v v.
Proof.
  induction v as [|c v IH]; intros Hv Hf; [done|]. apply Forall_cons in Hf as [Hc Hf].
  assert (Hp : piece true true [c] [c]). { apply p_plain; [apply Hc|]. unfold special. intuition. }
  destruct v as [|d v].
  - by apply w_one.
  - change (c :: d :: v) with ([c] ++ (d :: v)). apply w_more; [done|by apply IH].
Qed.
Lemma quoting_word v t : quoting v t -> word true true t v.
Proof.
  destruct 1 as [v H|v H|v H|v H H2].
  - by apply escape_is_word.
  - by apply w_one, p_dquote.
  - by apply w_one, p_squote.
  - by apply plain_is_word.
Qed.
Lemma joined_line ws ts s : Forall2 quoting ws ts -> joined ts s -> line true true s ws.
Proof.
  intros HF HJ. revert ws HF. induction HJ as [|t|t b bs l s Hb Hbs HJ IH]; intros ws HF.
  - apply Forall2_nil_inv_r in HF. subst. apply l_nil.
  - apply Forall2_cons_inv_r in HF as (v & l & Hq & Hl & ->). apply Forall2_nil_inv_r in Hl. subst.
    apply l_last, lw_word. by apply quoting_word.
  - apply Forall2_cons_inv_r in HF as (v & l' & Hq & Hl & ->). apply l_word; [by apply quoting_word|done|].
    specialize (IH l' Hl). clear -Hbs IH. induction Hbs as [|c bs Hc _ IHb]; [done|]. cbn. by apply l_blank.
Qed.
(** any quoting of the words, joined by blanks, gives the words back *)
Theorem C42_round_trip : forall w G al ws ts s rest, arg_history w G -> aalloc_ok al ->
  Forall2 quoting ws ts -> joined ts s -> str_ok s -> Z.of_nat (length s) + 3 < 2 ^ 30 ->
  ok (fun '(w', p) => G !! p = None /\ (exists g, arg_history w' (<[p := g]> G)) /\
        arg_count w' (Some p) = Ret (Z.of_nat (length ws)) /\
        forall i v, ws !! i = Some v -> exists a, arg_get w' (Some p) (Z.of_nat i) = Ret (Some a) /\
           mblk (amem w') !! a = Some (v ++ [0%N]))
     (afail al) (arg_argify al w (s ++ 0%N :: rest) 0).
Proof.
  intros w G al ws ts s rest H Hal HF HJ Hs Hl. apply (C41_argify w G al s rest 0 ws); try done.
  by eapply joined_line.
Qed.
Print Assumptions C42_round_trip.
(** and every list of words, empty ones included, has such a text *)
Theorem C42_quoting_exists : forall ws, Forall str_ok ws -> exists ts s, Forall2 quoting ws ts /\ joined ts s /\ str_ok s.
Proof.
  intros ws. induction 1 as [|v ws Hv _ (ts & s & HF & HJ & Hs)].
  - exists [], []. split; [constructor|]. split; constructor.
  - assert (Hq : exists t, quoting v t /\ str_ok t).
    { destruct (decide (v = [])) as [->|Hne].
      - exists [34; 34]%N. split; [apply (q_dquote []); intros H; by apply elem_of_nil in H|].
        repeat constructor; lia.
      - exists (escape_word v). split; [by apply q_escape|]. clear -Hv. induction Hv as [|c v Hc _ IH]; [constructor|].
        rewrite escape_cons. constructor; [lia|]. constructor; [done|]. exact IH. }
    destruct Hq as (t & Hq & Ht). exists (t :: ts), (t ++ 32%N :: [] ++ s).
    split; [by constructor|]. split; [constructor; [by left|constructor|done]|].
    apply Forall_app. split; [done|]. constructor; [lia|]. done.
Qed.
Print Assumptions C42_quoting_exists.

(** ** Reachable cases *)
Definition ex_aal : aalloc :=
  AA bump (fun _ => true) (MA bump bump bump (fun n h => (fun a => (a, replicate (N.to_nat n) 7%N)) <$> bump h)).
Lemma ex_aal_ok : aalloc_ok ex_aal /\ ~ afail ex_aal.
Proof.
  split.
  - constructor; [apply bump_ok| |intros h; discriminate].
    constructor; [apply bump_ok..|]. intros n h a b. cbn [ex_aal aa_mem m_blk].
    destruct (bump h) as [a'|] eqn:E; [|done]. cbn. intros [= <- <-]. split; [by apply bump_ok|apply replicate_length].
  - unfold afail, may_fail. cbn. intros [[h H]|[[n H]|[(n & h & H)|[[h H]|[h H]]]]]; discriminate H.
Qed.
Definition texts (w : aworld) (p : positive) (n : nat) : list (option (list N)) :=
  (fun i => match arg_get w (Some p) (Z.of_nat i) with Ret (Some a) => mblk (amem w) !! a | _ => None end) <$> seq 0 n.
(** ab \  (escaped blank) "c d"'e' "" f\  : words "ab", " c de", "", "f" *)
Definition ex_line : list N := [97; 98; 32; 32; 92; 32; 34; 99; 32; 100; 34; 39; 101; 39; 9; 34; 34; 32; 102; 92]%N.
Definition r1 := arg_argify ex_aal aempty (ex_line ++ [0; 55]%N) 0.
Definition w1 : aworld := (getr r1 (aempty, 1%positive)).1.
Definition p1 : positive := (getr r1 (aempty, 1%positive)).2.
Example C41_reachable :
  is_ret r1 = true /\ arg_count w1 (Some p1) = Ret 4 /\
  texts w1 p1 5 = [Some [97; 98; 0]; Some [32; 99; 32; 100; 101; 0]; Some [0]; Some [102; 0]; None]%N /\
  arg_get w1 (Some p1) 4 = Abort /\
  is_ret (arg_destroy w1 (Some p1)) = true /\ mblk (amem (getr (arg_destroy w1 (Some p1)) aempty)) !! 1%positive = None.
Proof.
  split; [vm_compute; reflexivity|]. split; [vm_compute; reflexivity|]. split; [vm_compute; reflexivity|].
  split; [vm_compute; reflexivity|]. split; vm_compute; reflexivity.
Qed.
(** the state it reaches is a history, with the words of the grammar *)
Example C41_history : exists G ws, arg_history w1 G /\ is_Some (G !! p1) /\ line true true ex_line ws /\ length ws = 4%nat.
Proof.
  destruct (line_total true true ex_line) as [ws Hws].
  pose proof (C41_argify aempty ∅ ex_aal ex_line [55]%N 0 ws ltac:(apply rtc_refl) (proj1 ex_aal_ok)
    ltac:(repeat constructor; lia) ltac:(cbn; lia) Hws) as H.
  assert (E : arg_argify ex_aal aempty (ex_line ++ 0%N :: [55]%N) 0 = Ret (w1, p1)) by (apply getr_ok2; vm_compute; reflexivity).
  rewrite E in H. cbn [ok] in H. destruct H as (_ & (g & Hg) & Hc & _). exists (<[p1 := g]> ∅), ws.
  split; [done|]. rewrite lookup_insert. split; [eauto|]. split; [done|].
  rewrite <- (line_tok _ _ _ _ Hws). vm_compute. reflexivity.
Qed.
(** with NO_QUOTE and NO_ESCAPE only blanks matter *)
Example C41_styles :
  texts (getr (arg_argify ex_aal aempty [34; 97; 32; 92; 34; 0]%N 3) (aempty, 1%positive)).1 1 3 =
    [Some [34; 97; 0]; Some [92; 34; 0]; None]%N /\
  texts (getr (arg_argify ex_aal aempty [34; 97; 32; 92; 34; 0]%N 2) (aempty, 1%positive)).1 1 3 =
    [Some [34; 97; 0]; Some [34; 0]; None]%N /\
  texts (getr (arg_argify ex_aal aempty [34; 97; 32; 92; 34; 0]%N 1) (aempty, 1%positive)).1 1 3 =
    [Some [97; 32; 92; 0]; None; None]%N.
Proof. vm_compute. done. Qed.
Example C42_reachable : exists ts s, Forall2 quoting [[]; [34; 39; 92; 32]; [97]]%N ts /\ joined ts s /\ str_ok s.
Proof. apply C42_quoting_exists. repeat constructor; lia. Qed.
