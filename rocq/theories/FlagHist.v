(** Histories of flag calls (flags.c with [dbg = false], debug.c with [dbg = true]). *)
From Verif Require Import Base CStr ListLemmas PrimeModel HashModel HashSpec HashProofs HashOps HashOps2 HashIter HashHist HashFnModel HashFnProofs NameTab FlagModel FlagSpec FlagProofs.
Local Open Scope N_scope.

Definition names := option (list (list N * N)).   (* registered names, newest first; None: no table *)
Definition find_in (l : names) (n : list N) : option N := match l with Some l => lookup_name n l | None => None end.
Definition effect_of (dbg : bool) (l : names) (n : list N) : effect :=
  if dbg then dbg_effect (find_in l) n else flg_effect (find_in l) n.
Definition set_call (dbg : bool) := if dbg then dbg_set else flg_set.
Definition name_call (dbg : bool) := if dbg then dbg_name else flg_name.
Definition list_call (dbg : bool) := if dbg then dbg_list else flg_list.

(** every state reachable by calls that return, with the names registered and what
    happened to the flags.  The effect of a set that turns out invalid does not matter:
    such a set does not return. *)
Inductive flag_history (dbg : bool) : fstate -> names -> list fevent -> Prop :=
| fh_start : flag_history dbg fempty None []
| fh_register al s l ev f n rest s' :
    flag_history dbg s l ev -> halloc_ok al -> str_ok n -> f < 2 ^ 64 ->
    flg_register al s f (Some (n ++ 0 :: rest)) = Ret s' ->
    flag_history dbg s' (Some (add_name n f (default [] l))) ev
| fh_register_user al s l ev f n rest s' :       (* dbg_register *)
    flag_history dbg s l ev -> halloc_ok al -> str_ok n -> f < 2 ^ 64 -> dbg = true ->
    dbg_register al s f (Some (n ++ 0 :: rest)) = Ret s' ->
    flag_history dbg s' (Some (add_name n f (default [] l))) ev
| fh_set s l ev n rest s' :
    flag_history dbg s l ev -> str_ok n -> n <> [] ->
    set_call dbg s (Some (n ++ 0 :: rest)) = Ret s' ->
    flag_history dbg s' l (match effect_of dbg l n with Does e => e | Invalid => [] end ++ ev)
| fh_set_flag s l ev f s' :
    flag_history dbg s l ev -> f < 2 ^ 64 -> dbg = true -> dbg_set_flag s f = Ret s' ->
    flag_history dbg s' l (ESet f :: ev)
| fh_unset_flag s l ev f s' :
    flag_history dbg s l ev -> f < 2 ^ 64 -> dbg = true -> dbg_unset_flag s f = Ret s' ->
    flag_history dbg s' l (EClear f :: ev)
| fh_name s l ev f s' r :
    flag_history dbg s l ev -> name_call dbg s f = Ret (s', r) -> flag_history dbg s' l ev
| fh_list s l ev s' r :
    flag_history dbg s l ev -> list_call dbg s = Ret (s', r) -> flag_history dbg s' l ev
| fh_destroy s l ev s' h :
    flag_history dbg s l ev -> dbg_destroy s = Ret (s', h) -> flag_history dbg s' None [].

Definition goodflags (l : list (list N * N)) : Prop := Forall (fun nf => malformed nf.2 = false) l.
Definition finv (s : fstate) (l : names) (ev : list fevent) : Prop :=
  fused s = [0; 0; 0; 0] /\ wordsok (fset s) ev /\
  match l, fhash s with
  | None, None => True
  | Some l, Some t => named 0 t l /\ goodflags l /\ NoDup l.*1
  | _, _ => False
  end.

Lemma finv_start : finv fempty None [].
Proof.
  split; [done|]. split; [|done]. split; [done|]. intros k i Hk Hi. cbn [lit fempty fset].
  assert (word [0;0;0;0] k = 0) as ->; [|apply N.bits_0]. unfold word.
  assert (N.to_nat k = 0 \/ N.to_nat k = 1 \/ N.to_nat k = 2 \/ N.to_nat k = 3)%nat as Hn by lia.
  destruct Hn as [-> |[-> |[-> | ->]]]; done.
Qed.

Lemma lookup_notin s (l : list (list N * N)) : lookup_name s l = None -> s ∉ l.*1.
Proof.
  induction l as [|[a b] l IH]; intros H; cbn [fmap list_fmap fst].
  - intros Hx. by apply elem_of_nil in Hx.
  - cbn [lookup_name] in H. destruct (decide (a = s)) as [|Hn]; [done|]. intros Hx. apply elem_of_cons in Hx as [Hx|Hx]; [by apply Hn|].
    by apply IH.
Qed.
Lemma add_good n f l : goodflags l -> malformed f = false -> goodflags (add_name n f l).
Proof. intros H Hf. unfold add_name. destruct (lookup_name n l); [done|]. by constructor. Qed.
Lemma add_nodup n f (l : list (list N * N)) : NoDup l.*1 -> NoDup (add_name n f l).*1.
Proof.
  intros H. unfold add_name. destruct (lookup_name n l) eqn:E; [done|]. cbn [fmap list_fmap fst]. constructor; [|done].
  by apply lookup_notin.
Qed.
Lemma test_zeros f : TEST f [0; 0; 0; 0] = Ret 0%Z.
Proof.
  assert (Hz : to_int (Z.of_N (u64 (N.shiftl (N.land 0 f) 2))) = 0%Z) by (rewrite N.land_0_l; done).
  unfold TEST. destruct (negb (N.shiftr f 31 =? 0)), (negb (N.shiftr f 30 =? 0)); cbn [aget lookup list_lookup]; rb; by rewrite Hz.
Qed.

Lemma register_ok al s l ev f n rest : finv s l ev -> halloc_ok al -> str_ok n -> malformed f = false ->
  ok (fun s' => finv s' (Some (add_name n f (default [] l))) ev) (can_fail al) (flg_register al s f (Some (n ++ 0 :: rest))).
Proof.
  intros (Hu & Hw & Ht) Hal Hn Hf. unfold flg_register. rewrite Hf, Hu, test_zeros.
  destruct (name_key_ok n rest Hn) as (k & Ek & Hk).
  apply (ok_bind (fun t => named 0 t (default [] l) /\ goodflags (default [] l) /\ NoDup (default [] l).*1)).
  - destruct l as [l|], (fhash s) as [t|]; try done. cbn [default].
    eapply ok_mono; [apply (nt_create 0 al Hal)| |done]. intros t Hx. split; [done|]. split; [apply Forall_nil_2|]. apply NoDup_nil_2.
  - intros t (Hnt & Hg & Hd). rb. change (negb (0 =? 0)%Z) with false. cbv iota. rewrite Ek. rb.
    apply (ok_bind (fun '(t', r) => named 0 t' (add_name n f (default [] l)))).
    + eapply ok_mono; [apply (nt_insert 0 al t _ k f Hal Hnt)| |done]. intros [t' r] [H _]. by rewrite <- Hk.
    + intros [t' r] Ht'. split; [done|]. split; [done|]. split; [done|]. split; [by apply add_good|by apply add_nodup].
Qed.

Definition fits (e : list fevent) : Prop :=
  Forall (fun e => match e with ESet f | EClear f => f < 2 ^ 32 | _ => True end) e.

Global Instance fits_dec e : Decision (fits e).
Proof. unfold fits. apply Forall_dec. intros [f|f| |]; apply _. Defined.
Lemma strcmp_eq n rest m : str_ok n -> str_ok m ->
  exists c, c_strcmp (n ++ 0 :: rest) (m ++ [0]) = Ret c /\ ((c =? 0)%Z = bool_decide (n = m)).
Proof.
  intros Hn Hm. exists (scmp n m). split; [by apply c_strcmp_spec|].
  destruct (bool_decide (n = m)) eqn:E.
  - apply bool_decide_eq_true in E as ->. by rewrite scmp_refl.
  - apply bool_decide_eq_false in E. apply Z.eqb_neq. by rewrite scmp_eq.
Qed.
Lemma s_none_ok : str_ok s_none.
Proof. repeat constructor; done. Qed.
Lemma s_all_ok : str_ok s_all.
Proof. repeat constructor; done. Qed.

Lemma retr_some t l k f : named 0 t l -> lookup_name (proj1_sig k) l = Some f ->
  exists t', hsh_retrieve fenv t k = Ret (t', f) /\ named 0 t' l.
Proof. intros H E. destruct (nt_retrieve 0 t l k H) as (t' & E1 & H1). rewrite E in E1. eauto. Qed.
Lemma retr_none t l k : named 0 t l -> lookup_name (proj1_sig k) l = None ->
  exists t', hsh_retrieve fenv t k = Ret (t', 0) /\ named 0 t' l.
Proof. intros H E. destruct (nt_retrieve 0 t l k H) as (t' & E1 & H1). rewrite E in E1. eauto. Qed.
Lemma good_nonzero n l f : goodflags l -> lookup_name n l = Some f -> (f =? 0) = false.
Proof.
  intros Hg E. apply lookup_in in E. eapply Forall_forall in Hg; [|exact E]. apply N.eqb_neq. by apply wellformed_nonzero.
Qed.

(** listing *)
Lemma visit_lines (f : skey -> N -> list (list N * bool)) m : forall u,
  visit (fun k d u => (u ++ f k d, 0%Z)) m u = (u ++ (m ≫= fun kd => f kd.1 kd.2), false).
Proof.
  induction m as [|[k d] m IH]; intros u; cbn [visit]; [by rewrite app_nil_r|].
  change (0 =? 0)%Z with true. cbv iota. rewrite IH. cbn [mbind list_bind fst snd]. by rewrite app_assoc.
Qed.
Lemma iterate_lines f t m u : enumerates t m -> size (heap t) = length m ->
  hsh_iterate (rounds t) (line_body f) t u = Ret (t, u ++ (m ≫= fun kd => f kd.1 kd.2), 0%Z).
Proof.
  intros He Hs. pose proof (He _ (fun k d u => (u ++ f k d, 0%Z)) u (rounds t) ltac:(unfold rounds; lia)) as E.
  rewrite visit_lines in E. exact E.
Qed.
Lemma named_lines t l : named 0 t l -> exists m, enumerates t m /\ names_of m ≡ₚ l /\ size (heap t) = length m.
Proof.
  intros H. destruct (nt_enumerates 0 t l H) as (m & He & Hp). exists m. split; [done|]. split; [done|].
  rewrite (nt_nodes 0 t l H), <- Hp. unfold names_of. by rewrite fmap_length.
Qed.
Lemma flg_list_ok s l ev : finv s (Some l) ev ->
  exists out, flg_list s = Ret (s, out) /\ out ≡ₚ (fun nf => (nf.1, false)) <$> l.
Proof.
  intros (_ & _ & Ht). destruct s as [[t|] v fu]; [|done]. cbn [fhash] in Ht. destruct Ht as (Hn & _ & _).
  destruct (named_lines t l Hn) as (m & He & Hp & Hs). unfold flg_list. cbn [fhash fset fused].
  rewrite (iterate_lines _ t m [] He Hs). rb. eexists. split; [reflexivity|].
  rewrite <- Hp. unfold names_of. rewrite app_nil_l, <- list_fmap_compose.
  clear. induction m as [|[k d] m IH]; [done|]. cbn [mbind list_bind fmap list_fmap fst snd app compose].
  apply perm_skip. exact IH.
Qed.
Lemma lines_filter (P : N -> bool) b (m : list (skey * N)) (l : list (list N * N)) : names_of m ≡ₚ l ->
  exists out, (m ≫= fun kd : skey * N => if P kd.2 then [(proj1_sig kd.1, b)] else [] : list (list N * bool)) = (fun n : list N => (n, b)) <$> out /\
    out ≡ₚ (filter (fun nf : list N * N => P nf.2 = true) l).*1.
Proof.
  intros Hp. exists (filter (fun nf : list N * N => P nf.2 = true) (names_of m)).*1. split.
  - clear. induction m as [|[k d] m IH]; [done|].
    assert (E : ((k, d) :: m) ≫= (fun kd : skey * N => if P kd.2 then [(proj1_sig kd.1, b)] else []) =
      (if P d then [(proj1_sig k, b)] else []) ++ (m ≫= (fun kd : skey * N => if P kd.2 then [(proj1_sig kd.1, b)] else []))) by reflexivity.
    rewrite E. rewrite IH. unfold names_of. rewrite fmap_cons, filter_cons. cbn [fst snd].
    destruct (P d); cbn [app]; (destruct (decide _) as [Hx|Hx]; try done); by rewrite ?fmap_cons.
  - by rewrite Hp.
Qed.
Lemma dbg_list_ok s l ev : finv s (Some l) ev ->
  exists user own, dbg_list s = Ret (s, ((fun n : list N => (n, false)) <$> user) ++ ((fun n : list N => (n, true)) <$> own)) /\
    user ≡ₚ (filter (fun nf => negb (builtin nf.2) = true) l).*1 /\ own ≡ₚ (filter (fun nf => builtin nf.2 = true) l).*1.
Proof.
  intros (_ & _ & Ht). destruct s as [[t|] v fu]; [|done]. cbn [fhash] in Ht. destruct Ht as (Hn & _ & _).
  destruct (named_lines t l Hn) as (m & He & Hp & Hs). unfold dbg_list. cbn [fhash fset fused].
  rewrite (iterate_lines _ t m [] He Hs). rb. rewrite (iterate_lines _ t m _ He Hs). rb.
  destruct (lines_filter (fun f => negb (builtin f)) false m l Hp) as (o1 & E1 & H1).
  destruct (lines_filter builtin true m l Hp) as (o2 & E2 & H2).
  exists o1, o2. split; [|done]. rewrite app_nil_l.
  assert (Ea : (m ≫= fun kd => if negb (builtin kd.2) then [(proj1_sig kd.1, false)] else []) = (fun n : list N => (n, false)) <$> o1) by exact E1.
  rewrite <- E1, <- E2. reflexivity.
Qed.

(** names *)
Lemma visit_name f m : forall u,
  match (visit (fun (k : skey) (d : N) (u : option (list N)) => if f =? d then (Some (proj1_sig k), 1%Z) else (u, 0%Z)) m u) with
  | (r, true) => exists n, r = Some n /\ (n, f) ∈ names_of m
  | (r, false) => r = u /\ forall n, (n, f) ∉ names_of m
  end.
Proof.
  induction m as [|[k d] m IH]; intros u; cbn [visit].
  - split; [done|]. intros n H. by apply elem_of_nil in H.
  - destruct (N.eqb_spec f d) as [->|Hne].
    + change (1 =? 0)%Z with false. cbv iota. exists (proj1_sig k). split; [done|]. unfold names_of. rewrite fmap_cons. left.
    + change (0 =? 0)%Z with true. cbv iota. specialize (IH u). destruct (visit _ m u) as [r [|]].
      * destruct IH as (n & E & Hin). exists n. split; [done|]. unfold names_of. rewrite fmap_cons. by right.
      * destruct IH as (E & Hn). split; [done|]. intros n Hin. unfold names_of in Hin. rewrite fmap_cons in Hin.
        apply elem_of_cons in Hin as [Hin|Hin]; [|by apply (Hn n)]. cbn [fst snd] in Hin. congruence.
Qed.
Lemma flg_name_ok s l ev f : finv s (Some l) ev ->
  exists s' r, flg_name s f = Ret (s', r) /\ finv s' (Some l) ev /\
    match r with Some n => (n, f) ∈ l | None => forall n, (n, f) ∉ l end.
Proof.
  intros (Hu & Hw & Ht). destruct s as [[t|] v fu]; [|done]. cbn [fhash fset fused] in *. destruct Ht as (Hn & Hg & Hd).
  unfold flg_name. cbn [fhash fset fused].
  destruct (nt_iterate 0 (fun (k : skey) (d : N) (u : option (list N)) => if f =? d then (Some (proj1_sig k), 1%Z) else (u, 0%Z))
     t l None (S (size (heap t))) Hn) as (m & t' & He & Hp & E & Hnf & t'' & o & Eend & Hend).
  { rewrite (nt_nodes 0 t l Hn). lia. }
  pose proof (visit_name f m None) as Hv. destruct (visit _ m None) as [r b] eqn:Ev. cbn [fst snd] in *.
  change (HSH_ITERATE (S (size (heap t))) fenv (name_body f) t None = Ret (t', r, b)) in E. rewrite E. rb.
  destruct b.
  - rewrite Eend. rb. destruct Hv as (n & -> & Hin). eexists _, _. split; [reflexivity|]. split; [done|]. by rewrite <- Hp.
  - destruct Hv as (-> & Hin). eexists _, _. split; [reflexivity|]. split; [split; [done|]; split; [done|]; split; [by apply Hnf|done]|].
    intros n. by rewrite <- Hp.
Qed.

(** setting by name *)
Lemma set_zero v ev : wordsok v ev -> exists v', set_bits v 0 = Ret v' /\ wordsok v' ev.
Proof.
  intros H. destruct (set_bits_ok v ev 0 H ltac:(lia)) as (v' & E & Hl & Hv). exists v'. split; [done|]. split; [done|].
  intros k i Hk Hi. rewrite (Hv k i Hk Hi). cbn [lit]. by rewrite N.bits_0, andb_false_r.
Qed.
Lemma clear_zero v ev : wordsok v ev -> exists v', clear_bits v 0 = Ret v' /\ wordsok v' ev.
Proof.
  intros H. destruct (clear_bits_ok v ev 0 H ltac:(lia)) as (v' & E & Hl & Hv). exists v'. split; [done|]. split; [done|].
  intros k i Hk Hi. rewrite (Hv k i Hk Hi). cbn [lit]. by rewrite N.bits_0, andb_false_r.
Qed.

Definition set_meets (call : res fstate) (l : list (list N * N)) (ev : list fevent) (e : effect) : Prop :=
  match e with
  | Invalid => call = Fatal
  | Does e => (fits e -> exists s', call = Ret s' /\ finv s' (Some l) (e ++ ev)) /\ (~ fits e -> call = UB)
  end.
Lemma fits_one e : fits [e] <-> match e with ESet f | EClear f => f < 2 ^ 32 | _ => True end.
Proof. unfold fits. rewrite Forall_singleton. done. Qed.
Lemma meets_set t v fu l ev f : fu = [0;0;0;0] -> wordsok v ev -> named 0 t l -> goodflags l -> NoDup l.*1 ->
  set_meets (v' ← set_bits v f; Ret (FS (Some t) v' fu)) l ev (Does [ESet f]).
Proof.
  intros Hu Hw Hn Hg Hd. split.
  - intros Hf. apply fits_one in Hf. destruct (set_bits_ok v ev f Hw Hf) as (v' & E & H). rewrite E. rb. eexists. split; [done|].
    split; [done|]. split; [done|]. done.
  - intros Hf. rewrite fits_one in Hf. destruct (wide_bits v f (proj1 Hw) ltac:(lia)) as [E _]. by rewrite E.
Qed.
Lemma meets_clear t v fu l ev f : fu = [0;0;0;0] -> wordsok v ev -> named 0 t l -> goodflags l -> NoDup l.*1 ->
  set_meets (v' ← clear_bits v f; Ret (FS (Some t) v' fu)) l ev (Does [EClear f]).
Proof.
  intros Hu Hw Hn Hg Hd. split.
  - intros Hf. apply fits_one in Hf. destruct (clear_bits_ok v ev f Hw Hf) as (v' & E & H). rewrite E. rb. eexists. split; [done|].
    split; [done|]. split; [done|]. done.
  - intros Hf. rewrite fits_one in Hf. destruct (wide_bits v f (proj1 Hw) ltac:(lia)) as [_ E]. by rewrite E.
Qed.
Lemma meets_nothing t v fu l ev : fu = [0;0;0;0] -> wordsok v ev -> named 0 t l -> goodflags l -> NoDup l.*1 -> forall b : bool,
  set_meets (v' ← (if b then set_bits v 0 else clear_bits v 0); Ret (FS (Some t) v' fu)) l ev (Does []).
Proof.
  intros Hu Hw Hn Hg Hd b. split; [|intros H; exfalso; apply H; constructor]. intros _.
  destruct b; [destruct (set_zero v ev Hw) as (v' & E & H)|destruct (clear_zero v ev Hw) as (v' & E & H)]; rewrite E; rb;
    eexists; (split; [done|]); (split; [done|]); done.
Qed.

Lemma flg_set_ok s l ev n rest : finv s (Some l) ev -> str_ok n ->
  set_meets (flg_set s (Some (n ++ 0 :: rest))) l ev (flg_effect (find_in (Some l)) n).
Proof.
  intros Hi Hn. pose proof Hi as (Hu & Hw & Ht). destruct s as [[t|] v fu]; [|done]. cbn [fhash fset fused] in *. destruct Ht as (Hnt & Hg & Hd).
  unfold flg_set, flg_effect, upd. cbn [fhash fset fused].
  destruct (strcmp_eq n rest s_none Hn s_none_ok) as (c1 & E1 & H1). rewrite E1. rb. rewrite H1.
  destruct (decide (n = [110; 111; 110; 101])) as [Ed|Ed].
  { rewrite bool_decide_eq_true_2 by done. split; [|intros H; exfalso; apply H; by constructor]. intros _.
    eexists. split; [done|]. split; [done|]. split; [|done]. cbn [fset app]. apply all4_ok. right. done. }
  rewrite bool_decide_eq_false_2 by done.
  destruct (strcmp_eq n rest s_all Hn s_all_ok) as (c2 & E2 & H2). rewrite E2. rb. rewrite H2.
  destruct (decide (n = [97; 108; 108])) as [Ea|Ea].
  { rewrite bool_decide_eq_true_2 by done. split; [|intros H; exfalso; apply H; by constructor]. intros _.
    eexists. split; [done|]. split; [done|]. split; [|done]. cbn [fset app]. apply all4_ok. left. done. }
  rewrite bool_decide_eq_false_2 by done.
  destruct (name_key_ok n rest Hn) as (k & Ek & Hk). rewrite Ek. rb.
  unfold find_in. destruct (lookup_name n l) as [f|] eqn:El.
  - destruct (retr_some t l k f Hnt) as (t1 & Er & Hn1); [by rewrite Hk|]. rewrite Er. rb.
    rewrite (good_nonzero n l f Hg El). by apply meets_set.
  - destruct (retr_none t l k Hnt) as (t1 & Er & Hn1); [by rewrite Hk|]. rewrite Er. rb. change (0 =? 0) with true. cbv iota.
    assert (Hi1 : finv (FS (Some t1) v fu) (Some l) ev) by (split; [done|]; split; done).
    destruct (flg_list_ok _ l ev Hi1) as (out & Eo & _).
    destruct n as [|c m].
    { cbn [app aget lookup list_lookup]. rb. change (negb (0 =? 45) && negb (0 =? 43)) with true. cbv iota. rewrite Eo. done. }
    cbn [app aget lookup list_lookup]. rb.
    assert (Hm : str_ok m) by (by apply Forall_cons in Hn as [_ Hn]).
    assert (Hbad : negb (c =? 45) && negb (c =? 43) = true ->
      (match c with 43 => match lookup_name m l with Some f => Does [ESet f] | None => Invalid end
        | 45 => match lookup_name m l with Some f => Does [EClear f] | None => Invalid end | _ => Invalid end) = Invalid).
    { intros H. apply andb_true_iff in H as [Ha Hb]. apply negb_true_iff, N.eqb_neq in Ha, Hb.
      repeat case_match; done. }
    destruct (negb (c =? 45) && negb (c =? 43)) eqn:Ec.
    { rewrite Hbad by done. rewrite Eo. done. }
    change (drop 1 (c :: m ++ 0 :: rest)) with (m ++ 0 :: rest). destruct (name_key_ok m rest Hm) as (k1 & Ek1 & Hk1). rewrite Ek1. rb.
    assert (Hc : c = 43 \/ c = 45).
    { apply andb_false_iff in Ec as [Ec|Ec]; apply negb_false_iff, N.eqb_eq in Ec; auto. }
    destruct (lookup_name m l) as [f|] eqn:Em.
    + destruct (retr_some t1 l k1 f Hn1) as (t2 & Er2 & Hn2); [by rewrite Hk1|]. rewrite Er2. rb.
      rewrite (good_nonzero m l f Hg Em). destruct Hc as [-> | ->].
      * change (43 =? 43) with true. cbv iota. by apply meets_set.
      * change (45 =? 43) with false. cbv iota. by apply meets_clear.
    + destruct (retr_none t1 l k1 Hn1) as (t2 & Er2 & Hn2); [by rewrite Hk1|]. rewrite Er2. rb. change (0 =? 0) with true. cbv iota.
      assert (Hi2 : finv (FS (Some t2) v fu) (Some l) ev) by (split; [done|]; split; done).
      destruct (flg_list_ok _ l ev Hi2) as (out2 & Eo2 & _). rewrite Eo2. rb. by destruct Hc as [-> | ->].
Qed.

Lemma dbg_set_ok s l ev n rest : finv s (Some l) ev -> str_ok n -> n <> [] \/ is_Some (lookup_name n l) ->
  set_meets (dbg_set s (Some (n ++ 0 :: rest))) l ev (dbg_effect (find_in (Some l)) n).
Proof.
  intros Hi Hn Hne. pose proof Hi as (Hu & Hw & Ht). destruct s as [[t|] v fu]; [|done]. cbn [fhash fset fused] in *. destruct Ht as (Hnt & Hg & Hd).
  unfold dbg_set, dbg_effect, upd. cbn [fhash fset fused].
  destruct (strcmp_eq n rest s_none Hn s_none_ok) as (c1 & E1 & H1). rewrite E1. rb. rewrite H1.
  destruct (decide (n = [110; 111; 110; 101])) as [Ed|Ed].
  { rewrite bool_decide_eq_true_2 by done. split; [|intros H; exfalso; apply H; by constructor]. intros _.
    eexists. split; [done|]. split; [done|]. split; [|done]. cbn [fset app]. apply all4_ok. right. done. }
  rewrite bool_decide_eq_false_2 by done.
  destruct (strcmp_eq n rest s_all Hn s_all_ok) as (c2 & E2 & H2). rewrite E2. rb. rewrite H2.
  destruct (decide (n = [97; 108; 108])) as [Ea|Ea].
  { rewrite bool_decide_eq_true_2 by done. split; [|intros H; exfalso; apply H; by constructor]. intros _.
    eexists. split; [done|]. split; [done|]. split; [|done]. cbn [fset app]. apply all4_ok. left. done. }
  rewrite bool_decide_eq_false_2 by done.
  destruct (name_key_ok n rest Hn) as (k & Ek & Hk). rewrite Ek. rb.
  unfold find_in. destruct (lookup_name n l) as [f|] eqn:El.
  - destruct (retr_some t l k f Hnt) as (t1 & Er & Hn1); [by rewrite Hk|]. rewrite Er. rb.
    rewrite (good_nonzero n l f Hg El). by apply meets_set.
  - destruct (retr_none t l k Hnt) as (t1 & Er & Hn1); [by rewrite Hk|]. rewrite Er. rb. change (0 =? 0) with true. cbv iota.
    destruct n as [|c m]; [destruct Hne as [|[? ?]]; done|].
    assert (Hm : str_ok m) by (by apply Forall_cons in Hn as [_ Hn]).
    cbn [app aget lookup list_lookup]. change (drop 1 (c :: m ++ 0 :: rest)) with (m ++ 0 :: rest).
    destruct (name_key_ok m rest Hm) as (k1 & Ek1 & Hk1). rewrite Ek1. rb.
    destruct (lookup_name m l) as [f|] eqn:Em.
    + destruct (retr_some t1 l k1 f Hn1) as (t2 & Er2 & Hn2); [by rewrite Hk1|]. rewrite Er2. rb.
      rewrite (good_nonzero m l f Hg Em). cbn [andb]. destruct (c =? 43); [by apply meets_set|by apply meets_clear].
    + destruct (retr_none t1 l k1 Hn1) as (t2 & Er2 & Hn2); [by rewrite Hk1|]. rewrite Er2. rb. change (0 =? 0) with true. cbn [andb].
      assert (Hi2 : finv (FS (Some t2) v fu) (Some l) ev) by (split; [done|]; split; done).
      destruct (dbg_list_ok _ l ev Hi2) as (o1 & o2 & Eo2 & _). rewrite Eo2. rb.
      destruct (c =? 45) eqn:E45, (c =? 43) eqn:E43; cbn [negb andb orb]; try done;
        try (by apply (meets_nothing t2 v fu l ev Hu Hw Hn2 Hg Hd true)); by apply (meets_nothing t2 v fu l ev Hu Hw Hn2 Hg Hd false).
Qed.

Lemma set_call_ok dbg s l ev n rest : finv s (Some l) ev -> str_ok n -> dbg = false \/ n <> [] \/ is_Some (lookup_name n l) ->
  set_meets (set_call dbg s (Some (n ++ 0 :: rest))) l ev (effect_of dbg (Some l) n).
Proof.
  intros Hi Hn Hne. destruct dbg; cbn [set_call effect_of]; [apply dbg_set_ok; [done|done|]; destruct Hne; [done|done]|by apply flg_set_ok].
Qed.
Lemma set_no_table dbg s ev n : finv s None ev -> set_call dbg s (Some n) = Fatal.
Proof.
  intros (_ & _ & Ht). destruct s as [[t|] v fu]; [done|]. by destruct dbg.
Qed.
Lemma destroy_ok s l ev : finv s l ev -> dbg_destroy s = Ret (fempty, ∅).
Proof.
  intros (_ & _ & Ht). unfold dbg_destroy. destruct l as [l|], (fhash s) as [t|]; try done.
  destruct Ht as (Hn & _). rewrite (nt_destroy 0 t l Hn). done.
Qed.

Lemma flag_inv dbg s l ev : flag_history dbg s l ev -> finv s l ev.
Proof.
  induction 1 as [|al s l ev f n rest s' _ IH Hal Hn Hf E|al s l ev f n rest s' _ IH Hal Hn Hf Hdb E|s l ev n rest s' _ IH Hn Hne E
    |s l ev f s' _ IH Hf Hdb E|s l ev f s' _ IH Hf Hdb E|s l ev f s' r _ IH E|s l ev s' r _ IH E|s l ev s' h _ IH E].
  - apply finv_start.
  - destruct (malformed f) eqn:Em; [unfold flg_register in E; rewrite Em in E; discriminate E|].
    pose proof (register_ok al s l ev f n rest IH Hal Hn Em) as Hr. by rewrite E in Hr.
  - unfold dbg_register, _dbg_register in E. destruct (_ =? _); [discriminate E|].
    destruct (malformed f) eqn:Em; [unfold flg_register in E; rewrite Em in E; discriminate E|].
    pose proof (register_ok al s l ev f n rest IH Hal Hn Em) as Hr. by rewrite E in Hr.
  - destruct l as [l|]; [|rewrite (set_no_table dbg s ev _ IH) in E; discriminate E].
    pose proof (set_call_ok dbg s l ev n rest IH Hn ltac:(auto)) as Hm. rewrite E in Hm.
    destruct (effect_of dbg (Some l) n) as [e|]; [|discriminate Hm]. destruct Hm as [H1 H2].
    destruct (decide (fits e)) as [Hf|Hf]; [|specialize (H2 Hf); discriminate H2].
    destruct (H1 Hf) as (s2 & E2 & Hi). injection E2 as <-. done.
  - destruct IH as (Hu & Hw & Ht). unfold dbg_set_flag in E.
    destruct (N.lt_ge_cases f (2 ^ 32)) as [Hlt|Hge].
    + destruct (set_bits_ok (fset s) ev f Hw Hlt) as (v' & Ev & Hv). rewrite Ev in E. injection E as <-. done.
    + destruct (wide_bits (fset s) f (proj1 Hw) Hge) as [Ev _]. rewrite Ev in E. discriminate E.
  - destruct IH as (Hu & Hw & Ht). unfold dbg_unset_flag in E.
    destruct (N.lt_ge_cases f (2 ^ 32)) as [Hlt|Hge].
    + destruct (clear_bits_ok (fset s) ev f Hw Hlt) as (v' & Ev & Hv). rewrite Ev in E. injection E as <-. done.
    + destruct (wide_bits (fset s) f (proj1 Hw) Hge) as [_ Ev]. rewrite Ev in E. discriminate E.
  - destruct l as [l|].
    + destruct (flg_name_ok s l ev f IH) as (s2 & r2 & E2 & Hi & _).
      assert (Eq : name_call dbg s f = flg_name s f).
      { destruct IH as (_ & _ & Ht), s as [[t|] v fu]; [|done]. by destruct dbg. }
      rewrite Eq, E2 in E. by injection E as <- _.
    + destruct IH as (_ & _ & Ht), s as [[t|] v fu]; [done|]. by destruct dbg.
  - destruct l as [l|].
    + destruct dbg; cbn [list_call] in E.
      * destruct (dbg_list_ok s l ev IH) as (o1 & o2 & E2 & _). rewrite E2 in E. by injection E as <- _.
      * destruct (flg_list_ok s l ev IH) as (o1 & E2 & _). rewrite E2 in E. by injection E as <- _.
    + destruct IH as (_ & _ & Ht), s as [[t|] v fu]; [done|]. by destruct dbg.
  - rewrite (destroy_ok s l ev IH) in E. injection E as <- _. apply finv_start.
Qed.
