(** C43-C45 and C63, whole programs: any sequence of calls of flags.c ([dbg = false]) or of debug.c
    ([dbg = true]). *)
From Verif Require Import Base Trace CStr ListLemmas PrimeModel HashModel HashSpec HashProofs HashOps HashOps2 HashIter HashHist HashFnModel HashFnProofs NameTab.
From Verif Require Import FlagModel FlagSpec FlagProofs FlagHist.
Local Open Scope N_scope.

(** The calls.  [rest]: what follows the argument string.  FRegister is flg_register or
    _dbg_register; FUser (dbg_register), FOn and FOff (dbg_set_flag, dbg_unset_flag) are in debug.c only. *)
Inductive fop :=
| FRegister (al : halloc skey N) (f : N) (n rest : list N)
| FUser (al : halloc skey N) (f : N) (n rest : list N)
| FSet (n rest : list N)
| FOn (f : N)
| FOff (f : N)
| FTest (g : N)
| FName (f : N)
| FList
| FDestroy.
(** [RName]: the name returned ([None]: "unknown flag"), [RLines]: the lines printed, with the mark
    "(builtin)", [RLeft]: did the call leave nodes of the table behind?  [RAny] and [RLists] are the
    results of the specification: the names that may be returned, the unmarked and the marked lines. *)
Inductive fres :=
| RDone | ROn (b : bool) | RName (n : option (list N)) | RLines (l : list (list N * bool)) | RLeft (b : bool)
| RAny (l : list (list N)) | RLists (plain marked : list (list N)).

Section programs.
Context (dbg : bool).

(** ** the model *)
Definition fstep (s : fstate) (c : fop) : res (fstate * fres) :=
  match c with
  | FRegister al f n rest => s' ← flg_register al s f (Some (n ++ 0 :: rest)); Ret (s', RDone)
  | FUser al f n rest => s' ← dbg_register al s f (Some (n ++ 0 :: rest)); Ret (s', RDone)
  | FSet n rest => s' ← (if dbg then dbg_set else flg_set) s (Some (n ++ 0 :: rest)); Ret (s', RDone)
  | FOn f => s' ← dbg_set_flag s f; Ret (s', RDone)
  | FOff f => s' ← dbg_unset_flag s f; Ret (s', RDone)
  | FTest g => r ← (if dbg then dbg_test else flg_test) s g; Ret (s, ROn (negb (r =? 0)%Z))
  | FName f => '(s', r) ← (if dbg then dbg_name else flg_name) s f; Ret (s', RName r)
  | FList => '(s', l) ← (if dbg then dbg_list else flg_list) s; Ret (s', RLines l)
  | FDestroy => '(s', h) ← (if dbg then dbg_destroy else flg_destroy) s; Ret (s', RLeft (negb (Nat.eqb (size h) 0)))
  end.

(** ** the specification: the names with their flags ([None]: nothing registered yet), and the bits
    that are on, by set and number *)
Definition fspst : Type := option (list (list N * N)) * (N -> N -> bool).
Definition bits30 : list N := N.of_nat <$> seq 0 30.
(** one bit among the low thirty *)
Definition one_bit (f : N) : bool := (length (List.filter (N.testbit f) bits30) =? 1)%nat.
Definition top2 (f : N) : bool := N.testbit f 30 && N.testbit f 31.
Definition turn (f : N) (b : bool) (on : N -> N -> bool) : N -> N -> bool :=
  fun k i => if (set_of f =? k) && N.testbit f i then b else on k i.
Definition happen (on : N -> N -> bool) (e : fevent) : N -> N -> bool :=
  match e with ESet f => turn f true on | EClear f => turn f false on | EAll => fun _ _ => true | ENone => fun _ _ => false end.
Definition fits_b (e : fevent) : bool := match e with ESet f | EClear f => f <? 2 ^ 32 | _ => true end.
Definition bound (l : option (list (list N * N))) (n : list N) : option N :=
  match l with Some l => snd <$> find (fun nf => bool_decide (nf.1 = n)) l | None => None end.
Definition fspec (S : fspst) (c : fop) : res (fspst * fres) :=
  let '(l, on) := S in
  let reg f n := if one_bit f
    then Ret ((Some (match bound l n with Some _ => default [] l | None => (n, f) :: default [] l end), on), RDone) else Fatal in
  match c with
  | FRegister _ f n _ => reg f n
  | FUser _ f n _ => if top2 f then Fatal else reg f n
  | FSet n _ =>
      match l with
      | None => Fatal
      | Some _ =>
          match (if dbg then dbg_effect (bound l) n else flg_effect (bound l) n) with
          | Invalid => Fatal
          | Does e => if forallb fits_b e then Ret ((l, fold_left happen e on), RDone) else UB
          end
      end
  | FOn f => if f <? 2 ^ 32 then Ret ((l, turn f true on), RDone) else UB
  | FOff f => if f <? 2 ^ 32 then Ret ((l, turn f false on), RDone) else UB
  | FTest g => Ret (S, ROn (existsb (fun i => N.testbit g i && on (seen g) i) bits30))
  | FName f =>
      match l with
      | None => if dbg then Fatal else Abort
      | Some l => Ret (S, RAny (List.filter (fun nf => nf.2 =? f) l).*1)
      end
  | FList =>
      match l with
      | None => Abort
      | Some l => Ret (S, if dbg then RLists (List.filter (fun nf => negb (top2 nf.2)) l).*1 (List.filter (fun nf => top2 nf.2) l).*1
                          else RLists l.*1 [])
      end
  | FDestroy => Ret ((None, fun _ _ => false), RLeft false)
  end.
(** names are strings; flags are unsigned long (for a test: of 32 bits); malloc returns fresh
    addresses; dbg_set is not given an empty name, unless it is registered *)
Definition flegal (S : fspst) (c : fop) : Prop :=
  match c with
  | FRegister al f n _ => halloc_ok al /\ str_ok n /\ f < 2 ^ 64
  | FUser al f n _ => dbg = true /\ halloc_ok al /\ str_ok n /\ f < 2 ^ 64
  | FSet n _ => str_ok n /\ (dbg = true -> n = [] -> is_Some (bound S.1 n))
  | FOn f | FOff f => dbg = true /\ f < 2 ^ 64
  | FTest g => g < 2 ^ 32
  | FName _ | FList | FDestroy => True
  end.
Definition fcan (c : fop) : Prop := match c with FRegister al _ _ _ | FUser al _ _ _ => can_fail al | _ => False end.
Definition feq (r r' : fres) : Prop :=
  match r' with
  | RAny l => match r with RName (Some n) => n ∈ l | RName None => l = [] | _ => False end
  | RLists p m => match r with
      | RLines out => exists p' m', out = ((fun n => (n, false)) <$> p') ++ ((fun n => (n, true)) <$> m') /\ p' ≡ₚ p /\ m' ≡ₚ m
      | _ => False end
  | _ => r = r'
  end.

(** ** the relation *)
Definition frel (s : fstate) (S : fspst) : Prop :=
  exists ev, finv s S.1 ev /\ forall k i, k < 4 -> i < 30 -> S.2 k i = lit ev k i.

Lemma bound_find l n : bound l n = find_in l n.
Proof.
  destruct l as [l|]; [|done]. cbn [bound find_in]. induction l as [|[a b] l IH]; [done|]. cbn [find lookup_name fst].
  destruct (decide (a = n)) as [->|Hne]; [by rewrite bool_decide_eq_true_2|]. by rewrite bool_decide_eq_false_2.
Qed.
Lemma happen_lit e : forall on ev, (forall k i, k < 4 -> i < 30 -> on k i = lit ev k i) ->
  forall k i, k < 4 -> i < 30 -> happen on e k i = lit (e :: ev) k i.
Proof. intros on ev H k i Hk Hi. destruct e; cbn [happen lit]; unfold turn; by rewrite ?H. Qed.
Lemma effect_short (b : bool) f n e : (if b then dbg_effect f n else flg_effect f n) = Does e -> e = [] \/ exists x, e = [x].
Proof.
  destruct b; unfold dbg_effect, flg_effect; intros H; repeat case_match; simplify_eq; eauto.
Qed.
Lemma bits30_in i : i ∈ bits30 <-> i < 30.
Proof.
  unfold bits30. rewrite elem_of_list_fmap. split.
  - intros (n & -> & Hn). apply elem_of_seq in Hn. lia.
  - intros H. exists (N.to_nat i). split; [lia|]. apply elem_of_seq. lia.
Qed.
Lemma bits30_nodup : NoDup bits30.
Proof. unfold bits30. apply (NoDup_fmap_2 _). apply NoDup_seq. Qed.
Lemma one_bit_malformed f : one_bit f = negb (malformed f).
Proof.
  destruct (malformed f) eqn:E; cbn [negb].
  - unfold one_bit. apply Nat.eqb_neq. intros H.
    destruct (List.filter (N.testbit f) bits30) as [|i [|]] eqn:Ef; try discriminate.
    assert (malformed f = false) as E2; [|congruence]. apply malformed_spec.
    assert (Hi : In i (List.filter (N.testbit f) bits30)) by (rewrite Ef; left; done).
    apply filter_In in Hi as [Hi Hb]. apply elem_of_list_In, bits30_in in Hi. exists i. split; [done|].
    apply N.bits_inj. intros j. rewrite N.pow2_bits_eqb. destruct (N.lt_ge_cases j 30) as [Hj|Hj].
    + rewrite N.mod_pow2_bits_low by done. destruct (N.testbit f j) eqn:Ej.
      * assert (In j [i]) as [->|[]]; [|symmetry; apply N.eqb_refl]. rewrite <- Ef. apply filter_In. split; [|done]. by apply elem_of_list_In, bits30_in.
      * symmetry. apply N.eqb_neq. intros ->. congruence.
    + rewrite N.mod_pow2_bits_high by done. symmetry. apply N.eqb_neq. lia.
  - apply malformed_spec in E as (i & Hi & E).
    assert (Hb : forall j, j < 30 -> N.testbit f j = (i =? j)).
    { intros j Hj. rewrite <- (N.mod_pow2_bits_low f 30 j) by done. rewrite E. apply N.pow2_bits_eqb. }
    assert (Ef : List.filter (N.testbit f) bits30 = List.filter (N.eqb i) bits30).
    { apply filter_ext_in. intros j Hj. apply elem_of_list_In, bits30_in in Hj. by apply Hb. }
    unfold one_bit. rewrite Ef. clear -Hi.
    assert (Hall : forallb (fun i => (length (List.filter (N.eqb i) bits30) =? 1)%nat) bits30 = true) by (vm_compute; reflexivity).
    rewrite forallb_forall in Hall. apply Hall. by apply elem_of_list_In, bits30_in.
Qed.
Lemma top2_builtin f : top2 f = builtin f.
Proof.
  unfold top2, builtin. symmetry. destruct (N.testbit f 30 && N.testbit f 31) eqn:E.
  - apply N.eqb_eq. apply andb_prop in E as [H1 H2]. apply N.bits_inj. intros i. rewrite N.land_spec.
    destruct (decide (i = 30)) as [->|N30]; [by rewrite H1|]. destruct (decide (i = 31)) as [->|N31]; [by rewrite H2|].
    assert (N.testbit 0xc0000000 i = false) as ->; [|by rewrite andb_false_r].
    change 0xc0000000 with (N.shiftl 3 30). destruct (N.lt_ge_cases i 30) as [Hi|Hi]; [by rewrite N.shiftl_spec_low|].
    rewrite N.shiftl_spec_high' by done. apply N.bits_above_log2. cbn. lia.
  - apply N.eqb_neq. intros H. assert (N.testbit (N.land f 0xc0000000) 30 = true /\ N.testbit (N.land f 0xc0000000) 31 = true) as [H1 H2] by (by rewrite H).
    rewrite N.land_spec in H1, H2. apply andb_prop in H1 as [H1 _], H2 as [H2 _]. by rewrite H1, H2 in E.
Qed.
Lemma fits_dec_b e : forallb fits_b e = bool_decide (fits e).
Proof.
  induction e as [|x e IH]; [done|]. cbn [forallb]. rewrite IH. unfold fits. destruct (bool_decide (Forall _ (x :: e))) eqn:E.
  - apply bool_decide_eq_true in E. apply Forall_cons in E as [H1 H2]. rewrite bool_decide_eq_true_2 by done. rewrite andb_true_r. destruct x; cbn [fits_b]; lia.
  - apply bool_decide_eq_false in E. destruct (fits_b x) eqn:Ex; [|done]. cbn [andb]. apply bool_decide_eq_false_2. intros H. apply E. constructor; [|done].
    destruct x; cbn [fits_b] in Ex; try done; lia.
Qed.
Lemma filter_bool {A} (P : A -> bool) (l : list A) : filter (fun x => P x = true) l = List.filter P l.
Proof. induction l as [|x l IH]; [done|]. rewrite filter_cons. cbn [List.filter]. rewrite IH. destruct (P x); by case_decide. Qed.

Lemma fstep_ok s S c : frel s S -> flegal S c -> call_ok feq fcan frel c (fstep s c) (fspec S c).
Proof.
  intros (ev & Hi & Hb) Hl. destruct S as [l on]. cbn [fst snd] in *.
  assert (Hreg : forall al f n rest, halloc_ok al -> str_ok n -> f < 2 ^ 64 ->
    call_ok feq fcan frel (FRegister al f n rest) (s' ← flg_register al s f (Some (n ++ 0 :: rest)); Ret (s', RDone))
      (if one_bit f then Ret ((Some (match bound l n with Some _ => default [] l | None => (n, f) :: default [] l end), on), RDone) else Fatal)).
  { intros al f n rest Hal Hn Hf. rewrite one_bit_malformed. destruct (malformed f) eqn:Em; cbn [negb].
    - unfold flg_register. rewrite Em. done.
    - pose proof (register_ok al s l ev f n rest Hi Hal Hn Em) as Hr.
      destruct (flg_register al s f (Some (n ++ 0 :: rest))) as [s'| | | |] eqn:E; cbn [mbind res_bind ok] in *; try done.
      split; [|done]. exists ev. cbn [fst snd]. split; [|done].
      assert (Eq : add_name n f (default [] l) = match bound l n with Some _ => default [] l | None => (n, f) :: default [] l end).
      { unfold add_name. rewrite bound_find. destruct l as [l|]; cbn [default find_in]; [done|]. done. }
      by rewrite <- Eq. }
  destruct c as [al f n rest|al f n rest|n rest|f|f|g|f| |]; cbn [flegal] in Hl; unfold fstep, fspec.
  - destruct Hl as (H1 & H2 & H3). by apply Hreg.
  - destruct Hl as (H0 & H1 & H2 & H3). rewrite top2_builtin. unfold dbg_register, _dbg_register, builtin.
    destruct (N.land f 3221225472 =? 3221225472); [done|]. exact (Hreg al f n rest H1 H2 H3).
  - destruct Hl as [Hn Hne]. destruct l as [l|].
    2:{ assert (Et : set_call dbg s (Some (n ++ 0 :: rest)) = Fatal) by exact (set_no_table dbg s ev _ Hi). unfold set_call in Et. rewrite Et. done. }
    pose proof (set_call_ok dbg s l ev n rest Hi Hn) as Hm. specialize (Hm ltac:(destruct dbg; [right|by left]; destruct n; [right; rewrite bound_find in Hne; by apply Hne|by left])).
    unfold set_call, effect_of in Hm.
    assert (Hext : forall m, bound (Some l) m = find_in (Some l) m) by (intros m; apply bound_find).
    assert (Eeff : (if dbg then dbg_effect (bound (Some l)) n else flg_effect (bound (Some l)) n) = (if dbg then dbg_effect (find_in (Some l)) n else flg_effect (find_in (Some l)) n)).
    { unfold dbg_effect, flg_effect. destruct n as [|c m]; rewrite ?Hext; done. }
    rewrite Eeff. destruct (if dbg then dbg_effect (find_in (Some l)) n else flg_effect (find_in (Some l)) n) as [e|] eqn:Ee; cbn [set_meets] in Hm.
    + rewrite fits_dec_b. destruct Hm as [H1 H2]. destruct (bool_decide (fits e)) eqn:Ef.
      * apply bool_decide_eq_true in Ef. destruct (H1 Ef) as (s' & E & Hi'). rewrite E. cbn [mbind res_bind]. split; [|done]. exists (e ++ ev). split; [done|].
        cbn [fst snd]. destruct (effect_short dbg _ n e Ee) as [->|[x ->]]; cbn [fold_left app]; [done|]. by apply happen_lit.
      * apply bool_decide_eq_false in Ef. rewrite (H2 Ef). done.
    + rewrite Hm. done.
  - destruct Hl as [Hd Hf]. destruct Hi as (Hu & Hw & Ht). unfold dbg_set_flag. destruct (N.ltb_spec f (2 ^ 32)) as [Hlt|Hge].
    + destruct (set_bits_ok (fset s) ev f Hw Hlt) as (v' & E & Hv). rewrite E. cbn [mbind res_bind]. split; [|done].
      exists (ESet f :: ev). split; [done|]. cbn [snd]. by apply (happen_lit (ESet f)).
    + destruct (wide_bits (fset s) f (proj1 Hw) Hge) as [E _]. rewrite E. done.
  - destruct Hl as [Hd Hf]. destruct Hi as (Hu & Hw & Ht). unfold dbg_unset_flag. destruct (N.ltb_spec f (2 ^ 32)) as [Hlt|Hge].
    + destruct (clear_bits_ok (fset s) ev f Hw Hlt) as (v' & E & Hv). rewrite E. cbn [mbind res_bind]. split; [|done].
      exists (EClear f :: ev). split; [done|]. cbn [snd]. by apply (happen_lit (EClear f)).
    + destruct (wide_bits (fset s) f (proj1 Hw) Hge) as [_ E]. rewrite E. done.
  - pose proof Hi as (_ & [Hlen Hw] & _). destruct (test_ok (fset s) g Hlen Hl) as (r & E & Hr).
    assert (Et : (if dbg then dbg_test else flg_test) s g = Ret r) by (by destruct dbg). rewrite Et. cbn [mbind res_bind].
    split; [by exists ev|]. cbn [feq]. f_equal. assert (Hs : seen g < 4). { unfold seen. pose proof (set_of_lt g Hl). destruct (_ =? 2); lia. }
    destruct (existsb (fun i : N => N.testbit g i && on (seen g) i) bits30) eqn:Ex.
    + apply existsb_exists in Ex as (i & Hin & H). apply elem_of_list_In, bits30_in in Hin. apply andb_prop in H as [H1 H2]. apply negb_true_iff, Z.eqb_neq.
      apply Hr. exists i. split; [done|]. split; [done|]. rewrite Hw, <- Hb by done. done.
    + apply negb_false_iff, Z.eqb_eq. destruct (decide (r = 0%Z)) as [|Hne]; [done|]. apply Hr in Hne as (i & H1 & H2 & H3).
      assert (existsb (fun i : N => N.testbit g i && on (seen g) i) bits30 = true) as Hx; [|congruence]. apply existsb_exists. exists i.
      split; [by apply elem_of_list_In, bits30_in|]. rewrite H2, Hb, <- Hw by done. by rewrite H3.
  - destruct l as [l|].
    2:{ destruct Hi as (_ & _ & Ht). destruct s as [[t|] v fu]; [done|]. by destruct dbg. }
    destruct (flg_name_ok s l ev f Hi) as (s' & r & E & Hi' & Hr).
    assert (Eq : (if dbg then dbg_name else flg_name) s f = flg_name s f).
    { destruct Hi as (_ & _ & Ht). destruct s as [[t|] v fu]; [|done]. by destruct dbg. }
    rewrite Eq, E. cbn [mbind res_bind]. split; [by exists ev|]. cbn [feq]. destruct r as [n|].
    + apply elem_of_list_fmap. exists (n, f). split; [done|]. apply elem_of_list_In, filter_In. split; [by apply elem_of_list_In|apply N.eqb_refl].
    + destruct (List.filter (fun nf : list N * N => nf.2 =? f) l) as [|[n f'] q] eqn:Ef; [done|]. exfalso.
      assert (Hin : In (n, f') (List.filter (fun nf : list N * N => nf.2 =? f) l)) by (rewrite Ef; by left).
      apply filter_In in Hin as [Hin H]. cbn [snd] in H. apply N.eqb_eq in H as ->. apply (Hr n). by apply elem_of_list_In.
  - destruct l as [l|].
    2:{ destruct Hi as (_ & _ & Ht). destruct s as [[t|] v fu]; [done|]. by destruct dbg. }
    destruct dbg.
    + destruct (dbg_list_ok s l ev Hi) as (user & own & E & H1 & H2). rewrite E. cbn [mbind res_bind]. split; [by exists ev|]. cbn [feq].
      exists user, own. split; [done|]. rewrite H1, H2. split.
      * rewrite (filter_bool (fun nf : list N * N => negb (builtin nf.2))). erewrite filter_ext; [reflexivity|]. intros a. cbn beta. by rewrite top2_builtin.
      * rewrite (filter_bool (fun nf : list N * N => builtin nf.2)). erewrite filter_ext; [reflexivity|]. intros a. cbn beta. by rewrite top2_builtin.
    + destruct (flg_list_ok s l ev Hi) as (out & E & H1). rewrite E. cbn [mbind res_bind]. split; [by exists ev|]. cbn [feq].
      exists out.*1, []. split; [|split; [|done]].
      * cbn [fmap list_fmap]. rewrite app_nil_r, <- list_fmap_compose. clear -H1.
        assert (Hf : Forall (fun x : list N * bool => x.2 = false) out).
        { rewrite H1. apply Forall_fmap, Forall_forall. intros x _. done. }
        clear H1. induction Hf as [|[a b] out Hx _ IH]; [done|]. cbn [fmap list_fmap compose fst]. cbn [snd] in Hx. subst b. by f_equal.
      * rewrite H1, <- list_fmap_compose. reflexivity.
  - assert (E : (if dbg then dbg_destroy else flg_destroy) s = Ret (fempty, ∅)).
    { destruct dbg; exact (destroy_ok s l ev Hi). }
    rewrite E. cbn [mbind res_bind]. split; [|done]. exists []. split; [apply finv_start|]. done.
Qed.

Lemma flags_ok cs : lawful fspec flegal (None, fun _ _ => false) cs ->
  refines feq fcan (fun _ _ => True) cs (run fstep fempty cs) (run fspec (None, fun _ _ => false) cs).
Proof.
  intros Hl. eapply refines_Q; [|apply (run_refines _ _ _ _ flegal frel); [intros; by apply fstep_ok| |exact Hl]]; [done|].
  exists []. split; [apply finv_start|done].
Qed.
End programs.
