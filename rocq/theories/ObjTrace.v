(** C23-C24, whole programs: any sequence of calls on any number of object pools. *)
From Verif Require Import Base Trace StackModel StackProofs ObjModel ObjProofs ObjHist CStr MemModel MemProofs HashFnModel StrModel StrProofs StrHist StrTrace.
Local Open Scope nat_scope.

(** The calls; a pool is named by its number in the order of creation, an object of a pool by its
    number in the order in which the pool first handed it out. *)
Inductive oop :=
| OCreate (al : oalloc (list N)) (size : Z)
| OGet (al : oalloc (list N)) (i : nat)
| OGetEmpty (al : oalloc (list N)) (i : nat)
| OFree (al : oalloc (list N)) (i n : nat)
| OWrite (i n : nat) (b : list N)       (* the program stores [b] into the object *)
| ORead (i n : nat)                     (* ... and reads it *)
| OStat (mem : bool) (i : nat)
| ODestroy (i : nat).
Inductive ores := OObj (n : nat) | OBytes (b : list N) | OSome (len : N) | OCounts (t u r s : Z) | ODone.

(** ** the model: the program keeps the pointers it was given *)
Definition ostate : Type := list positive * list (list positive) * oworld (list N).
Definition obj_var {A} (ns : list (list positive)) (i n : nat) (f : positive -> res A) : res A :=
  str_var ns i (fun l => match l !! n with Some a => f a | None => UB end).
Definition ostep (st : ostate) (c : oop) : res (ostate * ores) :=
  let '(vs, ns, w) := st in
  let named_res i (r : oworld (list N) * positive) :=
    str_var ns i (fun l => let '(l', n) := known l r.2 in Ret ((vs, <[i := l']> ns, r.1), OObj n)) in
  match c with
  | OCreate al z => '(w', a) ← mem_create_objects al w z; Ret ((vs ++ [a], ns ++ [[]], w'), ODone)
  | OGet al i => var vs i (fun p => r ← mem_get_object al w p; named_res i r)
  | OGetEmpty al i => var vs i (fun p => r ← mem_get_empty_object al w p; named_res i r)
  | OFree al i n => var vs i (fun p => obj_var ns i n (fun a => w' ← mem_free_object al w p (Some a); Ret ((vs, ns, w'), ODone)))
  | OWrite i n b => obj_var ns i n (fun a => bl ← hset (oblk w) a b; Ret ((vs, ns, OW (osh w) bl (oinf w)), ODone))
  | ORead i n => obj_var ns i n (fun a => b ← hget (oblk w) a; Ret ((vs, ns, w), OBytes b))
  | OStat mem i => var vs i (fun p => '(t, u, r, s) ← mem_get_object_stats mem w (Some p); Ret ((vs, ns, w), OCounts t u r s))
  | ODestroy i => var vs i (fun p => w' ← mem_destroy_objects w p; Ret ((vs, ns, w'), ODone))
  end.

(** ** the specification: a pool is its objects' contents ([None]: not determined), the returned
    objects, the last first, and the number of hand-outs *)
Record osp := OSp { z_size : Z; z_objs : list (option (list N)); z_free : list nat; z_hand : nat }.
Definition z_bytes (P : osp) : N := Z.to_N (z_size P mod 2 ^ 64).
Definition zeros (P : osp) : list N := replicate (N.to_nat (z_bytes P)) 0%N.
Definition hand_out (P : osp) : osp * nat :=
  match z_free P with
  | k :: fr => (OSp (z_size P) (z_objs P) fr (S (z_hand P)), k)
  | [] => (OSp (z_size P) (z_objs P ++ [None]) [] (S (z_hand P)), length (z_objs P))
  end.
Definition store (P : osp) (k : nat) (b : list N) : osp := OSp (z_size P) (<[k := Some b]> (z_objs P)) (z_free P) (z_hand P).
Definition ospec (L : list (option osp)) (c : oop) : res (list (option osp) * ores) :=
  let put (i : nat) (P : osp) (r : ores) : res (list (option osp) * ores) := Ret (<[i := Some P]> L, r) in
  match c with
  | OCreate _ z => Ret (L ++ [Some (OSp z [] [] 0)], ODone)
  | OGet _ i => Trace.live L i (fun P => let '(P', k) := hand_out P in put i P' (OObj k))
  | OGetEmpty _ i => Trace.live L i (fun P => let '(P', k) := hand_out P in put i (store P' k (zeros P)) (OObj k))
  | OFree _ i n => Trace.live L i (fun P => put i (OSp (z_size P) (z_objs P) (n :: z_free P) (z_hand P)) ODone)
  | OWrite i n b => Trace.live L i (fun P => put i (store P n b) ODone)
  | ORead i n => Trace.live L i (fun P =>
      match z_objs P !! n with Some (Some b) => Ret (L, OBytes b) | Some None => Ret (L, OSome (z_bytes P)) | None => UB end)
  | OStat mem i => Trace.live L i (fun P =>
      let n := length (z_objs P) in
      if mem then Ret (L, OCounts (Z.of_nat n) (Z.of_nat n - Z.of_nat (length (z_free P))) (Z.of_nat (z_hand P) - Z.of_nat n) (z_size P))
      else Fatal)
  | ODestroy i => Trace.live L i (fun P => Ret (<[i := None]> L, ODone))
  end.
(** results are equal; an object of undetermined contents has the right number of bytes *)
Definition oeq (r r' : ores) : Prop :=
  match r, r' with OBytes b, OSome n => N.of_nat (length b) = n | _, _ => r = r' end.
(** malloc returns fresh addresses and blocks of the size asked for, and does not fail for the nodes
    of a pool's stacks (stk_push does not check it); the pool has not been destroyed; the program
    uses and returns only objects it holds; the int counters have room *)
Definition nodes_fine (al : oalloc (list N)) : Prop := forall h, al_node al h <> None.
Definition holds_obj (L : list (option osp)) (i n : nat) (f : osp -> Prop) : Prop :=
  exists P, L !! i = Some (Some P) /\ n < length (z_objs P) /\ n ∉ z_free P /\ f P.
Definition olegal (L : list (option osp)) (c : oop) : Prop :=
  match c with
  | OCreate al _ => oal_ok al
  | OGet al i | OGetEmpty al i => oal_ok al /\ nodes_fine al /\
      exists P, L !! i = Some (Some P) /\ (Z.of_nat (z_hand P) < 2 ^ 31 - 1)%Z
  | OFree al i n => oal_ok al /\ nodes_fine al /\ holds_obj L i n (fun _ => True)
  | OWrite i n b => holds_obj L i n (fun P => N.of_nat (length b) = z_bytes P)
  | ORead i n => holds_obj L i n (fun _ => True)
  | OStat _ i | ODestroy i => alive L i
  end.
(** the calls that can run out of memory *)
Definition ocan (c : oop) : Prop :=
  match c with
  | OCreate al _ => (exists h, al_info al h = None) \/ (exists h, al_stk al h = None)
  | OGet al _ | OGetEmpty al _ => exists n h, al_blk al n h = None
  | _ => False
  end.

(** ** the free stack of a pool *)
Lemma chain_det nd p L L' : chain nd p L -> chain nd p L' -> L = L'.
Proof.
  revert p L'. induction L as [|[a d] L IH]; intros p [|[b e] L']; simpl; try done.
  - intros -> [? _]. done.
  - intros [-> _]. done.
  - intros (-> & q & Ha & Hq) ([= <-] & q' & Hb & Hq'). rewrite Ha in Hb. injection Hb as <- <-. f_equal. by eapply IH.
Qed.
Lemma stk_det h M M' s L L' : stk_inv h M -> stk_inv h M' -> M !! s = Some L -> M' !! s = Some L' -> L = L'.
Proof.
  intros I I' HL HL'. destruct (si_chain _ _ I s L HL) as (p & Hp & Hc), (si_chain _ _ I' s L' HL') as (p' & Hp' & Hc').
  rewrite Hp in Hp'. injection Hp' as <-. by eapply chain_det.
Qed.
(** [F]: the blocks on the free stack of pool [i], top first *)
Definition fr (w : oworld (list N)) (i : positive) (F : list positive) : Prop :=
  exists M x L, stk_inv (osh w) M /\ oinf w !! i = Some x /\ M !! ostack x = Some L /\ L.*2 = Some <$> F.
Lemma fr_M w P M i F : oinv bytes_of w P M -> fr w i F ->
  exists x L, oinf w !! i = Some x /\ M !! ostack x = Some L /\ L.*2 = Some <$> F.
Proof.
  intros I (M' & x & L & I' & Hx & HL & HF). assert (Hp : is_Some (P !! i)) by (apply (oi_dom _ _ _ _ I); eauto).
  destruct Hp as [g Hg]. destruct (oi_pool _ _ _ _ I i g Hg) as (y & Lf & La & Hy & HLf & _).
  rewrite Hx in Hy. injection Hy as <-. exists x, Lf. split; [done|]. split; [done|].
  by rewrite (stk_det _ _ _ _ _ _ (oi_stk _ _ _ _ I) I' HLf HL).
Qed.
Lemma fr_set w P M w' M' : oinv bytes_of w P M -> stk_inv (osh w') M' ->
  (forall j x, oinf w !! j = Some x -> exists y, oinf w' !! j = Some y /\ ostack y = ostack x) ->
  forall j x F, oinf w !! j = Some x -> fr w j F -> M' !! ostack x = M !! ostack x -> fr w' j F.
Proof.
  intros I I' Hinf j x F Hx HF HM. destruct (fr_M w P M j F I HF) as (x0 & L & Hx0 & HL & HF2). rewrite Hx in Hx0. injection Hx0 as <-.
  destruct (Hinf j x Hx) as (y & Hy & Es). exists M', y, L. split; [done|]. split; [done|]. split; [|done]. rewrite Es, HM. done.
Qed.

Lemma fr_get al w P M i g w' a F : oinv bytes_of w P M -> oal_ok al -> P !! i = Some g -> fr w i F ->
  mem_get_object al w i = Ret (w', a) ->
  (match F with b :: _ => a = b /\ oblk w' = oblk w | [] => oblk w !! a = None /\ exists b, oblk w' = <[a := b]> (oblk w) end) /\
  fr w' i (tail F) /\ (forall j F', j <> i -> fr w j F' -> fr w' j F').
Proof.
  intros I Hal Hi HF E. unfold mem_get_object in E.
  destruct (fr_M w P M i F I HF) as (x & Lf & Hx & HLf & HLF).
  destruct (oi_pool _ _ _ _ I i g Hi) as (x0 & Lf0 & La & Hx0 & _ & HLa & _ & Hneq). rewrite Hx in Hx0. injection Hx0 as <-.
  rewrite (hget_Some _ _ _ Hx) in E. cbn [mbind res_bind] in E.
  destruct (pop_spec (osh w) M (ostack x) Lf (oi_stk _ _ _ _ I) HLf) as (h1 & Ep & I1 & Hn1 & Hd1). rewrite Ep in E.
  cbn [mbind res_bind] in E. clear Ep.
  assert (Hd : forall j y, j <> i -> oinf w !! j = Some y -> ostack y <> ostack x /\ ostack y <> oallocated x).
  { intros j y Hne Hy. split; intros Eq; apply Hne; apply (oi_stkdisj _ _ _ _ I j i y x (ostack y)); auto. }
  pose proof (fmap_cons_Some Lf F HLF) as HLF2.
  destruct Lf as [|[n d] Lf].
  - subst F. cbn [snd] in E. simpl in I1. rewrite insert_id in I1 by done.
    destruct (al_blk al (size_t (osize x)) (oblk w)) as [[a0 junk]|] eqn:Ea; [|discriminate].
    pose proof (push_spec (al_node al) h1 M (oallocated x) La (Some a0) (oa_node _ _ Hal) I1 HLa) as Hp.
    destruct (al_node al (nodes h1)) as [nd|]; [|rewrite Hp in E; discriminate].
    destruct Hp as (h2 & E2 & I2 & _ & _). rewrite E2 in E. cbn [mbind res_bind] in E.
    destruct (sint (total x + 1)) as [t| | | |]; try discriminate. cbn [mbind res_bind] in E.
    destruct (sint (used x + 1)) as [u| | | |]; try discriminate. cbn [mbind res_bind] in E.
    injection E as <- <-. cbn [oblk]. split; [|split].
    + split; [|eauto]. by apply (oa_blk _ _ Hal) in Ea as [? _].
    + exists (<[oallocated x := (nd, Some a0) :: La]> M), (OInfo t u (reused x) (osize x) (ostack x) (oallocated x)), []. cbn [osh oinf ostack].
      split; [done|]. rewrite lookup_insert. split; [done|]. rewrite lookup_insert_ne by done. done.
    + intros j F' Hne HF'. destruct (fr_M w P M j F' I HF') as (y & _ & Hy & _). destruct (Hd j y Hne Hy).
      eapply (fr_set w P M); [exact I|exact I2| |exact Hy|exact HF'|].
      * intros k z Hz. cbn [oinf]. destruct (decide (k = i)) as [->|Hk]; [|rewrite lookup_insert_ne by done; eauto].
        rewrite lookup_insert. rewrite Hx in Hz. injection Hz as <-. eauto.
      * rewrite lookup_insert_ne; [done|]. congruence.
  - destruct HLF2 as (b & F' & Ed & -> & HF'). cbn [snd] in Ed, E. subst d.
    destruct (sint (reused x + 1)) as [t| | | |]; try discriminate. cbn [mbind res_bind] in E.
    destruct (sint (used x + 1)) as [u| | | |]; try discriminate. cbn [mbind res_bind] in E.
    injection E as <- <-. cbn [oblk]. split; [done|]. cbn [tail] in *. split.
    + exists (<[ostack x := Lf]> M), (OInfo (total x) u t (osize x) (ostack x) (oallocated x)), Lf. cbn [osh oinf ostack].
      split; [done|]. rewrite !lookup_insert. done.
    + intros j F2 Hne HF2. destruct (fr_M w P M j F2 I HF2) as (y & _ & Hy & _). destruct (Hd j y Hne Hy).
      eapply (fr_set w P M); [exact I|exact I1| |exact Hy|exact HF2|].
      * intros k z Hz. cbn [oinf]. destruct (decide (k = i)) as [->|Hk]; [|rewrite lookup_insert_ne by done; eauto].
        rewrite lookup_insert. rewrite Hx in Hz. injection Hz as <-. eauto.
      * rewrite lookup_insert_ne; [done|]. congruence.
Qed.
Lemma fr_free al w P M i g w' a F : oinv bytes_of w P M -> oal_ok al -> P !! i = Some g -> fr w i F ->
  mem_free_object al w i (Some a) = Ret w' ->
  fr w' i (a :: F) /\ (forall j F', j <> i -> fr w j F' -> fr w' j F').
Proof.
  intros I Hal Hi HF E. unfold mem_free_object in E.
  destruct (fr_M w P M i F I HF) as (x & Lf & Hx & HLf & HLF).
  rewrite (hget_Some _ _ _ Hx) in E. cbn [mbind res_bind] in E.
  pose proof (push_spec (al_node al) (osh w) M (ostack x) Lf (Some a) (oa_node _ _ Hal) (oi_stk _ _ _ _ I) HLf) as Hp.
  destruct (al_node al (nodes (osh w))) as [nd|]; [|rewrite Hp in E; discriminate].
  destruct Hp as (h2 & E2 & I2 & _ & _). rewrite E2 in E. cbn [mbind res_bind] in E.
  destruct (sint (used x - 1)) as [u| | | |]; try discriminate. cbn [mbind res_bind] in E. injection E as <-. split.
  - exists (<[ostack x := (nd, Some a) :: Lf]> M), (OInfo (total x) u (reused x) (osize x) (ostack x) (oallocated x)), ((nd, Some a) :: Lf).
    cbn [osh oinf ostack]. split; [done|]. rewrite !lookup_insert. rewrite !fmap_cons, HLF. done.
  - intros j F' Hne HF'. destruct (fr_M w P M j F' I HF') as (y & _ & Hy & _).
    assert (ostack y <> ostack x) by (intros Eq; apply Hne; apply (oi_stkdisj _ _ _ _ I j i y x (ostack y)); auto).
    eapply (fr_set w P M); [exact I|exact I2| |exact Hy|exact HF'|].
    + intros k z Hz. cbn [oinf]. destruct (decide (k = i)) as [->|Hk]; [|rewrite lookup_insert_ne by done; eauto].
      rewrite lookup_insert. rewrite Hx in Hz. injection Hz as <-. eauto.
    + rewrite lookup_insert_ne; [done|]. congruence.
Qed.
Lemma fr_create al w P M z w' i : oinv bytes_of w P M -> oal_ok al -> mem_create_objects al w z = Ret (w', i) ->
  fr w' i [] /\ (forall j F', fr w j F' -> fr w' j F').
Proof.
  intros I Hal E. unfold mem_create_objects in E. destruct (al_info al (oinf w)) as [i0|] eqn:Ei; [|discriminate].
  apply (oa_info _ _ Hal) in Ei.
  pose proof (create_spec (al_stk al) (osh w) M (oa_stk _ _ Hal) (oi_stk _ _ _ _ I)) as H1.
  destruct (al_stk al (stks (osh w))) as [s1|] eqn:Es1; [|rewrite H1 in E; discriminate].
  destruct H1 as (h1 & E1 & HM1 & I1 & _). rewrite E1 in E. cbn [mbind res_bind] in E.
  pose proof (create_spec (al_stk al) h1 _ (oa_stk _ _ Hal) I1) as H2.
  destruct (al_stk al (stks h1)) as [s2|] eqn:Es2; [|rewrite H2 in E; discriminate].
  destruct H2 as (h2 & E2 & HM2 & I2 & _). rewrite E2 in E. cbn [mbind res_bind] in E. injection E as <- <-.
  assert (Hne : s2 <> s1) by (intros ->; by rewrite lookup_insert in HM2). rewrite lookup_insert_ne in HM2 by done. split.
  - eexists _, _, []. split; [exact I2|]. cbn [oinf]. rewrite lookup_insert. split; [done|]. cbn [ostack].
    rewrite lookup_insert_ne by done. rewrite lookup_insert. done.
  - intros j F' HF'. destruct (fr_M w P M j F' I HF') as (y & L & Hy & HL & _).
    eapply (fr_set w P M); [exact I|exact I2| |exact Hy|exact HF'|].
    + intros k x Hk. cbn [oinf]. rewrite lookup_insert_ne by congruence. eauto.
    + rewrite !lookup_insert_ne by congruence. done.
Qed.
Lemma fr_destroy w P M i g w' : oinv bytes_of w P M -> P !! i = Some g -> mem_destroy_objects w i = Ret w' ->
  forall j F', j <> i -> fr w j F' -> fr w' j F'.
Proof.
  intros I Hi E j F' Hne HF'. destruct (fr_M w P M j F' I HF') as (y & L & Hy & HL & HF). unfold mem_destroy_objects in E.
  destruct (oi_pool _ _ _ _ I i g Hi) as (x & Lf & La & Hx & HLf & HLa & Hok & Hneq).
  rewrite (hget_Some _ _ _ Hx) in E. cbn [mbind res_bind] in E.
  assert (Hd : ostack y <> ostack x /\ ostack y <> oallocated x).
  { split; intros Eq; apply Hne; apply (oi_stkdisj _ _ _ _ I j i y x (ostack y)); auto. }
  destruct Hok as [_ _ (A & HA & HndA & HAs & _ & _) _ _].
  destruct (free_all_spec bytes_of (S (size (nodes (osh w)))) (osh w) M (oallocated x) La A (oblk w)) as (h1 & bl & E1 & I1 & Hbl); try done.
  { exact (oi_stk _ _ _ _ I). }
  { destruct (si_chain _ _ (oi_stk _ _ _ _ I) _ _ HLa) as (p & _ & Hc).
    rewrite <- (fmap_length fst La). apply Nat.lt_succ_r. apply nodup_bound; [by apply (si_nodup _ _ (oi_stk _ _ _ _ I) (oallocated x))|].
    intros a Ha. by eapply chain_live. }
  { intros a Ha. apply HAs in Ha. destruct (oi_blk _ _ _ _ I i g a Hi Ha) as (b & Hb & _). eauto. }
  rewrite E1 in E. cbn [mbind res_bind] in E.
  destruct (destroy_spec h1 _ (oallocated x) [] I1) as (h2 & E2 & I2 & _ & _); [by rewrite lookup_insert|].
  rewrite E2 in E. cbn [mbind res_bind] in E. rewrite delete_insert_delete in I2.
  destruct (destroy_spec h2 _ (ostack x) Lf I2) as (h3 & E3 & I3 & _ & _); [by rewrite lookup_delete_ne|].
  rewrite E3 in E. cbn [mbind res_bind] in E. rewrite (hfree_Some _ _ _ Hx) in E. cbn [mbind res_bind] in E. injection E as <-.
  exists (delete (ostack x) (delete (oallocated x) M)), y, L. cbn [osh oinf]. split; [done|]. rewrite !lookup_delete_ne by (destruct Hd; congruence). done.
Qed.

(** ** the relation *)
Record prel (w : oworld (list N)) (p : positive) (g : ObjProofs.pool) (l : list positive) (P : osp) : Prop := {
  pl_size : z_size P = p_size g;
  pl_nodup : NoDup l;
  pl_log : forall b, b ∈ l <-> b ∈ p_log g;
  pl_len : length (z_objs P) = length l;
  pl_hand : z_hand P = length (p_log g);
  pl_free : exists F, fr w p F /\ Forall2 (fun k b => l !! k = Some b) (z_free P) F;
  pl_cont : forall k a b, l !! k = Some a -> z_objs P !! k = Some (Some b) -> oblk w !! a = Some b }.
Record orelG (vs : list positive) (ns : list (list positive)) (w : oworld (list N)) (L : list (option osp)) (gp : list (option ObjProofs.pool)) (G : gmap positive ObjProofs.pool) : Prop := {
  og_hist : obj_history w G;
  og_named : named vs gp G;
  og_len : length L = length gp;
  og_len2 : length ns = length gp;
  og_live : forall (i : nat) (P : osp), L !! i = Some (Some P) -> exists (g : ObjProofs.pool) (p : positive) (l : list positive), gp !! i = Some (Some g) /\ vs !! i = Some p /\ ns !! i = Some l /\ prel w p g l P;
  og_dead : forall i : nat, L !! i = Some None -> gp !! i = Some None }.
Definition orel (st : ostate) (L : list (option osp)) : Prop := exists gp G, orelG (st.1.1) (st.1.2) (st.2) L gp G.

(** a returned block is one that is not live *)
Lemma prel_live w G p g l P : obj_history w G -> G !! p = Some g -> prel w p g l P ->
  forall k a, l !! k = Some a -> (a ∈ p_live g <-> k ∉ z_free P).
Proof.
  intros H Hg R k a Ha. destruct (obj_history_inv w G H) as [[M I] S].
  destruct (pl_free _ _ _ _ _ R) as (F & HF & H2). destruct (fr_M w G M p F I HF) as (x & Lf & Hx & HLf & HLF).
  destruct (oi_pool _ _ _ _ I p g Hg) as (x0 & Lf0 & La & Hx0 & HLf0 & _ & Hok & _). rewrite Hx in Hx0. injection Hx0 as <-.
  rewrite HLf in HLf0. injection HLf0 as <-. destruct (po_free _ _ _ _ Hok) as (F0 & HF0 & _ & HFs).
  rewrite HLF in HF0. apply (inj (fmap Some)) in HF0 as <-.
  assert (Hin : k ∈ z_free P <-> a ∈ F).
  { split; intros Hk; apply elem_of_list_lookup in Hk as [n Hn].
    - destruct (Forall2_lookup_l _ _ _ _ _ H2 Hn) as (b & Hb & Hkb). rewrite Ha in Hkb. injection Hkb as <-. by eapply elem_of_list_lookup_2.
    - destruct (Forall2_lookup_r _ _ _ _ _ H2 Hn) as (k' & Hk' & Hkb). assert (k' = k) as <- by (by eapply NoDup_lookup; [apply (pl_nodup _ _ _ _ _ R)|..]).
      by eapply elem_of_list_lookup_2. }
  rewrite Hin, HFs. assert (a ∈ p_log g) by (apply (pl_log _ _ _ _ _ R); by eapply elem_of_list_lookup_2).
  destruct (decide (a ∈ p_live g)); tauto.
Qed.
Lemma prel_frame w w' p g l P : (forall F, fr w p F -> fr w' p F) -> (forall a, a ∈ p_log g -> oblk w' !! a = oblk w !! a) ->
  prel w p g l P -> prel w' p g l P.
Proof.
  intros HF Hb [R1 R2 R3 R4 R5 (F & R6 & R6') R7]. constructor; try done.
  - exists F. split; [by apply HF|done].
  - intros k a b Ha Hk. rewrite Hb; [by eapply R7|]. apply R3. by eapply elem_of_list_lookup_2.
Qed.
(** the other pools, when one changes *)
Definition framed (w w' : oworld (list N)) (p : positive) (G : gmap positive ObjProofs.pool) : Prop :=
  forall q g, q <> p -> G !! q = Some g -> (forall F, fr w q F -> fr w' q F) /\ (forall a, a ∈ p_log g -> oblk w' !! a = oblk w !! a).
Lemma orel_update vs ns w L gp G i p g l P w' g' l' P' : orelG vs ns w L gp G -> L !! i = Some (Some P) ->
  gp !! i = Some (Some g) -> vs !! i = Some p -> ns !! i = Some l ->
  obj_history w' (<[p := g']> G) -> prel w' p g' l' P' -> framed w w' p G ->
  orel (vs, <[i := l']> ns, w') (<[i := Some P']> L).
Proof.
  intros [H N L1 L2 Hl Hd] HP Hg Hp Hns H' R' Hf. exists (<[i := Some g']> gp), (<[p := g']> G). constructor; cbn [fst snd].
  - done.
  - by eapply named_set.
  - by rewrite !insert_length.
  - by rewrite !insert_length.
  - intros j Q. destruct (decide (j = i)) as [->|Hne].
    + rewrite !list_lookup_insert by (apply lookup_lt_is_Some_1; eauto). intros [= <-]. eauto 10.
    + rewrite !list_lookup_insert_ne by done. intros HQ. destruct (Hl j Q HQ) as (g2 & q & l2 & Hg2 & Hq & Hl2 & R2).
      exists g2, q, l2. split; [done|]. split; [done|]. split; [done|].
      assert (Hqp : q <> p) by (intros ->; apply Hne; by eapply (nm_inj _ _ _ N)).
      destruct (nm_get _ _ _ N j g2 Hg2) as (q' & Hq' & HG). rewrite Hq in Hq'. injection Hq' as <-.
      destruct (Hf q g2 Hqp HG) as [F1 F2]. by eapply prel_frame.
  - intros j. destruct (decide (j = i)) as [->|Hne].
    + rewrite list_lookup_insert by (apply lookup_lt_is_Some_1; eauto). done.
    + rewrite !list_lookup_insert_ne by done. apply Hd.
Qed.
Lemma lookup_self {A} (l : list A) i x : l !! i = Some x -> <[i := x]> l = l.
Proof. apply list_insert_id. Qed.

(** mem_get_object *)
Lemma get_free_ok vs ns w L gp G p g l P al w' a : orelG vs ns w L gp G -> G !! p = Some g -> prel w p g l P ->
  oal_ok al -> nodes_fine al -> (Z.of_nat (z_hand P) < 2 ^ 31 - 1)%Z -> mem_get_object al w p = Ret (w', a) ->
  obj_history w' (<[p := handed g a]> G) /\
  prel w' p (handed g a) (known l a).1 (hand_out P).1 /\ (known l a).2 = (hand_out P).2 /\ framed w w' p G.
Proof.
  intros O HG R Hal Hn Hh E. pose proof (og_hist _ _ _ _ _ _ O) as H. destruct (obj_history_inv w G H) as [[M I] Sh].
  destruct R as [R1 R2 R3 R4 R5 (F & HF & HFF) R7].
  assert (Hlen : (Z.of_nat (length (p_log g)) < 2 ^ 31 - 1)%Z) by (rewrite <- R5; done).
  assert (H' : obj_history w' (<[p := handed g a]> G)) by (eapply oh_get; eauto).
  split; [done|]. destruct (fr_get al w G M p g w' a F I Hal HG HF E) as (Hcase & HFt & Hoth).
  assert (Hframe : framed w w' p G).
  { intros q g2 Hq Hg2. split; [intros F2 HF2; by apply Hoth|]. intros b Hb. destruct F as [|c F]; [|by destruct Hcase as [_ ->]].
    destruct Hcase as [Hnone [j ->]]. destruct (oi_blk _ _ _ _ I q g2 b Hg2 Hb) as (x & Hx & _). rewrite lookup_insert_ne; [done|]. congruence. }
  inversion HFF as [Ez Ef|k b zf F' Hk HFF' Ez Ef]; subst F.
  - (* new block *)
    destruct Hcase as [Hnone [j Hj]]. assert (Hna : a ∉ l).
    { intros Ha. apply R3 in Ha. destruct (oi_blk _ _ _ _ I p g a HG Ha) as (x & Hx & _). congruence. }
    unfold known. rewrite (proj2 (index_None a l) Hna). unfold hand_out. rewrite <- Ez. cbn [fst snd].
    split; [|split; [by rewrite R4|done]]. constructor; cbn [z_size z_objs z_free z_hand handed p_size p_log].
    + done.
    + apply NoDup_app. split; [done|]. split; [|apply NoDup_singleton]. intros b Hb ->%elem_of_list_singleton. done.
    + intros b. rewrite !elem_of_app, !elem_of_list_singleton, R3. done.
    + rewrite !app_length. cbn. lia.
    + rewrite app_length. cbn. lia.
    + exists []. split; [done|constructor].
    + intros k b x Hk Hx. apply snoc_lookup in Hx as [[Hlt Hx]|[_ Hx]]; [|discriminate].
      rewrite lookup_app_l in Hk by lia. rewrite Hj, lookup_insert_ne; [by eapply R7|]. intros <-. apply Hna. by eapply elem_of_list_lookup_2.
  - (* the block returned last *)
    destruct Hcase as [-> Hbl]. assert (Hix : index b l = Some k).
    { destruct (index b l) as [k'|] eqn:Ei; [|exfalso; apply index_None in Ei; apply Ei; by eapply elem_of_list_lookup_2].
      apply index_Some in Ei. f_equal. by eapply NoDup_lookup. }
    unfold known. rewrite Hix. unfold hand_out. rewrite <- Ez. cbn [fst snd]. split; [|done].
    constructor; cbn [z_size z_objs z_free z_hand handed p_size p_log]; try done.
    + intros c. rewrite elem_of_app, elem_of_list_singleton, R3. split; [tauto|]. intros [?| ->]; [done|].
      apply R3. by eapply elem_of_list_lookup_2.
    + rewrite app_length. cbn. lia.
    + exists F'. split; [done|done].
    + intros k2 c x Hc Hx. rewrite Hbl. by eapply R7.
Qed.
Lemma fr_eq w bl p F : fr w p F -> fr (OW (osh w) bl (oinf w)) p F.
Proof. done. Qed.
Lemma hand_out_lt P : Forall (fun k => k < length (z_objs P)) (z_free P) -> (hand_out P).2 < length (z_objs (hand_out P).1).
Proof. unfold hand_out. destruct (z_free P) as [|k f]; cbn; [rewrite app_length; cbn; lia|]. by intros [? _]%Forall_cons. Qed.
Lemma free_lt w p g l P : prel w p g l P -> Forall (fun k => k < length (z_objs P)) (z_free P).
Proof.
  intros [_ _ _ R4 _ (F & _ & HF) _]. rewrite R4. apply Forall_forall. intros k Hk. apply elem_of_list_lookup in Hk as [n Hn].
  destruct (Forall2_lookup_l _ _ _ _ _ HF Hn) as (b & _ & Hb). by eapply lookup_lt_Some.
Qed.
Lemma known_lookup l a : (known l a).1 !! (known l a).2 = Some a.
Proof.
  unfold known. destruct (index a l) as [n|] eqn:E; cbn [fst snd]; [by apply index_Some|].
  rewrite lookup_app_r, Nat.sub_diag by lia. done.
Qed.
(** the program (or memset) stores into an object *)
Lemma store_ok w p g l P k a b G : prel w p g l P -> obj_history w G -> G !! p = Some g -> l !! k = Some a ->
  prel (OW (osh w) (<[a := b]> (oblk w)) (oinf w)) p g l (store P k b) /\
  framed w (OW (osh w) (<[a := b]> (oblk w)) (oinf w)) p G.
Proof.
  intros [R1 R2 R3 R4 R5 (F & R6 & R6') R7] H HG Ha. split.
  - constructor; cbn [z_size z_objs z_free z_hand store]; try done.
    + by rewrite insert_length.
    + exists F. split; [exact R6|done].
    + intros k2 c x Hc Hx. cbn [oblk]. destruct (decide (k2 = k)) as [->|Hne].
      * rewrite Ha in Hc. injection Hc as <-. rewrite lookup_insert. rewrite list_lookup_insert in Hx; [by injection Hx as ->|].
        rewrite R4. by eapply lookup_lt_Some.
      * rewrite list_lookup_insert_ne in Hx by done. rewrite lookup_insert_ne; [by eapply R7|]. intros ->. apply Hne. by eapply NoDup_lookup.
  - intros q g2 Hq Hg2. split; [intros F2 HF2; exact HF2|]. intros c Hc. cbn [oblk]. rewrite lookup_insert_ne; [done|].
    intros ->. apply Hq. eapply (oh_pools_apart w G H); [done|done|done|]. apply R3. by eapply elem_of_list_lookup_2.
Qed.
Lemma framed_trans w w1 w2 p g1 G : framed w w1 p G -> framed w1 w2 p (<[p := g1]> G) -> framed w w2 p G.
Proof.
  intros H1 H2 q g Hq Hg. destruct (H1 q g Hq Hg) as [A1 B1]. destruct (H2 q g Hq) as [A2 B2]; [by rewrite lookup_insert_ne|].
  split; [auto|]. intros a Ha. rewrite B2, B1; done.
Qed.

Lemma ostep_ok st L c : orel st L -> olegal L c -> call_ok oeq ocan orel c (ostep st c) (ospec L c).
Proof.
  intros (gp & G & O) Hl. destruct st as [[vs ns] w]. cbn [fst snd] in *. pose proof (og_hist _ _ _ _ _ _ O) as H.
  pose proof (og_named _ _ _ _ _ _ O) as N.
  assert (Hv : forall i P, L !! i = Some (Some P) -> exists g p l, gp !! i = Some (Some g) /\ vs !! i = Some p /\ ns !! i = Some l /\
      prel w p g l P /\ G !! p = Some g).
  { intros i P Hi. destruct (og_live _ _ _ _ _ _ O i P Hi) as (g & p & l & Hg & Hp & Hns & R). exists g, p, l.
    destruct (nm_get _ _ _ N i g Hg) as (q & Hq & HG). rewrite Hp in Hq. injection Hq as <-. done. }
  destruct c as [al z|al i|al i|al i n|i n b|i n|mem i|i]; cbn [olegal] in Hl; unfold ostep, ospec, var, Trace.live, obj_var, str_var.
  - pose proof (oh_create_ok w G H al z Hl) as Hc. destruct (mem_create_objects al w z) as [[w' p]| | | |] eqn:E; cbn [mbind res_bind ok] in *; try done; [|cbn; destruct Hc; eauto].
    destruct Hc as (Hnew & H' & Hb). destruct (obj_history_inv w G H) as [[M I] Sh]. destruct (fr_create al w G M z w' p I Hl E) as [F0 Fo].
    split; [|done]. exists (gp ++ [Some (ObjProofs.Pool z [] ∅)]), (<[p := ObjProofs.Pool z [] ∅]> G). constructor; cbn [fst snd].
    + done.
    + by apply named_add.
    + rewrite !app_length, (og_len _ _ _ _ _ _ O). done.
    + rewrite !app_length, (og_len2 _ _ _ _ _ _ O). done.
    + intros i P Hi. apply snoc_lookup in Hi as [[Hlt Hi]|[-> Hi]].
      * destruct (Hv i P Hi) as (g & q & l & Hg & Hq & Hns & R & HG). exists g, q, l.
        rewrite !lookup_app_l by (by eapply lookup_lt_Some). split; [done|]. split; [done|]. split; [done|].
        eapply prel_frame; [| |exact R]; [intros F; apply Fo|by rewrite Hb].
      * injection Hi as <-. exists (ObjProofs.Pool z [] ∅), p, []. 
        rewrite !lookup_app_r by (rewrite ?(og_len _ _ _ _ _ _ O), ?(og_len2 _ _ _ _ _ _ O), ?(nm_len _ _ _ N); lia).
        rewrite (og_len _ _ _ _ _ _ O), (og_len2 _ _ _ _ _ _ O), (nm_len _ _ _ N), Nat.sub_diag. split; [done|]. split; [done|]. split; [done|].
        constructor; cbn; try done; [constructor|]. exists []. split; [done|constructor].
    + intros i Hi. apply snoc_lookup in Hi as [[Hlt Hi]|[_ Hi]]; [|discriminate].
      rewrite lookup_app_l; [by apply (og_dead _ _ _ _ _ _ O)|]. rewrite <- (og_len _ _ _ _ _ _ O). done.
  - destruct Hl as (Hal & Hn & P & Hi & Hh). destruct (Hv i P Hi) as (g & p & l & Hg & Hp & Hns & R & HG). rewrite Hi, Hp.
    assert (Hlen : (Z.of_nat (length (p_log g)) < 2 ^ 31 - 1)%Z) by (rewrite <- (pl_hand _ _ _ _ _ R); done).
    pose proof (oh_get_ok w G H al p g Hal HG (Hn _) Hlen) as Hc.
    destruct (mem_get_object al w p) as [[w' a]| | | |] eqn:E; cbn [mbind res_bind ok] in *; try done; [|destruct (hand_out P) as [P2 k2]; cbn; eauto].
    rewrite Hns. cbn [fst snd]. destruct (get_free_ok vs ns w L gp G p g l P al w' a O HG R Hal Hn Hh E) as (H' & R' & Ek & Hf).
    destruct (known l a) as [l' k], (hand_out P) as [P' k']. cbn [fst snd] in *. subst k'. split; [|done]. by eapply orel_update.
  - destruct Hl as (Hal & Hn & P & Hi & Hh). destruct (Hv i P Hi) as (g & p & l & Hg & Hp & Hns & R & HG). rewrite Hi, Hp.
    assert (Hlen : (Z.of_nat (length (p_log g)) < 2 ^ 31 - 1)%Z) by (rewrite <- (pl_hand _ _ _ _ _ R); done).
    pose proof (oh_get_empty_ok w G H al p g Hal HG (Hn _) Hlen) as Hc.
    destruct (mem_get_empty_object al w p) as [[w' a]| | | |] eqn:E; cbn [mbind res_bind ok] in *; try done; [|destruct (hand_out P) as [P2 k2]; cbn; eauto].
    rewrite Hns. cbn [fst snd]. destruct Hc as (H' & _ & Hz & _). unfold mem_get_empty_object in E.
    destruct (mem_get_object al w p) as [[w1 a1]| | | |] eqn:E1; cbn [mbind res_bind] in E; try discriminate.
    destruct (hget (oinf w1) p) as [x| | | |]; cbn [mbind res_bind] in E; try discriminate.
    destruct (hget (oblk w1) a1) as [b| | | |]; cbn [mbind res_bind] in E; try discriminate.
    destruct (c_memset0 b _) as [b'| | | |]; cbn [mbind res_bind] in E; try discriminate. injection E as <- <-.
    destruct (get_free_ok vs ns w L gp G p g l P al w1 a1 O HG R Hal Hn Hh E1) as (H1 & R' & Ek & Hf).
    cbn [oblk] in Hz. rewrite lookup_insert in Hz. injection Hz as ->.
    pose proof (known_lookup l a1) as Hka.
    destruct (store_ok w1 p (handed g a1) (known l a1).1 (hand_out P).1 (known l a1).2 a1 (replicate (N.to_nat (size_t (p_size g))) 0%N) (<[p := handed g a1]> G) R' H1) as [R2 Hf2];
      [apply lookup_insert|exact Hka|].
    unfold zeros, z_bytes. rewrite (pl_size _ _ _ _ _ R).
    destruct (known l a1) as [l' k], (hand_out P) as [P' k']. cbn [fst snd] in *. subst k'. split; [|done].
    eapply orel_update; [exact O|exact Hi|exact Hg|exact Hp|exact Hns|exact H'|exact R2|]. by eapply framed_trans.
  - destruct Hl as (Hal & Hn & P & Hi & Hlt & Hnf & _). destruct (Hv i P Hi) as (g & p & l & Hg & Hp & Hns & R & HG). rewrite Hi, Hp, Hns.
    rewrite (pl_len _ _ _ _ _ R) in Hlt. destruct (lookup_lt_is_Some_2 l n Hlt) as [a Ha]. rewrite Ha.
    assert (Hlv : a ∈ p_live g) by (by apply (prel_live w G p g l P H HG R n a Ha)).
    pose proof (oh_free_ok w G H al p g a Hal HG Hlv) as Hc. specialize (Hn (nodes (osh w))). destruct (al_node al (nodes (osh w))); [|done].
    destruct Hc as (w' & E & Hb & H'). rewrite E. cbn [mbind res_bind]. split; [|done].
    destruct (obj_history_inv w G H) as [[M I] Sh]. pose proof R as [R1 R2 R3 R4 R5 (F & HF & HFF) R7].
    destruct (fr_free al w G M p g w' a F I Hal HG HF E) as [F1 F2].
    rewrite <- (list_insert_id ns i l Hns). eapply orel_update; [exact O|exact Hi|exact Hg|exact Hp|exact Hns|exact H'| |].
    + constructor; cbn [z_size z_objs z_free z_hand returned p_size p_log]; try done.
      * exists (a :: F). split; [done|]. by constructor.
      * intros k c x Hc Hx. rewrite Hb. by eapply R7.
    + intros q g2 Hq Hg2. split; [intros F' HF'; by apply F2|]. by rewrite Hb.
  - destruct Hl as (P & Hi & Hlt & Hnf & Hb). destruct (Hv i P Hi) as (g & p & l & Hg & Hp & Hns & R & HG). rewrite Hi, Hns.
    rewrite (pl_len _ _ _ _ _ R) in Hlt. destruct (lookup_lt_is_Some_2 l n Hlt) as [a Ha]. rewrite Ha.
    assert (Hlv : a ∈ p_live g) by (by apply (prel_live w G p g l P H HG R n a Ha)).
    destruct (oh_live_blocks w G H p g a HG Hlv) as (b0 & Hb0 & _). unfold hset. rewrite Hb0. cbn [mbind res_bind]. split; [|done].
    destruct (store_ok w p g l P n a b G R H HG Ha) as [R2 Hf].
    rewrite <- (list_insert_id ns i l Hns). eapply orel_update; [exact O|exact Hi|exact Hg|exact Hp|exact Hns| |exact R2|exact Hf].
    rewrite (insert_id G p g HG). eapply oh_write; [exact H|exact HG|exact Hlv|]. unfold bytes_of, size_t. rewrite Hb. unfold z_bytes. by rewrite (pl_size _ _ _ _ _ R).
  - destruct Hl as (P & Hi & Hlt & Hnf & _). destruct (Hv i P Hi) as (g & p & l & Hg & Hp & Hns & R & HG). rewrite Hi, Hns.
    destruct (lookup_lt_is_Some_2 _ _ Hlt) as [x Hx]. rewrite Hx.
    rewrite (pl_len _ _ _ _ _ R) in Hlt. destruct (lookup_lt_is_Some_2 l n Hlt) as [a Ha]. rewrite Ha.
    assert (Hlv : a ∈ p_live g) by (by apply (prel_live w G p g l P H HG R n a Ha)).
    destruct (oh_live_blocks w G H p g a HG Hlv) as (b0 & Hb0 & Hlen). rewrite (hget_Some _ _ _ Hb0). cbn [mbind res_bind].
    assert (OO : orel (vs, ns, w) L) by (by exists gp, G).
    destruct x as [b|]; (split; [exact OO|]); cbn [oeq].
    + f_equal. pose proof (pl_cont _ _ _ _ _ R n a b Ha Hx). congruence.
    + unfold z_bytes. rewrite (pl_size _ _ _ _ _ R). exact Hlen.
  - destruct Hl as (P & Hi). destruct (Hv i P Hi) as (g & p & l & Hg & Hp & Hns & R & HG). rewrite Hi, Hp.
    destruct mem; [|exact I]. destruct (oh_stats w G H p g HG) as [E _]. rewrite E. cbn [mbind res_bind].
    split; [by exists gp, G|]. pose proof R as [R1 R2 R3 R4 R5 (F & HF & HFF) R7].
    assert (Et : size (list_to_set (C := gset positive) (p_log g)) = length (z_objs P)).
    { rewrite R4, <- (size_list_to_set (C := gset positive) l) by done. f_equal. apply set_eq. intros a. rewrite !elem_of_list_to_set. by rewrite R3. }
    assert (Eu : size (p_live g) + length (z_free P) = length (z_objs P)).
    { destruct (obj_history_inv w G H) as [[M I'] S]. destruct (fr_M w G M p F I' HF) as (x & Lf & Hx & HLf & HLF).
      destruct (oi_pool _ _ _ _ I' p g HG) as (x0 & Lf0 & La & Hx0 & HLf0 & _ & Hok & _). rewrite Hx in Hx0. injection Hx0 as <-.
      rewrite HLf in HLf0. injection HLf0 as <-. destruct (po_free _ _ _ _ Hok) as (F0 & HF0 & Hnd & HFs).
      rewrite HLF in HF0. apply (inj (fmap Some)) in HF0 as <-.
      rewrite (Forall2_length _ _ _ HFF), R4, <- (size_list_to_set (C := gset positive) F), <- (size_list_to_set (C := gset positive) l) by done.
      rewrite <- size_union.
      - f_equal. apply set_eq. intros a. rewrite elem_of_union, !elem_of_list_to_set, R3, HFs. pose proof (po_live _ _ _ _ Hok a).
        destruct (decide (a ∈ p_live g)); tauto.
      - intros a Ha. rewrite elem_of_list_to_set, HFs. tauto. }
    cbn [oeq]. rewrite Et. f_equal; lia.
  - destruct Hl as (P & Hi). destruct (Hv i P Hi) as (g & p & l & Hg & Hp & Hns & R & HG). rewrite Hi, Hp.
    destruct (oh_destroy_ok w G H p g HG) as (w' & E & H' & Hb & _). rewrite E. cbn [mbind res_bind]. split; [|done].
    destruct (obj_history_inv w G H) as [[M I] Sh]. exists (<[i := None]> gp), (delete p G). constructor; cbn [fst snd].
    + done.
    + by eapply named_del.
    + rewrite !insert_length. apply O.
    + rewrite insert_length. apply O.
    + intros j Q. destruct (decide (j = i)) as [->|Hne]; [rewrite list_lookup_insert by (by eapply lookup_lt_Some); discriminate|].
      rewrite !list_lookup_insert_ne by done. intros HQ. destruct (Hv j Q HQ) as (g2 & q & l2 & Hg2 & Hq & Hl2 & R2 & HG2).
      exists g2, q, l2. split; [done|]. split; [done|]. split; [done|].
      assert (Hqp : q <> p) by (intros ->; apply Hne; by eapply (nm_inj _ _ _ N)).
      eapply prel_frame; [| |exact R2].
      * intros F. exact (fr_destroy w G M p g w' I HG E q F Hqp).
      * intros a Ha. rewrite Hb, decide_False; [done|]. intros Ha2. apply Hqp. by eapply (oh_pools_apart w G H).
    + intros j. destruct (decide (j = i)) as [->|Hne].
      * intros _. apply list_lookup_insert. exact (lookup_lt_Some _ _ _ Hg).
      * rewrite !list_lookup_insert_ne by done. apply O.
Qed.

Lemma objects_ok cs : lawful ospec olegal [] cs ->
  refines oeq ocan (fun st L => (forall i, ~ alive L i) ->
      oblk st.2 = ∅ /\ oinf st.2 = ∅ /\ stks (osh st.2) = ∅ /\ nodes (osh st.2) = ∅) cs
    (run ostep ([], [], oempty) cs) (run ospec [] cs).
Proof.
  intros Hl. eapply refines_Q; [|apply (run_refines _ _ _ _ olegal orel); [intros; by apply ostep_ok| |exact Hl]].
  - intros [[vs ns] w] L (gp & G & O) Hd. cbn [fst snd] in *. assert (G = ∅) as ->.
    { eapply named_dead; [apply O|]. intros i [g Hg]. assert (Hlt : i < length L) by (rewrite (og_len _ _ _ _ _ _ O); by eapply lookup_lt_Some).
      destruct (lookup_lt_is_Some_2 _ _ Hlt) as [[P|] HP]; [apply (Hd i); by exists P|]. apply (og_dead _ _ _ _ _ _ O) in HP. congruence. }
    by apply (oh_no_leak w ∅ (og_hist _ _ _ _ _ _ O)).
  - exists [], ∅. constructor; cbn [fst snd]; try done; try (by constructor); try apply named_nil.
Qed.

(** a returned block is the next one handed out, whatever malloc does *)
Lemma free_get al al' w P i g a : obj_history w P -> oal_ok al -> nodes_fine al -> P !! i = Some g -> a ∈ p_live g ->
  (Z.of_nat (length (p_log g)) < 2 ^ 31 - 1)%Z ->
  exists w1 w2, mem_free_object al w i (Some a) = Ret w1 /\ mem_get_object al' w1 i = Ret (w2, a) /\ oblk w2 = oblk w.
Proof.
  intros H Hal Hn Hi Ha Hmax. pose proof (oh_free_ok w P H al i g a Hal Hi Ha) as Hc. specialize (Hn (nodes (osh w))).
  destruct (al_node al (nodes (osh w))); [|done]. destruct Hc as (w1 & E1 & Hb & H1). exists w1.
  destruct (obj_history_inv w P H) as [[M I] Sh].
  destruct (oi_pool _ _ _ _ I i g Hi) as (x & Lf & La & Hx & HLf & HLa & Hok & Hneq). destruct (po_free _ _ _ _ Hok) as (F & HF & _).
  assert (HFr : fr w i F) by (exists M, x, Lf; split; [exact (oi_stk _ _ _ _ I)|]; done).
  destruct (fr_free al w P M i g w1 a F I Hal Hi HFr E1) as [HF1 _].
  destruct (obj_history_inv w1 _ H1) as [[M1 I1] Sh1].
  destruct (fr_M w1 _ M1 i (a :: F) I1 HF1) as (x1 & L1 & Hx1 & HL1 & HLF1).
  destruct (oi_pool _ _ _ _ I1 i (returned g a)) as (x2 & L2 & La2 & Hx2 & HL2 & HLa2 & Hok2 & _); [apply lookup_insert|].
  rewrite Hx1 in Hx2. injection Hx2 as <-. unfold mem_get_object. rewrite (hget_Some _ _ _ Hx1). cbn [mbind res_bind].
  destruct (pop_spec (osh w1) M1 (ostack x1) L1 (oi_stk _ _ _ _ I1) HL1) as (h1 & Ep & _). rewrite Ep. cbn [mbind res_bind].
  destruct L1 as [|[n d] L1]; [discriminate|]. cbn in HLF1. injection HLF1 as -> _. cbn [snd].
  destruct Hok2 as [_ _ (A & HA & HndA & HAs & Ht & Hr) Hlive Hused].
  assert (HlA : (length A <= length (p_log (returned g a)))%nat) by (apply log_len_bound; [done|by intros c; rewrite HAs]).
  assert (Hll : (size (p_live (returned g a)) <= length (p_log (returned g a)))%nat) by (by apply live_len_bound).
  cbn [returned p_log p_live] in HlA, Hll, Hused, Hr.
  assert (Hsint : forall z, (0 <= z <= 2 ^ 31 - 1)%Z -> sint z = Ret z).
  { intros z Hz. unfold sint, int_range, INT_MIN, INT_MAX.
    rewrite (proj2 (Bool.andb_true_iff (- 2 ^ 31 <=? z)%Z _)) by (split; apply Z.leb_le; lia). done. }
  rewrite (Hsint (reused x1 + 1)%Z) by lia. cbn [mbind res_bind]. rewrite (Hsint (used x1 + 1)%Z) by lia. cbn [mbind res_bind].
  eexists. split; [done|]. split; [done|]. exact Hb.
Qed.
