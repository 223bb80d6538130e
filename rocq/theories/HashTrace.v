(** C01, whole programs: any sequence of calls on a table gives the results of
    the same calls on a finite map. *)
From Verif Require Import Base Trace PrimeModel HashModel HashSpec HashProofs HashOps HashOps2 HashIter HashHist.
Local Open Scope nat_scope.

Section HashTrace.
Context {K D : Type}.
Implicit Types (env : henv K D) (s : hst K D).

Inductive hcall :=
| HInsert (al : halloc K D) (k : K) (d : D)
| HDelete (k : K)
| HRetrieve (k : K)
| HReadonly (f : Z)
| HIterate                      (* hsh_iterate, collecting the pairs *)
| HLoop (ks : K -> list K).     (* HSH_ITERATE ... HSH_ITERATE_END, looking up the keys [ks k] at [k] *)
Inductive hres := RInt (z : Z) | RDatum (d : D) | RPairs (m : list (K * D)).

(** ** the model *)
Definition hstep env s (c : hcall) : res (hst K D * hres) :=
  let fuel := S (N.to_nat (prime (tab s)) + size (heap s)) in
  match c with
  | HInsert al k d => '(s', r) ← hsh_insert env al s k d; Ret (s', RInt r)
  | HDelete k => '(s', r) ← hsh_delete env s k; Ret (s', RInt r)
  | HRetrieve k => '(s', d) ← hsh_retrieve env s k; Ret (s', RDatum d)
  | HReadonly f => '(s', r) ← hsh_readonly s f; Ret (s', RInt r)
  | HIterate => '(s', m, _) ← hsh_iterate fuel (pure_cb collect) s []; Ret (s', RPairs m)
  | HLoop ks => '(s', m, _) ← HSH_ITERATE fuel env (lookup_body env (fun k _ _ => ks k) collect) s [];
                '(s'', _) ← HSH_ITERATE_END s'; Ret (s'', RPairs m)
  end.

(** ** the specification: a finite map and the readonly flag *)
Definition hspec (cmp : K -> K -> Z) (null : D) (g : list (K * D) * Z) (c : hcall) : res (list (K * D) * Z * hres) :=
  let '(m, ro) := g in
  match c with
  | HInsert _ k d =>
      if (ro =? 0)%Z then match afind cmp k m with Some _ => Ret (m, ro, RInt 1) | None => Ret ((k, d) :: m, ro, RInt 0) end
      else Abort
  | HDelete k =>
      if (ro =? 0)%Z then match afind cmp k m with Some _ => Ret (aremove cmp k m, ro, RInt 0) | None => Ret (m, ro, RInt 1) end
      else Abort
  | HRetrieve k => Ret (m, ro, RDatum (default null (afind cmp k m)))
  | HReadonly f => Ret (m, f, RInt ro)
  | HIterate => Ret (m, ro, RPairs m)
  | HLoop _ => Ret (m, 0%Z, RPairs m)
  end.

(** the order of the pairs is not specified *)
Definition hres_eq (a b : hres) : Prop :=
  match a, b with RPairs m, RPairs m' => m ≡ₚ m' | _, _ => a = b end.
(** the calls that allocate *)
Definition hcan (c : hcall) : Prop := match c with HInsert al _ _ => can_fail al | _ => False end.
Definition hlegal (c : hcall) : Prop := match c with HInsert al _ _ => halloc_ok al | _ => True end.

Definition hrel env s (g : list (K * D) * Z) : Prop :=
  exists L, hinv env s L /\ pairs L ≡ₚ g.1 /\ readonly (tab s) = g.2.

Lemma pairs_heap env s L : hinv env s L -> size (heap s) = length (pairs L).
Proof.
  intros HI. assert (Hd : dom (heap s) = list_to_set (C := gset positive) (addrs L)).
  { apply set_eq. intros a. rewrite elem_of_dom, elem_of_list_to_set. apply (hi_own _ _ _ HI). }
  rewrite <- (size_dom (D := gset positive)), Hd, size_list_to_set by apply (hi_t _ _ _ HI).
  unfold addrs, pairs, ents. by rewrite !fmap_length.
Qed.

Lemma hstep_ok env s g c : good env -> hrel env s g -> hlegal c ->
  call_ok hres_eq hcan (hrel env) c (hstep env s c) (hspec (cmpf env) (dnull env) g c).
Proof.
  intros G (L & HI & Hp & Hro) Hl. destruct g as [m ro]. cbn [fst snd] in *. unfold hstep, hspec.
  assert (Hf : forall k, afind (cmpf env) k (pairs L) = afind (cmpf env) k m).
  { intros k. eapply afind_perm; [apply G|apply HI|done]. }
  pose proof (pairs_heap env s L HI) as Hsz.
  destruct c as [al k d|k|k|f| |ks]; cbn [hlegal] in Hl.
  - destruct (Z.eqb_spec ro 0) as [Hz|Hnz]; [|rewrite (hsh_insert_ro env al s L k d HI) by congruence; done].
    pose proof (hsh_insert_spec env al s L k d HI G Hl ltac:(congruence)) as Hc. rewrite Hf in Hc.
    destruct (hsh_insert env al s k d) as [[s' r]| | | |]; cbn [ok] in Hc; try done.
    + destruct Hc as (L' & J1 & J2 & J3 & _). destruct (afind (cmpf env) k m); destruct J2 as [-> J2]; cbn; (split; [|done]);
        exists L'; (split; [done|]); cbn; (split; [by rewrite J2, Hp|congruence]).
    + destruct (afind (cmpf env) k m); done.
  - destruct (Z.eqb_spec ro 0) as [Hz|Hnz]; [|rewrite (hsh_delete_ro env s L k HI) by congruence; done].
    destruct (hsh_delete_spec env s L k HI G ltac:(congruence)) as (s1 & r1 & L' & E1 & J1 & J2 & J3 & _). rewrite Hf in J2. rewrite E1. rb.
    destruct (afind (cmpf env) k m).
    + destruct J2 as (-> & J2 & _). cbn. split; [|done]. exists L'. split; [done|]. cbn. split; [|congruence]. by rewrite J2, (aremove_perm _ k _ _ Hp).
    + destruct J2 as (-> & -> & ->). cbn. split; [|done]. by exists L.
  - destruct (hsh_retrieve_spec env s L k HI G) as (s1 & L' & E1 & J1 & J2 & _ & _ & J3 & _). rewrite E1, Hf. rb. cbn.
    split; [|done]. exists L'. split; [done|]. cbn. split; [by rewrite J2|congruence].
  - destruct (hsh_readonly_spec env s L f HI) as [E1 J1]. rewrite E1. rb. cbn. split; [|congruence]. by exists L.
  - rewrite (hsh_iterate_pure collect env) with (L := L) by (done || lia). rewrite visit_collect. rb. cbn. split; [|done]. by exists L.
  - destruct (HSH_ITERATE_spec env L (lookup_body env (fun k _ _ => ks k) collect) collect (S (N.to_nat (prime (tab s)) + size (heap s))) s []) as (s' & E & J1 & J2).
    + intros k d s1 u1 HI1 Hro1. destruct (run_retrieves_ro env L (ks k) G s1 HI1 Hro1) as (s2 & E2 & HI2 & Hro2).
      exists s2. unfold lookup_body. rewrite E2. rb. destruct (collect k d u1). done.
    + done.
    + lia.
    + rewrite E. rb. unfold HSH_ITERATE_END. destruct (hsh_readonly_spec env s' L 0%Z J1) as [E1 J3]. rewrite E1. rb. cbn.
      rewrite visit_collect. cbn. split; [|done]. by exists L.
Qed.

Lemma trace_ok env al0 cs : good env -> halloc_ok al0 -> Forall hlegal cs ->
  ok (fun s => refines hres_eq hcan (fun s' g => hsh_destroy s' = if (g.2 =? 0)%Z then Ret ∅ else Abort) cs
                 (run (hstep env) s cs) (run (hspec (cmpf env) (dnull env)) ([], 0%Z) cs))
     (can_fail al0) (hsh_create al0).
Proof.
  intros G Hal Hl. eapply ok_mono; [apply (hsh_create_spec env al0)| |done]. intros s [HI Ht].
  eapply refines_Q; [|apply (run_refines _ _ _ _ (fun _ => hlegal) (hrel env)); [intros; by apply hstep_ok| |by apply lawful_all]].
  - intros s' [m ro] (L & HI' & _ & Hro). cbn [snd] in *. rewrite (hsh_destroy_spec env s' L HI'), Hro. done.
  - exists [[]]. rewrite Ht. done.
Qed.
End HashTrace.
Arguments hcall : clear implicits.
Arguments hres : clear implicits.
