(** C22, whole programs: any sequence of calls on any number of stacks gives
    the results of the same calls on lists. *)
From Verif Require Import Base Trace StackModel StackProofs.
Local Open Scope nat_scope.

(** the calls; a stack is named by its number in the order of creation *)
Inductive kcall :=
| KCreate (al : stk_alloc)
| KPush (al : node_alloc) (i : nat) (d : ptr)
| KPop (i : nat)
| KTop (i : nat)
| KIsEmpty (i : nat)
| KDestroy (i : nat).
Inductive kres := KPtr (d : ptr) | KInt (z : Z) | KDone.

(** ** the model *)
Definition kstep (st : list positive * sheap) (c : kcall) : res (list positive * sheap * kres) :=
  let '(vs, h) := st in
  match c with
  | KCreate al => '(h', a) ← stk_create al h; Ret (vs ++ [a], h', KDone)
  | KPush al i d => var vs i (fun a => h' ← stk_push al h a d; Ret (vs, h', KDone))
  | KPop i => var vs i (fun a => '(h', d) ← stk_pop h a; Ret (vs, h', KPtr d))
  | KTop i => var vs i (fun a => d ← stk_top h a; Ret (vs, h, KPtr d))
  | KIsEmpty i => var vs i (fun a => z ← stk_isempty h a; Ret (vs, h, KInt z))
  | KDestroy i => var vs i (fun a => h' ← stk_destroy h a; Ret (vs, h', KDone))
  end.

(** ** the specification: the elements of each stack, top first *)
Definition kspec (g : list (option (list ptr))) (c : kcall) : res (list (option (list ptr)) * kres) :=
  match c with
  | KCreate _ => Ret (g ++ [Some []], KDone)
  | KPush _ i d => live g i (fun l => Ret (<[i := Some (d :: l)]> g, KDone))
  | KPop i => live g i (fun l => Ret (<[i := Some (tail l)]> g, KPtr (hd None l)))
  | KTop i => live g i (fun l => Ret (g, KPtr (hd None l)))
  | KIsEmpty i => live g i (fun l => Ret (g, KInt (match l with [] => 1 | _ => 0 end)))
  | KDestroy i => live g i (fun l => Ret (<[i := None]> g, KDone))
  end.
(** malloc returns fresh addresses, and for stk_push it does not fail; the stack has not been destroyed *)
Definition klegal (g : list (option (list ptr))) (c : kcall) : Prop :=
  match c with
  | KCreate al => malloc_ok al
  | KPush al i _ => malloc_ok al /\ (forall h, al h <> None) /\ alive g i
  | KPop i | KTop i | KIsEmpty i | KDestroy i => alive g i
  end.
Definition kcan (c : kcall) : Prop := match c with KCreate al => exists h, al h = None | _ => False end.

Definition krel (st : list positive * sheap) (g : list (option (list ptr))) : Prop :=
  exists G, stk_history st.2 G /\ named st.1 g G.

Lemma kstep_ok st g c : krel st g -> klegal g c -> call_ok eq kcan krel c (kstep st c) (kspec g c).
Proof.
  intros (G & H & N) Hl. destruct st as [vs h]. cbn [fst snd] in *.
  assert (Hv : forall i l, g !! i = Some (Some l) -> exists a, vs !! i = Some a /\ G !! a = Some l) by apply (nm_get _ _ _ N).
  destruct c as [al|al i d|i|i|i|i]; cbn [klegal] in Hl; unfold kstep, kspec, var, live.
  - pose proof (h_create h G H al Hl) as Hp. destruct (al (stks h)) as [a|] eqn:E.
    + destruct Hp as [HG [h' Eh]]. rewrite Eh. cbn. split; [|done]. exists (<[a := []]> G). cbn.
      split; [by eapply sk_create|by apply named_add].
    + rewrite Hp. cbn. eauto.
  - destruct Hl as (Hal & Hnf & l & Hi). destruct (Hv i l Hi) as (a & Ha & HG). rewrite Hi, Ha.
    pose proof (h_push h G H al a l d Hal HG) as Hp. destruct (al (nodes h)) as [b|] eqn:E; [|by apply Hnf in E].
    destruct Hp as [h' Eh]. rewrite Eh. cbn. split; [|done]. exists (<[a := d :: l]> G). cbn.
    split; [by eapply sk_push|by eapply named_set].
  - destruct Hl as [l Hi]. destruct (Hv i l Hi) as (a & Ha & HG). rewrite Hi, Ha.
    destruct (h_pop h G H a l HG) as [h' Eh]. rewrite Eh. cbn. split; [|done]. exists (<[a := tail l]> G). cbn.
    split; [by eapply sk_pop|by eapply named_set].
  - destruct Hl as [l Hi]. destruct (Hv i l Hi) as (a & Ha & HG). rewrite Hi, Ha, (h_top h G H a l HG). cbn. split; [|done]. by exists G.
  - destruct Hl as [l Hi]. destruct (Hv i l Hi) as (a & Ha & HG). rewrite Hi, Ha, (h_isempty h G H a l HG). cbn.
    split; [by exists G|]. by destruct l.
  - destruct Hl as [l Hi]. destruct (Hv i l Hi) as (a & Ha & HG). rewrite Hi, Ha.
    destruct (h_destroy h G H a l HG) as [h' [Eh _]]. rewrite Eh. cbn. split; [|done]. exists (delete a G). cbn.
    split; [by eapply sk_destroy|by eapply named_del].
Qed.

Lemma stacks_ok cs : lawful kspec klegal [] cs ->
  refines eq kcan (fun st g => (forall i, ~ alive g i) -> st.2 = sempty) cs (run kstep ([], sempty) cs) (run kspec [] cs).
Proof.
  intros Hl. eapply refines_Q; [|apply (run_refines _ _ _ _ klegal krel); [intros; by apply kstep_ok| |exact Hl]].
  - intros [vs h] g (G & H & N) Hd. cbn [fst snd] in *. pose proof (named_dead _ _ _ N Hd) as ->.
    destruct (stk_history_inv h ∅ H) as (M & I & HM). destruct h as [st nd]. unfold sempty. f_equal.
    + apply map_empty. intros s. apply eq_None_not_Some. intros Hs. apply (si_dom _ _ I) in Hs.
      symmetry in HM. apply fmap_empty_inv in HM as ->. rewrite lookup_empty in Hs. by destruct Hs.
    + apply (h_no_leak _ ∅ H). intros s l. rewrite lookup_empty. discriminate.
  - exists ∅. split; [constructor|apply named_nil].
Qed.
