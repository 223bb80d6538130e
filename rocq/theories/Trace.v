(** Whole programs: lists of API calls.
    [run step s os] performs the calls [os] one after the other from the state
    [s]; it gives the results of the calls that returned, and how the program
    ended.  The same function runs the model and a specification. *)
From Verif Require Import Base.
Local Open Scope nat_scope.

Fixpoint run {S O P} (step : S -> O -> res (S * P)) (s : S) (os : list O) : list P * res S :=
  match os with
  | [] => ([], Ret s)
  | o :: os' =>
      match step s o with
      | Ret (s', p) => let '(ps, r) := run step s' os' in (p :: ps, r)
      | Fatal => ([], Fatal)
      | Abort => ([], Abort)
      | UB => ([], UB)
      | Diverge => ([], Diverge)
      end
  end.

(** how a program and its specification end alike *)
Definition same_end {S G} (Q : S -> G -> Prop) (r : res S) (sp : res G) : Prop :=
  match r, sp with
  | Ret s, Ret g => Q s g
  | Fatal, Fatal => True
  | Abort, Abort => True
  | UB, UB => True
  | _, _ => False
  end.

(** The results are those of the specification (up to [eqp]) and so is the end,
    unless a call that can run out of memory does so: then the results up to
    that call are those of the specification. *)
Definition refines {S G O P} (eqp : P -> P -> Prop) (can : O -> Prop) (Q : S -> G -> Prop) (os : list O)
  (r : list P * res S) (sp : list P * res G) : Prop :=
  (Forall2 eqp r.1 sp.1 /\ same_end Q r.2 sp.2) \/
  (r.2 = Fatal /\ exists o, os !! length r.1 = Some o /\ can o /\ Forall2 eqp r.1 (take (length r.1) sp.1)).

(** one call *)
Definition call_ok {S G O P} (eqp : P -> P -> Prop) (can : O -> Prop) (R : S -> G -> Prop) (o : O)
  (r : res (S * P)) (sp : res (G * P)) : Prop :=
  match r, sp with
  | Ret (s, p), Ret (g, p') => R s g /\ eqp p p'
  | Fatal, Fatal => True
  | Fatal, _ => can o
  | Abort, Abort => True
  | UB, UB => True
  | _, _ => False
  end.

(** every call of the program is [legal] in the state of the specification it is made in *)
Fixpoint lawful {G O P} (spec : G -> O -> res (G * P)) (legal : G -> O -> Prop) (g : G) (os : list O) : Prop :=
  match os with
  | [] => True
  | o :: os' => legal g o /\ match spec g o with Ret (g', _) => lawful spec legal g' os' | _ => True end
  end.

Lemma run_refines {S G O P} (step : S -> O -> res (S * P)) (spec : G -> O -> res (G * P)) eqp can
  (legal : G -> O -> Prop) (R : S -> G -> Prop) :
  (forall s g o, R s g -> legal g o -> call_ok eqp can R o (step s o) (spec g o)) ->
  forall os s g, R s g -> lawful spec legal g os -> refines eqp can R os (run step s os) (run spec g os).
Proof.
  intros Hstep. induction os as [|o os IH]; intros s g HR Hl; [left; split; [constructor|exact HR]|].
  destruct Hl as [Hlo Hl]. specialize (Hstep s g o HR Hlo). cbn [run]. unfold call_ok in Hstep.
  destruct (step s o) as [[s' p]| | | |], (spec g o) as [[g' p']| | | |]; try done; try (left; split; [constructor|exact I]).
  - destruct Hstep as [HR' Hp]. specialize (IH s' g' HR' Hl).
    destruct (run step s' os) as [ps r], (run spec g' os) as [ps' r'].
    destruct IH as [[H1 H2]|(H1 & o' & H2 & H3 & H4)]; cbn [fst snd] in *.
    + left. split; [by constructor|done].
    + right. split; [done|]. exists o'. split; [done|]. split; [done|]. cbn. by constructor.
  - right. cbn. split; [done|]. exists o. split; [done|]. split; [done|]. constructor.
  - right. cbn. split; [done|]. exists o. split; [done|]. split; [done|]. constructor.
  - right. cbn. split; [done|]. exists o. split; [done|]. split; [done|]. constructor.
  - right. cbn. split; [done|]. exists o. split; [done|]. split; [done|]. constructor.
Qed.
Lemma lawful_all {G O P} (spec : G -> O -> res (G * P)) (legal : O -> Prop) os : Forall legal os -> forall g, lawful spec (fun _ => legal) g os.
Proof. induction 1 as [|o os Ho _ IH]; intros g; [done|]. split; [done|]. destruct (spec g o) as [[g' p]| | | |]; try done; by apply IH. Qed.
Lemma refines_Q {S G O P} eqp (can : O -> Prop) (Q Q' : S -> G -> Prop) os (r : list P * res S) sp :
  (forall s g, Q s g -> Q' s g) -> refines eqp can Q os r sp -> refines eqp can Q' os r sp.
Proof.
  intros HQ [[H1 H2]|H]; [left; split; [done|]|by right]. destruct (r.2), (sp.2); try done. by apply HQ.
Qed.
Lemma lawful_cons {G O P} (spec : G -> O -> res (G * P)) (legal : G -> O -> Prop) g o os g' p :
  legal g o -> spec g o = Ret (g', p) -> lawful spec legal g' os -> lawful spec legal g (o :: os).
Proof. intros Hl E Hr. split; [done|]. by rewrite E. Qed.
Lemma lawful_last {G O P} (spec : G -> O -> res (G * P)) (legal : G -> O -> Prop) g o os :
  legal g o -> spec g o = Abort -> lawful spec legal g (o :: os).
Proof. intros Hl E. split; [done|]. by rewrite E. Qed.

(** ** Objects by name
    A program names an object by its number in the order of creation; [vs] are
    the pointers the creating calls returned, [g] the contents ([None] once
    destroyed).  [named vs g G]: the live objects of [G] are the live names. *)
Record named {V} (vs : list positive) (g : list (option V)) (G : gmap positive V) : Prop := {
  nm_len : length vs = length g;
  nm_get : forall i v, g !! i = Some (Some v) -> exists a, vs !! i = Some a /\ G !! a = Some v;
  nm_inj : forall i j a v w, vs !! i = Some a -> vs !! j = Some a -> g !! i = Some (Some v) -> g !! j = Some (Some w) -> i = j;
  nm_all : forall a v, G !! a = Some v -> exists i, vs !! i = Some a /\ g !! i = Some (Some v) }.
(** the pointer with number [i] *)
Definition var {A} (vs : list positive) (i : nat) (f : positive -> res A) : res A :=
  match vs !! i with Some a => f a | None => UB end.
(** the contents of the live object with number [i] *)
Definition live {V A} (g : list (option V)) (i : nat) (f : V -> res A) : res A :=
  match g !! i with Some (Some v) => f v | _ => UB end.
Definition alive {V} (g : list (option V)) (i : nat) : Prop := exists v, g !! i = Some (Some v).

Lemma snoc_lookup {A} (l : list A) x i y : (l ++ [x]) !! i = Some y -> (i < length l /\ l !! i = Some y) \/ (i = length l /\ x = y).
Proof.
  intros H. destruct (decide (i < length l)) as [Hlt|Hge]; [left; rewrite lookup_app_l in H by done; done|right].
  rewrite lookup_app_r in H by lia. apply list_lookup_singleton_Some in H as [? ?]. split; [lia|done].
Qed.
Lemma named_nil {V} : named (V := V) [] [] ∅.
Proof.
  constructor; [done|intros i v; rewrite lookup_nil; discriminate| |].
  - intros i j a v w H. rewrite lookup_nil in H. discriminate.
  - intros a v H. rewrite lookup_empty in H. discriminate.
Qed.
Lemma named_set {V} vs (g : list (option V)) G i a v v' : named vs g G -> vs !! i = Some a -> g !! i = Some (Some v) ->
  named vs (<[i := Some v']> g) (<[a := v']> G).
Proof.
  intros N Ha Hi. assert (Hlt : i < length g) by (by eapply lookup_lt_Some).
  assert (Hl : forall j w, <[i := Some v']> g !! j = Some (Some w) -> exists w', g !! j = Some (Some w')).
  { intros j w. destruct (decide (j = i)) as [->|Hne]; [eauto|]. rewrite list_lookup_insert_ne by congruence. eauto. }
  constructor.
  - rewrite insert_length. apply N.
  - intros j w Hj. destruct (decide (j = i)) as [->|Hne].
    + rewrite list_lookup_insert in Hj by done. injection Hj as <-. exists a. rewrite lookup_insert. done.
    + rewrite list_lookup_insert_ne in Hj by congruence. destruct (nm_get _ _ _ N j w Hj) as (b & Hb & Hw).
      exists b. split; [done|]. rewrite lookup_insert_ne; [done|]. intros ->. apply Hne. by eapply (nm_inj _ _ _ N).
  - intros j k b w x Hj Hk Gj Gk. destruct (Hl _ _ Gj) as [w1 H1], (Hl _ _ Gk) as [w2 H2]. by eapply (nm_inj _ _ _ N).
  - intros b w Hb. destruct (decide (b = a)) as [->|Hne].
    + rewrite lookup_insert in Hb. injection Hb as <-. exists i. rewrite list_lookup_insert by done. done.
    + rewrite lookup_insert_ne in Hb by done. destruct (nm_all _ _ _ N b w Hb) as (j & Hj & Gj). exists j. split; [done|].
      rewrite list_lookup_insert_ne; [done|]. congruence.
Qed.
Lemma named_add {V} vs (g : list (option V)) G a v : named vs g G -> G !! a = None -> named (vs ++ [a]) (g ++ [Some v]) (<[a := v]> G).
Proof.
  intros N Ha. pose proof (nm_len _ _ _ N) as Hlen.
  assert (Hc : forall i w, (g ++ [Some v]) !! i = Some (Some w) -> (i < length g /\ g !! i = Some (Some w)) \/ (i = length g /\ w = v)).
  { intros i w Hi. destruct (decide (i < length g)) as [Hlt|Hge]; [left; rewrite lookup_app_l in Hi by done; done|].
    right. apply snoc_lookup in Hi as [[? _]|[Hi Hw]]; [lia|]. injection Hw as ->. done. }
  assert (Hv : forall i b, (vs ++ [a]) !! i = Some b -> (i < length g /\ vs !! i = Some b) \/ (i = length g /\ b = a)).
  { intros i b Hi. apply snoc_lookup in Hi as [[? Hi]|[Hi ->]]; [left; split; [lia|done]|right; split; [lia|done]]. }
  constructor.
  - rewrite !app_length. cbn. lia.
  - intros i w Hi. apply Hc in Hi as [[Hlt Hi]|[-> ->]].
    + destruct (nm_get _ _ _ N i w Hi) as (b & Hb & Hw). exists b. split; [rewrite lookup_app_l by lia; done|].
      rewrite lookup_insert_ne; [done|]. congruence.
    + exists a. split; [|apply lookup_insert]. rewrite lookup_app_r, Hlen, Nat.sub_diag by lia. done.
  - intros i j b w x Hi Hj Gi Gj. apply Hv in Hi. apply Hv in Hj. apply Hc in Gi. apply Hc in Gj.
    destruct Hi as [[Li Hi]|[-> ->]], Hj as [[Lj Hj]|[-> Ej]]; try done.
    + destruct Gi as [[_ Gi]|[-> _]]; [|lia]. destruct Gj as [[_ Gj]|[-> _]]; [|lia]. by eapply (nm_inj _ _ _ N).
    + subst b. destruct Gi as [[_ Gi]|[-> _]]; [|lia]. destruct (nm_get _ _ _ N i w Gi) as (b & Hb & Hw). congruence.
    + destruct Gj as [[_ Gj]|[-> _]]; [|lia]. destruct (nm_get _ _ _ N j x Gj) as (b & Hb & Hw). congruence.
  - intros b w Hb. destruct (decide (b = a)) as [->|Hne].
    + rewrite lookup_insert in Hb. injection Hb as <-. exists (length g). rewrite !lookup_app_r, Hlen, Nat.sub_diag by lia. done.
    + rewrite lookup_insert_ne in Hb by done. destruct (nm_all _ _ _ N b w Hb) as (j & Hj & Gj). exists j.
      rewrite !lookup_app_l; [done| |]; by eapply lookup_lt_Some.
Qed.
Lemma named_del {V} vs (g : list (option V)) G i a v : named vs g G -> vs !! i = Some a -> g !! i = Some (Some v) ->
  named vs (<[i := None]> g) (delete a G).
Proof.
  intros N Ha Hi. assert (Hlt : i < length g) by (by eapply lookup_lt_Some).
  assert (Hl : forall j w, <[i := None]> g !! j = Some (Some w) -> j <> i /\ g !! j = Some (Some w)).
  { intros j w Hj. destruct (decide (j = i)) as [->|Hne]; [rewrite list_lookup_insert in Hj by done; discriminate|].
    rewrite list_lookup_insert_ne in Hj by congruence. done. }
  constructor.
  - rewrite insert_length. apply N.
  - intros j w Hj. apply Hl in Hj as [Hne Hj]. destruct (nm_get _ _ _ N j w Hj) as (b & Hb & Hw).
    exists b. split; [done|]. rewrite lookup_delete_ne; [done|]. intros ->. apply Hne. by eapply (nm_inj _ _ _ N).
  - intros j k b w x Hj Hk Gj Gk. apply Hl in Gj as [_ Gj]. apply Hl in Gk as [_ Gk]. by eapply (nm_inj _ _ _ N).
  - intros b w Hb. destruct (decide (b = a)) as [->|Hne]; [rewrite lookup_delete in Hb; discriminate|].
    rewrite lookup_delete_ne in Hb by done. destruct (nm_all _ _ _ N b w Hb) as (j & Hj & Gj). exists j. split; [done|].
    rewrite list_lookup_insert_ne; [done|]. congruence.
Qed.
Lemma named_dead {V} vs (g : list (option V)) G : named vs g G -> (forall i, ~ alive g i) -> G = ∅.
Proof.
  intros N Hn. apply map_empty. intros a. destruct (G !! a) as [v|] eqn:E; [|done].
  destruct (nm_all _ _ _ N a v E) as (i & _ & Hi). exfalso. apply (Hn i). by exists v.
Qed.
