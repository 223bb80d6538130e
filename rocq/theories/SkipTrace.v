(** C33-C35, whole programs: any sequence of calls on any number of skip lists
    gives the results of the same calls on sorted sequences, whatever random()
    yields. *)
From Verif Require Import Base Trace StackModel StackProofs ObjModel ObjProofs SkipModel SkipSpec SkipProofs SkipWorld SkipHist.
Local Open Scope nat_scope.

Section SkipTrace.
Context {K : Type}.
Implicit Types (al : salloc K) (w : sworld K).

(** the calls; a list is named by its number in the order of creation *)
Inductive xcall :=
| XCreate al (cmp : K -> K -> Z) (key : ptr -> K)
| XInsert al (rnd : nat -> N) (i : nat) (d : ptr)
| XDelete (i : nat) (d : ptr)
| XFind (i : nat) (k : K)
| XIterate (i : nat)                    (* sl_iterate, collecting the data *)
| XDestroy al (i : nat)
| XShutdown.
Inductive xres := XPtr (d : ptr) | XData (ds : list ptr) | XDone.

(** ** the model *)
Definition xgather (s : list ptr) w (d : ptr) : res (list ptr * sworld K * Z) := Ret (s ++ [d], w, 0%Z).
Definition xstep (st : list positive * sworld K) (c : xcall) : res (list positive * sworld K * xres) :=
  let '(vs, w) := st in
  match c with
  | XCreate al cmp key => '(w', a) ← sl_create al w (Some cmp) (Some key); Ret (vs ++ [a], w', XDone)
  | XInsert al rnd i d => var vs i (fun a => w' ← sl_insert al rnd w (Some a) d; Ret (vs, w', XDone))
  | XDelete i d => var vs i (fun a => w' ← sl_delete w (Some a) d; Ret (vs, w', XDone))
  | XFind i k => var vs i (fun a => d ← sl_find w (Some a) k; Ret (vs, w, XPtr d))
  | XIterate i => var vs i (fun a => '(ds, w', _) ← sl_iterate xgather [] w (Some a); Ret (vs, w', XData ds))
  | XDestroy al i => var vs i (fun a => w' ← sl_destroy al w (Some a); Ret (vs, w', XDone))
  | XShutdown => w' ← sl_shutdown w; Ret (vs, w', XDone)
  end.

(** ** the specification: the functions and the data of each list, in order, and
    the number of lists created since the last shutdown *)
Definition at_key (g : glist K) (k : K) : option ptr := List.find (fun d => (g_cmp g (g_key g d) k =? 0)%Z) (g_data g).
Definition xspec (s : list (option (glist K)) * nat) (c : xcall) : res (list (option (glist K)) * nat * xres) :=
  let '(L, n) := s in
  match c with
  | XCreate _ cmp key => Ret (L ++ [Some (GL cmp key [])], n + 1, XDone)
  | XInsert _ _ i d => live L i (fun g =>
      match at_key g (g_key g d) with Some _ => Abort | None => Ret (<[i := Some (g_insert d g)]> L, n, XDone) end)
  | XDelete i d => live L i (fun g =>
      match at_key g (g_key g d) with Some _ => Ret (<[i := Some (g_delete d g)]> L, n, XDone) | None => Abort end)
  | XFind i k => live L i (fun g => Ret (L, n, XPtr (default None (at_key g k))))
  | XIterate i => live L i (fun g => Ret (L, n, XData (g_data g)))
  | XDestroy _ i => live L i (fun g => Ret (<[i := None]> L, n, XDone))
  | XShutdown => Ret (L, 0, XDone)
  end.
(** malloc returns fresh addresses, and for the nodes of the pool's stack of
    free lists it does not fail; the functions are an order and a key; the list
    has not been destroyed; the int counters have room; sl_shutdown is called
    when no list is left *)
Definition xlegal (s : list (option (glist K)) * nat) (c : xcall) : Prop :=
  match c with
  | XCreate al cmp _ => sal_ok al /\ snodes_ok al /\ order cmp /\ (Z.of_nat s.2 < 2 ^ 31 - 1)%Z
  | XInsert al _ i d => sal_ok al /\ exists g, s.1 !! i = Some (Some g) /\ (Z.of_nat (length (g_data g)) < 2 ^ 31 - 2)%Z
  | XDelete i _ | XFind i _ | XIterate i => alive s.1 i
  | XDestroy al i => sal_ok al /\ snodes_ok al /\ alive s.1 i
  | XShutdown => forall i, ~ alive s.1 i
  end.
Definition xcan (c : xcall) : Prop :=
  match c with
  | XCreate al _ _ => exists h1 h2 h3 h4 m, sa_entry al h1 = None \/ al_info (sa_obj al) h2 = None \/ al_stk (sa_obj al) h3 = None \/
        al_blk (sa_obj al) m h4 = None
  | XInsert al _ _ _ => exists h, sa_entry al h = None
  | _ => False
  end.

Definition xrel (st : list positive * sworld K) (s : list (option (glist K)) * nat) : Prop :=
  exists G, sl_history st.2 G s.2 /\ named st.1 s.1 G.

Lemma calls_gather w : forall ds s, calls xgather s w ds = Ret (s ++ ds, w, 0%Z).
Proof. induction ds as [|d ds IH]; intros s; cbn; [by rewrite app_nil_r|]. rewrite IH, <- app_assoc. done. Qed.
Lemma at_key_Some g k d : at_key g k = Some d -> present g k d.
Proof. intros [H1 H2]%find_some. split; [by apply elem_of_list_In|lia]. Qed.
Lemma at_key_None g k : at_key g k = None -> absent g k.
Proof. intros H d Hd%elem_of_list_In. apply (find_none _ _ H) in Hd. lia. Qed.

Lemma xstep_ok st s c : xrel st s -> xlegal s c -> call_ok eq xcan xrel c (xstep st c) (xspec s c).
Proof.
  intros (G & Hh & N) Hl. destruct st as [vs w], s as [L n]. cbn [fst snd] in *.
  assert (Hv : forall i g, L !! i = Some (Some g) -> exists a, vs !! i = Some a /\ G !! a = Some g) by apply (nm_get _ _ _ N).
  assert (Hkeep : xrel (vs, w) (L, n)) by (by exists G).
  destruct c as [al cmp key|al rnd i d|i d|i k|i|al i|]; cbn [xlegal fst snd] in Hl; unfold xstep, xspec, var, live.
  - destruct Hl as (Hal & Hn & Ho & Hb). pose proof (hs_create w G n Hh al cmp key Hal Hn Ho Hb) as Hc.
    destruct (sl_create al w (Some cmp) (Some key)) as [[w' a]| | | |]; try done. cbn in Hc |- *. destruct Hc as [Ha Hh'].
    split; [|done]. eexists. split; [exact Hh'|]. by apply named_add.
  - destruct Hl as (Hal & g & Hi & Hb). destruct (Hv i g Hi) as (a & Ha & HG). rewrite Hi, Ha.
    destruct (at_key g (g_key g d)) as [x|] eqn:E.
    + apply at_key_Some in E. rewrite (hs_insert_dup w G n Hh a g HG al rnd d x E). done.
    + apply at_key_None in E. pose proof (hs_insert w G n Hh a g HG al rnd d Hal E Hb) as Hc.
      destruct (sl_insert al rnd w (Some a) d); try done. cbn in Hc |- *. split; [|done]. eexists. split; [exact Hc|]. by eapply named_set.
  - destruct Hl as [g Hi]. destruct (Hv i g Hi) as (a & Ha & HG). rewrite Hi, Ha.
    destruct (at_key g (g_key g d)) as [x|] eqn:E.
    + apply at_key_Some in E. destruct (hs_delete w G n Hh a g HG d x E) as (w' & -> & Hh'). cbn. split; [|done].
      eexists. split; [exact Hh'|]. by eapply named_set.
    + apply at_key_None in E. rewrite (hs_delete_absent w G n Hh a g HG d E). done.
  - destruct Hl as [g Hi]. destruct (Hv i g Hi) as (a & Ha & HG). rewrite Hi, Ha. destruct (hs_find w G n Hh a g HG k) as [H1 H2].
    destruct (at_key g k) as [x|] eqn:E; [apply at_key_Some in E; rewrite (H1 x E)|apply at_key_None in E; rewrite (H2 E)]; done.
  - destruct Hl as [g Hi]. destruct (Hv i g Hi) as (a & Ha & HG). rewrite Hi, Ha, (hs_iterate w G n Hh a g HG xgather []), calls_gather. done.
  - destruct Hl as (Hal & Hn & g & Hi). destruct (Hv i g Hi) as (a & Ha & HG). rewrite Hi, Ha.
    destruct (hs_destroy w G n Hh a g HG al Hal Hn) as (w' & -> & Hh'). cbn. split; [|done]. eexists. split; [exact Hh'|]. by eapply named_del.
  - pose proof (named_dead _ _ _ N Hl) as ->. destruct (hs_shutdown w n Hh) as (w' & -> & Hh' & _). cbn. split; [|done]. by exists ∅.
Qed.

Lemma skips_ok cs : lawful xspec xlegal ([], 0) cs ->
  refines eq xcan (fun st s => (forall i, ~ alive s.1 i) ->
    exists w', sl_shutdown st.2 = Ret w' /\ oblk (sobj w') = ∅ /\ sent w' = ∅) cs
    (run xstep ([], sempty_world) cs) (run xspec ([], 0) cs).
Proof.
  intros Hl. eapply refines_Q; [|apply (run_refines _ _ _ _ xlegal xrel); [intros; by apply xstep_ok| |exact Hl]].
  - intros [vs w] s (G & Hh & N) Hd. cbn [fst snd] in *. pose proof (named_dead _ _ _ N Hd) as ->.
    destruct (hs_shutdown w _ Hh) as (w' & E & _ & _ & Hb & Hs). by exists w'.
  - exists ∅. split; [constructor|apply named_nil].
Qed.
End SkipTrace.
Arguments xcall : clear implicits.
