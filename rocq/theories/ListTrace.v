(** C28-C30, whole programs: any sequence of calls on any number of lists gives
    the results of the same calls on mathematical sequences. *)
From Verif Require Import Base Trace StackModel StackProofs ObjModel ObjProofs ListModel ListProofs ListHist.
Local Open Scope nat_scope.

(** the calls; a list is named by its number in the order of creation *)
Inductive lcall :=
| LCreate (al : lalloc)
| LAppend (al : lalloc) (i : nat) (d : ptr)
| LPush (al : lalloc) (i : nat) (d : ptr)
| LPop (al : lalloc) (i : nat)
| LTop (i : nat)
| LLength (i : nat)
| LNthGet (i : nat) (k : N)
| LNthSet (i : nat) (k : N) (d : ptr)
| LMember (i : nat) (d : ptr)
| LTruncate (al : lalloc) (i : nat) (k : N)
| LSetPos (i : nat) (k : N) (d : ptr)         (* lst_set_position at lst_nth_position k *)
| LCutPos (al : lalloc) (i : nat) (k : N)     (* lst_truncate_position at lst_nth_position k *)
| LIterate (i : nat)                          (* lst_iterate, collecting the data *)
| LTotal                                      (* lst_total_allocated *)
| LDestroy (al : lalloc) (i : nat)
| LShutdown.
Inductive lres := LPtr (d : ptr) | LInt (z : Z) | LData (ds : list ptr) | LDone.

(** ** the model *)
Definition gather (s : list ptr) (w : lworld) (d : ptr) : res (list ptr * lworld * Z) := Ret (s ++ [d], w, 0%Z).
Definition lstep (st : list positive * lworld) (c : lcall) : res (list positive * lworld * lres) :=
  let '(vs, w) := st in
  let done w' := Ret (vs, w', LDone) in
  match c with
  | LCreate al => '(w', a) ← lst_create al w; Ret (vs ++ [a], w', LDone)
  | LAppend al i d => var vs i (fun a => w' ← lst_append al w (Some a) d; done w')
  | LPush al i d => var vs i (fun a => w' ← lst_push al w (Some a) d; done w')
  | LPop al i => var vs i (fun a => '(w', d) ← lst_pop al w (Some a); Ret (vs, w', LPtr d))
  | LTop i => var vs i (fun a => d ← lst_top w (Some a); Ret (vs, w, LPtr d))
  | LLength i => var vs i (fun a => n ← lst_length w (Some a); Ret (vs, w, LInt (Z.of_N n)))
  | LNthGet i k => var vs i (fun a => d ← lst_nth_get w (Some a) k; Ret (vs, w, LPtr d))
  | LNthSet i k d => var vs i (fun a => w' ← lst_nth_set w (Some a) k d; done w')
  | LMember i d => var vs i (fun a => r ← lst_member w (Some a) d; Ret (vs, w, LInt r))
  | LTruncate al i k => var vs i (fun a => w' ← lst_truncate al w (Some a) k; done w')
  | LSetPos i k d => var vs i (fun a => p ← lst_nth_position w (Some a) k; w' ← lst_set_position w p d; done w')
  | LCutPos al i k => var vs i (fun a => p ← lst_nth_position w (Some a) k; w' ← lst_truncate_position al w (Some a) p; done w')
  | LIterate i => var vs i (fun a => '(ds, w', _) ← lst_iterate gather (node_fuel w) [] w (Some a); Ret (vs, w', LData ds))
  | LTotal => Ret (vs, w, LInt (lst_total_allocated w))
  | LDestroy al i => var vs i (fun a => w' ← lst_destroy al w (Some a); done w')
  | LShutdown => w' ← lst_shutdown w; done w'
  end.

(** ** the specification: the data of each list, the number of elements added
    since the last shutdown, and the bytes counted by lst_total_allocated *)
Record lsp := LSp { lists : list (option (list ptr)); added : nat; bytes : Z }.
Definition lspec (g : lsp) (c : lcall) : res (lsp * lres) :=
  let 'LSp L n t := g in
  let put i l := Ret (LSp (<[i := Some l]> L) n t, LDone) in
  match c with
  | LCreate _ => Ret (LSp (L ++ [Some []]) n (t + 32), LDone)
  | LAppend _ i d => live L i (fun l => Ret (LSp (<[i := Some (l ++ [d])]> L) (n + 1) (t + 16), LDone))
  | LPush _ i d => live L i (fun l => Ret (LSp (<[i := Some (d :: l)]> L) (n + 1) (t + 16), LDone))
  | LPop _ i => live L i (fun l => Ret (LSp (<[i := Some (tail l)]> L) n t, LPtr (hd None l)))
  | LTop i => live L i (fun l => Ret (g, LPtr (hd None l)))
  | LLength i => live L i (fun l => Ret (g, LInt (Z.of_nat (length l))))
  | LNthGet i k => live L i (fun l => Ret (g, LPtr (if (k =? 0)%N then None else nth (N.to_nat (k - 1)) l None)))
  | LNthSet i k d => live L i (fun l =>
      if (k =? 0)%N || (N.of_nat (length l) <? k)%N then Fatal else put i (<[N.to_nat (k - 1) := d]> l))
  | LMember i d => live L i (fun l => Ret (g, LInt (if bool_decide (d ∈ l) then 1 else 0)))
  | LTruncate _ i k => live L i (fun l =>
      if (N.of_nat (length l) <=? k)%N || (k <=? 1)%N then put i (take (N.to_nat k) l) else UB)
  | LSetPos i k d => live L i (fun l => if (k =? 0)%N then Ret (g, LDone) else put i (<[N.to_nat (k - 1) := d]> l))
  | LCutPos _ i k => live L i (fun l => put i (if (N.of_nat (length l) <? k)%N then [] else take (N.to_nat k) l))
  | LIterate i => live L i (fun l => Ret (g, LData l))
  | LTotal => Ret (g, LInt t)
  | LDestroy _ i => live L i (fun l => Ret (LSp (<[i := None]> L) n t, LDone))
  | LShutdown => Ret (LSp L 0 t, LDone)
  end.
(** malloc returns fresh addresses, and for the nodes of the pool's stack of
    free elements it does not fail (stk_push does not check it); the list has
    not been destroyed; the int and long counters have room; lst_shutdown is
    called when no list is left *)
Definition llegal (g : lsp) (c : lcall) : Prop :=
  match c with
  | LCreate al => lal_ok al /\ (bytes g + 32 < 2 ^ 63)%Z
  | LAppend al i _ | LPush al i _ => lal_ok al /\ lnodes_ok al /\ (Z.of_nat (added g) < 2 ^ 31 - 1)%Z /\ (bytes g + 16 < 2 ^ 63)%Z /\ alive (lists g) i
  | LPop al i | LTruncate al i _ | LCutPos al i _ | LDestroy al i => lal_ok al /\ lnodes_ok al /\ alive (lists g) i
  | LTop i | LLength i | LNthGet i _ | LNthSet i _ _ | LMember i _ | LSetPos i _ _ | LIterate i => alive (lists g) i
  | LTotal => True
  | LShutdown => forall i, ~ alive (lists g) i
  end.
Definition lcan (c : lcall) : Prop :=
  match c with
  | LCreate al => exists h, la_list al h = None \/ exists h1 h2, al_info (la_obj al) h1 = None \/ al_stk (la_obj al) h2 = None
  | LAppend al _ _ | LPush al _ _ => exists n h, al_blk (la_obj al) n h = None
  | _ => False
  end.

Definition lrel (st : list positive * lworld) (g : lsp) : Prop :=
  exists H, lst_history st.2 (LG H (added g) (bytes g)) /\ named st.1 (lists g) ((fun L => L.*2) <$> H).

Lemma visit_gather w : forall ds s, visit gather s w ds = Ret (s ++ ds, w, 0%Z).
Proof. induction ds as [|d ds IH]; intros s; cbn; [by rewrite app_nil_r|]. rewrite IH, <- app_assoc. done. Qed.

Lemma lrel_put vs w g n t H H' l i a L L' : named vs g ((fun L => L.*2) <$> H) -> vs !! i = Some a -> H !! a = Some L -> g !! i = Some (Some (L.*2)) ->
  H' = <[a := L']> H -> l = L'.*2 ->
  lst_history w (LG H' n t) -> lrel (vs, w) (LSp (<[i := Some l]> g) n t).
Proof.
  intros N Ha HL Hi -> -> Hh. eexists. split; [exact Hh|]. cbn. rewrite fmap_insert. by eapply named_set.
Qed.
Lemma hd_fst2 (L : list (positive * ptr)) : match L with [] => None | (_, d) :: _ => d end = hd None L.*2.
Proof. by destruct L as [|[? ?] ?]. Qed.
Lemma tail_fst2 (L : list (positive * ptr)) : tail L.*2 = (tail L).*2.
Proof. by destruct L as [|[? ?] ?]. Qed.
Lemma nth_fst2 (L : list (positive * ptr)) k : match L !! k with Some (_, d) => d | None => None end = nth k L.*2 None.
Proof.
  revert k. induction L as [|[a d] L IH]; intros [|k]; try done. apply (IH k).
Qed.
Lemma insert_fst2 (L : list (positive * ptr)) k a d : (<[k := (a, d)]> L).*2 = <[k := d]> L.*2.
Proof. by rewrite list_fmap_insert. Qed.

Lemma lstep_ok st g c : lrel st g -> llegal g c -> call_ok eq lcan lrel c (lstep st c) (lspec g c).
Proof.
  intros (H & Hh & N) Hl. destruct st as [vs w], g as [g n t]. cbn [fst snd lists added bytes] in *.
  assert (Hv : forall i, alive g i -> exists a L, vs !! i = Some a /\ H !! a = Some L /\ g !! i = Some (Some L.*2)).
  { intros i [l Hi]. destruct (nm_get _ _ _ N i l Hi) as (a & Ha & HL). rewrite lookup_fmap in HL.
    apply fmap_Some in HL as (L & HL & ->). by exists a, L. }
  assert (Hput : forall w' H' l i a L L', vs !! i = Some a -> H !! a = Some L -> g !! i = Some (Some (L.*2)) ->
     H' = <[a := L']> H -> l = L'.*2 -> forall n t, lst_history w' (LG H' n t) -> lrel (vs, w') (LSp (<[i := Some l]> g) n t)).
  { intros w' H' l i a L L' H1 H2 H3 H4 H5 n' t' Hh'. by eapply lrel_put. }
  assert (Hkeep : lrel (vs, w) (LSp g n t)) by (by exists H).
  destruct c as [al|al i d|al i d|al i|i|i|i k|i k d|i d|al i k|i k d|al i k|i| |al i|]; cbn [llegal lists added bytes] in Hl; unfold lstep, lspec, var, live.
  - destruct Hl as [Hal Ht]. pose proof (h_create w H n t Hh al Hal Ht) as Ho. destruct (lst_create al w) as [[w' a]| | | |]; try done.
    cbn in Ho |- *. destruct Ho as [Ha Hh']. split; [|done]. exists (<[a := []]> H). cbn. split; [done|]. rewrite fmap_insert.
    apply named_add; [done|]. by rewrite lookup_fmap, Ha.
  - destruct Hl as (Hal & Hn & H1 & H2 & Hi). destruct (Hv i Hi) as (a & L & Ha & HL & Gi). rewrite Ha, Gi.
    pose proof (h_append w H n t Hh a L HL al d Hal Hn (conj H1 H2)) as Ho. destruct (lst_append al w (Some a) d) as [w'| | | |]; try done.
    cbn in Ho |- *. destruct Ho as (b & _ & Hh'). split; [|done]. eapply Hput; try done. by rewrite fmap_app.
  - destruct Hl as (Hal & Hn & H1 & H2 & Hi). destruct (Hv i Hi) as (a & L & Ha & HL & Gi). rewrite Ha, Gi.
    pose proof (h_push w H n t Hh a L HL al d Hal Hn (conj H1 H2)) as Ho. destruct (lst_push al w (Some a) d) as [w'| | | |]; try done.
    cbn in Ho |- *. destruct Ho as (b & _ & Hh'). split; [|done]. eapply Hput; try done. by rewrite fmap_cons.
  - destruct Hl as (Hal & Hn & Hi). destruct (Hv i Hi) as (a & L & Ha & HL & Gi). rewrite Ha, Gi.
    destruct (h_pop w H n t Hh a L HL al Hal Hn) as (w' & E & Hh'). rewrite E. cbn. split; [|by rewrite hd_fst2].
    eapply Hput; try done. apply tail_fst2.
  - destruct (Hv i Hl) as (a & L & Ha & HL & Gi). rewrite Ha, Gi. destruct (h_reads w H n t Hh a L HL) as (E & _). rewrite E, hd_fst2. done.
  - destruct (Hv i Hl) as (a & L & Ha & HL & Gi). rewrite Ha, Gi. destruct (h_reads w H n t Hh a L HL) as (_ & E & _). rewrite E. cbn.
    split; [done|]. rewrite fmap_length. f_equal. lia.
  - destruct (Hv i Hl) as (a & L & Ha & HL & Gi). rewrite Ha, Gi. destruct (h_reads w H n t Hh a L HL) as (_ & _ & E & _). rewrite E, nth_fst2. done.
  - destruct (Hv i Hl) as (a & L & Ha & HL & Gi). rewrite Ha, Gi. pose proof (h_nth_set w H n t Hh a L HL k d) as Ho. rewrite fmap_length.
    destruct (decide (1 <= k <= N.of_nat (length L))%N) as [Hk|Hk].
    + destruct Ho as (w' & b & d' & _ & E & Hh'). rewrite E. destruct (N.eqb_spec k 0); [lia|]. destruct (N.ltb_spec (N.of_nat (length L)) k); [lia|].
      cbn. split; [|done]. eapply Hput; try done. by rewrite insert_fst2.
    + rewrite Ho. destruct (N.eqb_spec k 0); [done|]. destruct (N.ltb_spec (N.of_nat (length L)) k); [done|lia].
  - destruct (Hv i Hl) as (a & L & Ha & HL & Gi). rewrite Ha, Gi. destruct (h_reads w H n t Hh a L HL) as (_ & _ & _ & E). rewrite E. cbn.
    split; [done|]. f_equal. destruct (decide (d ∈ L.*2)) as [Hd|Hd]; [by rewrite bool_decide_true|by rewrite bool_decide_false].
  - destruct Hl as (Hal & Hn & Hi). destruct (Hv i Hi) as (a & L & Ha & HL & Gi). rewrite Ha, Gi.
    pose proof (h_truncate w H n t Hh a L HL al k Hal Hn) as Ho. rewrite fmap_length.
    destruct (decide (N.of_nat (length L) <= k \/ k <= 1)%N) as [Hk|Hk].
    + destruct Ho as (w' & E & Hh'). rewrite E.
      replace ((N.of_nat (length L) <=? k)%N || (k <=? 1)%N) with true by (symmetry; apply orb_true_iff; rewrite !N.leb_le; done).
      cbn. split; [|done]. eapply Hput; try done. by rewrite fmap_take.
    + rewrite Ho. destruct (N.leb_spec (N.of_nat (length L)) k); [lia|]. destruct (N.leb_spec k 1); [lia|]. done.
  - destruct (Hv i Hl) as (a & L & Ha & HL & Gi). rewrite Ha, Gi. destruct (h_positions w H n t Hh a L HL) as (_ & _ & E & _). rewrite E. rb.
    destruct (N.eqb_spec k 0) as [_|Hk]; [done|]. destruct (L !! N.to_nat (k - 1)) as [[b d']|] eqn:Ek.
    + cbn [fmap option_fmap option_map fst]. pose proof (take_drop_middle L _ _ Ek) as EL.
      destruct (h_set_position w H n t Hh a L HL _ _ _ _ d (eq_sym EL)) as (w' & E1 & Hh'). rewrite E1. cbn. split; [|done].
      eapply Hput; try done. rewrite <- insert_fst2 with (a := b). f_equal. rewrite insert_take_drop by (by eapply lookup_lt_Some). done.
    + cbn. split; [|done]. rewrite (list_insert_ge L.*2) by (rewrite fmap_length; by apply lookup_ge_None_1).
      rewrite list_insert_id by done. done.
  - destruct Hl as (Hal & Hn & Hi). destruct (Hv i Hi) as (a & L & Ha & HL & Gi). rewrite Ha, Gi, fmap_length.
    destruct (h_positions w H n t Hh a L HL) as (_ & _ & E & _). rewrite E. rb.
    destruct (N.ltb_spec (N.of_nat (length L)) k) as [Hk|Hk].
    + assert (Hp : (if (k =? 0)%N then None else fst <$> L !! N.to_nat (k - 1)) = None).
      { destruct (N.eqb_spec k 0); [done|]. rewrite lookup_ge_None_2 by lia. done. }
      rewrite Hp. destruct (h_clear w H n t Hh a L HL al Hal Hn) as (w' & E1 & Hh'). rewrite E1. cbn. split; [|done]. by eapply (Hput _ _ _ _ _ _ []).
    + destruct (N.eqb_spec k 0) as [->|Hk0].
      * destruct (h_clear w H n t Hh a L HL al Hal Hn) as (w' & E1 & Hh'). rewrite E1. cbn. split; [|done]. by eapply (Hput _ _ _ _ _ _ []).
      * destruct (L !! N.to_nat (k - 1)) as [[b d']|] eqn:Ek; [|apply lookup_ge_None_1 in Ek; lia].
        cbn [fmap option_fmap option_map fst]. pose proof (take_drop_middle L _ _ Ek) as EL.
        destruct (h_cut w H n t Hh a L HL al _ _ _ _ Hal Hn (eq_sym EL)) as (w' & E1 & Hh'). rewrite E1. cbn. split; [|done].
        eapply Hput; try done. rewrite <- (take_S_r L _ _ Ek), <- fmap_take. by replace (S (N.to_nat (k - 1))) with (N.to_nat k) by lia.
  - destruct (Hv i Hl) as (a & L & Ha & HL & Gi). rewrite Ha, Gi. destruct (lst_history_inv _ _ Hh) as [I _].
    rewrite (iterate_spec gather a L); [rewrite visit_gather; done| | |].
    + intros s w0 d0 s' w0' r Hw [= <- <- <-]. done.
    + by exists (LG H n t).
    + exact (li_fuel w _ I a L HL).
  - rewrite (h_total w H n t Hh). done.
  - destruct Hl as (Hal & Hn & Hi). destruct (Hv i Hi) as (a & L & Ha & HL & Gi). rewrite Ha, Gi.
    destruct (h_destroy w H n t Hh a L HL al Hal Hn) as (w' & E & Hh'). rewrite E. cbn. split; [|done].
    exists (delete a H). cbn. split; [done|]. rewrite fmap_delete. by eapply named_del.
  - pose proof (named_dead _ _ _ N Hl) as Hd. apply fmap_empty_inv in Hd as ->.
    destruct (h_shutdown w n t Hh) as (w' & E & Hh' & _). rewrite E. cbn. split; [|done]. by exists ∅.
Qed.

Lemma lists_ok cs : lawful lspec llegal (LSp [] 0 0) cs ->
  refines eq lcan (fun st g => (forall i, ~ alive (lists g) i) ->
    exists w', lst_shutdown st.2 = Ret w' /\ oblk (lobj w') = ∅ /\ lhs w' = ∅) cs
    (run lstep ([], lempty) cs) (run lspec (LSp [] 0 0) cs).
Proof.
  intros Hl. eapply refines_Q; [|apply (run_refines _ _ _ _ llegal lrel); [intros; by apply lstep_ok| |exact Hl]].
  - intros [vs w] g (H & Hh & N) Hd. cbn [fst snd] in *. pose proof (named_dead _ _ _ N Hd) as He. apply fmap_empty_inv in He as ->.
    destruct (h_shutdown w _ _ Hh) as (w' & E & _ & _ & Hb & Hs). by exists w'.
  - exists ∅. cbn. rewrite fmap_empty. split; [constructor|apply named_nil].
Qed.
