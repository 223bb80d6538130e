(** C25-C27, whole programs: any sequence of calls on any number of string memories. *)
From Verif Require Import Base Trace CStr StackModel StackProofs ObjModel ObjProofs MemModel MemProofs MemHist StrTrace.
Local Open Scope nat_scope.

(** The calls; a string memory is named by its number in the order of creation, a string by its
    number in the order in which the memory returned it.  [rest]: what follows the argument
    string. *)
Inductive mop :=
| MCreate (al : malloc)
| MCopy (al : malloc) (i : nat) (s rest : list N)
| MCopyn (al : malloc) (i : nat) (src : list N) (len : Z)
| MGrow (al : malloc) (i : nat) (src : list N) (len : Z)
| MFinish (al : malloc) (i : nat)
| MRead (i n : nat)
| MStats (mem : bool) (i : nat)
| MDestroy (i : nat).
Inductive mres := MName (n : nat) | MBytes (b : list N) | MCount (c b : Z) | MDone.

(** ** the model: the program keeps the pointers it was given *)
Definition mstate : Type := list positive * list (list positive) * mworld.
Definition mstep (st : mstate) (c : mop) : res (mstate * mres) :=
  let '(vs, ns, w) := st in
  let named_res i (r : mworld * positive) :=
    str_var ns i (fun l => let '(l', n) := known l r.2 in Ret ((vs, <[i := l']> ns, r.1), MName n)) in
  match c with
  | MCreate al => '(w', a) ← mem_create_strings al w; Ret ((vs ++ [a], ns ++ [[]], w'), MDone)
  | MCopy al i s rest => var vs i (fun p => r ← mem_strcpy al w p (s ++ 0%N :: rest); named_res i r)
  | MCopyn al i src len => var vs i (fun p => r ← mem_strncpy al w p src len; named_res i r)
  | MGrow al i src len => var vs i (fun p => w' ← mem_grow al w p src len; Ret ((vs, ns, w'), MDone))
  | MFinish al i => var vs i (fun p => '(w', q) ← mem_finish al w p; match q with Some a => named_res i (w', a) | None => UB end)
  | MRead i n => str_var ns i (fun l => match l !! n with Some a => b ← hget (mblk w) a; Ret ((vs, ns, w), MBytes b) | None => UB end)
  | MStats mem i => var vs i (fun p => '(c, b) ← mem_get_string_stats mem w (Some p); Ret ((vs, ns, w), MCount c b))
  | MDestroy i => var vs i (fun p => w' ← mem_destroy_strings w p; Ret ((vs, ns, w'), MDone))
  end.

(** ** the specification: the bytes of the strings handed out, the bytes grown since the last one,
    and the number of bytes asked for *)
Record msp := MSp { strs : list (list N); grows : list N; mbytes : Z }.
Definition with_str (P : msp) (b : list N) (n : Z) : msp := MSp (strs P ++ [b]) [] (mbytes P + n)%Z.
Definition mspec (L : list (option msp)) (c : mop) : res (list (option msp) * mres) :=
  let new (i : nat) (b : list N) (n : Z) (P : msp) : res (list (option msp) * mres) :=
    Ret (<[i := Some (with_str P b n)]> L, MName (length (strs P))) in
  match c with
  | MCreate _ => Ret (L ++ [Some (MSp [] [] 0)], MDone)
  | MCopy _ i s _ => Trace.live L i (new i (s ++ [0%N]) (Z.of_nat (length s) + 1)%Z)
  | MCopyn _ i src len => Trace.live L i (new i (take (Z.to_nat len + 1) src) (len + 1)%Z)
  | MGrow _ i src len => Trace.live L i (fun P =>
      Ret (<[i := Some (MSp (strs P) (grows P ++ take (Z.to_nat len) src) (mbytes P + len)%Z)]> L, MDone))
  | MFinish _ i => Trace.live L i (fun P => new i (grows P ++ [0%N]) 1%Z P)
  | MRead i n => Trace.live L i (fun P => match strs P !! n with Some b => Ret (L, MBytes b) | None => UB end)
  | MStats mem i => Trace.live L i (fun P => if mem then Ret (L, MCount (Z.of_nat (length (strs P))) (mbytes P)) else Fatal)
  | MDestroy i => Trace.live L i (fun P => Ret (<[i := None]> L, MDone))
  end.
(** malloc returns fresh addresses, and does not fail for the nodes of the stack (stk_push does not
    check it); arguments are strings (for the length-counted calls: readable; mem_strncpy reads
    [len + 1] bytes); the memory has not been destroyed; the int counters have room *)
Definition mroom (L : list (option msp)) (i : nat) (n : Z) : Prop :=
  exists P, L !! i = Some (Some P) /\ (Z.of_nat (length (strs P)) + 1 < 2 ^ 31)%Z /\ (mbytes P + n < 2 ^ 31)%Z.
Definition mal_ok (al : malloc) : Prop := malloc_good al /\ nodes_ok al.
Definition mlegal (L : list (option msp)) (c : mop) : Prop :=
  match c with
  | MCreate al => malloc_good al
  | MCopy al i s _ => mal_ok al /\ str_ok s /\ mroom L i (Z.of_nat (length s) + 1)
  | MCopyn al i src len => mal_ok al /\ (0 <= len < Z.of_nat (length src))%Z /\ mroom L i (len + 1)
  | MGrow al i src len => mal_ok al /\ (0 <= len <= Z.of_nat (length src))%Z /\ mroom L i len
  | MFinish al i => mal_ok al /\ mroom L i 1
  | MRead i _ | MStats _ i | MDestroy i => alive L i
  end.
(** the calls that can run out of memory *)
Definition mcan (c : mop) : Prop :=
  match c with
  | MCreate al => (exists h, m_info al h = None) \/ (exists h, m_stk al h = None)
  | MCopy al _ _ _ | MCopyn al _ _ _ | MGrow al _ _ _ | MFinish al _ => exists n h, m_blk al n h = None
  | _ => False
  end.

(** ** the relation *)
Definition saddrs (g : sgh) : list positive := (s_done g).*1.
Definition abss (g : sgh) : msp := MSp (s_done g).*2 (s_cur g) (s_bytes g).
Record mrelG (vs : list positive) (ns : list (list positive)) (w : mworld) (L : list (option msp)) (G : gmap positive sgh) : Prop := {
  mr_hist : str_history w G;
  mr_named : named vs L (abss <$> G);
  mr_len : length ns = length vs;
  mr_strs : forall (i : nat) (p : positive) (g : sgh), vs !! i = Some p -> alive L i -> G !! p = Some g -> ns !! i = Some (saddrs g) }.
Definition mrel (st : mstate) (L : list (option msp)) : Prop := exists G, mrelG st.1.1 st.1.2 st.2 L G.

Lemma mrel_set vs ns w L G i p g P w' g' : mrelG vs ns w L G -> L !! i = Some (Some P) -> vs !! i = Some p -> G !! p = Some g ->
  str_history w' (<[p := g']> G) -> mrelG vs (<[i := saddrs g']> ns) w' (<[i := Some (abss g')]> L) (<[p := g']> G).
Proof.
  intros [H N Hn Hs] HP Hp HG H'. assert (Hlt : i < length vs) by (by eapply lookup_lt_Some). constructor.
  - done.
  - rewrite fmap_insert. eapply named_set; [exact N|exact Hp|exact HP].
  - by rewrite insert_length.
  - intros j q g2 Hq [Q HQ] Hg2. destruct (decide (j = i)) as [->|Hne].
    + rewrite list_lookup_insert by lia. rewrite Hp in Hq. injection Hq as <-. rewrite lookup_insert in Hg2. by injection Hg2 as <-.
    + rewrite list_lookup_insert_ne in HQ by done. rewrite list_lookup_insert_ne by done. eapply Hs; [exact Hq|by exists Q|].
      rewrite lookup_insert_ne in Hg2; [done|]. intros ->. apply Hne. by eapply (nm_inj _ _ _ N).
Qed.
Lemma mrel_new vs ns w L G i p g w' a b n : mrelG vs ns w L G -> L !! i = Some (Some (abss g)) -> vs !! i = Some p -> G !! p = Some g ->
  ns !! i = Some (saddrs g) -> str_history w' (<[p := stored g a b n]> G) ->
  known (saddrs g) a = (saddrs g ++ [a], length (s_done g)) /\
  mrel (vs, <[i := saddrs g ++ [a]]> ns, w') (<[i := Some (with_str (abss g) b n)]> L).
Proof.
  intros R HP Hp HG Hns H'. split.
  - unfold known. rewrite (proj2 (index_None a (saddrs g))); [unfold saddrs; by rewrite fmap_length|].
    pose proof (sh_nodup w' _ H' p _ (lookup_insert _ _ _)) as Hnd. cbn [stored s_done] in Hnd. rewrite fmap_app in Hnd.
    apply NoDup_app in Hnd as (_ & Hd & _). intros Ha. apply (Hd a Ha). left.
  - exists (<[p := stored g a b n]> G). pose proof (mrel_set vs ns w L G i p g _ w' _ R HP Hp HG H') as R'.
    assert (saddrs (stored g a b n) = saddrs g ++ [a]) as E1 by (unfold saddrs; cbn [stored s_done]; by rewrite fmap_app).
    assert (abss (stored g a b n) = with_str (abss g) b n) as E2 by (unfold abss, with_str; cbn [stored s_done s_cur s_bytes strs mbytes]; by rewrite fmap_app).
    rewrite E1, E2 in R'. exact R'.
Qed.

Lemma mstep_ok st L c : mrel st L -> mlegal L c -> call_ok eq mcan mrel c (mstep st c) (mspec L c).
Proof.
  intros (G & R) Hl. destruct st as [[vs ns] w]. cbn [fst snd] in *. pose proof R as [H N Hn Hs].
  assert (Hv : forall i P, L !! i = Some (Some P) -> exists g p, P = abss g /\ vs !! i = Some p /\ G !! p = Some g /\ ns !! i = Some (saddrs g)).
  { intros i P Hi. destruct (nm_get _ _ _ N i P Hi) as (p & Hp & HG). rewrite lookup_fmap in HG.
    destruct (G !! p) as [g|] eqn:Eg; [|discriminate]. injection HG as <-. exists g, p. split; [done|]. split; [done|]. split; [done|].
    by eapply Hs; [|exists (abss g)|]. }
  assert (Hroom : forall i n, mroom L i n -> exists g p, L !! i = Some (Some (abss g)) /\ vs !! i = Some p /\ G !! p = Some g /\ ns !! i = Some (saddrs g) /\ room g n).
  { intros i n (P & Hi & H1 & H2). destruct (Hv i P Hi) as (g & p & -> & Hp & HG & Hns). exists g, p. repeat (split; [done|]).
    unfold room. unfold abss in H1, H2. cbn [strs mbytes] in H1, H2. rewrite fmap_length in H1. done. }
  destruct c as [al|al i s rest|al i src len|al i src len|al i|i n|mem i|i]; cbn [mlegal] in Hl; unfold mstep, mspec, var, Trace.live, str_var.
  - pose proof (sh_create_ok w G H al Hl) as Hc. destruct (mem_create_strings al w) as [[w' p]| | | |] eqn:E; cbn [mbind res_bind ok] in *; try done; [|cbn; destruct Hc; eauto].
    destruct Hc as [HG H']. split; [|done]. exists (<[p := SG [] [] 0]> G). constructor; cbn [fst snd].
    + done.
    + rewrite fmap_insert. apply (named_add vs L (abss <$> G) p (abss (SG [] [] 0))); [exact N|]. by rewrite lookup_fmap, HG.
    + rewrite !app_length, Hn. done.
    + intros i q g Hq [P HP] Hg. apply snoc_lookup in Hq as [[Hlt Hq]|[-> <-]].
      * rewrite lookup_app_l by lia. assert (HP2 : L !! i = Some (Some P)).
        { apply snoc_lookup in HP as [[_ HP]|[Ei _]]; [done|]. rewrite <- (nm_len _ _ _ N) in Ei. lia. }
        destruct (Hv i P HP2) as (g2 & q2 & _ & Hq2 & HG2 & Hns2). rewrite Hq in Hq2. injection Hq2 as <-.
        rewrite lookup_insert_ne in Hg by congruence. rewrite Hg in HG2. by injection HG2 as <-.
      * rewrite lookup_insert in Hg. injection Hg as <-. rewrite lookup_app_r, Hn, Nat.sub_diag by lia. done.
  - destruct Hl as ([Hal Hno] & Hs1 & Hr). destruct (Hroom i _ Hr) as (g & p & Hi & Hp & HG & Hns & Hrm). rewrite Hi, Hp.
    pose proof (sh_strcpy_ok w G H al p g s rest Hal Hno HG Hs1 Hrm) as Hc.
    destruct (mem_strcpy al w p (s ++ 0%N :: rest)) as [[w' a]| | | |] eqn:E; cbn [mbind res_bind ok] in *; try done.
    destruct Hc as [H' _]. rewrite Hns. cbn [fst snd]. destruct (mrel_new vs ns w L G i p g w' a _ _ R Hi Hp HG Hns H') as [-> R'].
    split; [exact R'|]. cbn [abss strs]. by rewrite fmap_length.
  - destruct Hl as ([Hal Hno] & Hs1 & Hr). destruct (Hroom i _ Hr) as (g & p & Hi & Hp & HG & Hns & Hrm). rewrite Hi, Hp.
    pose proof (sh_strncpy_ok w G H al p g src len Hal Hno HG Hs1 Hrm) as Hc.
    destruct (mem_strncpy al w p src len) as [[w' a]| | | |] eqn:E; cbn [mbind res_bind ok] in *; try done.
    destruct Hc as [H' _]. rewrite Hns. cbn [fst snd]. destruct (mrel_new vs ns w L G i p g w' a _ _ R Hi Hp HG Hns H') as [-> R'].
    split; [exact R'|]. cbn [abss strs]. by rewrite fmap_length.
  - destruct Hl as ([Hal Hno] & Hs1 & Hr). destruct (Hroom i _ Hr) as (g & p & Hi & Hp & HG & Hns & Hrm). rewrite Hi, Hp.
    pose proof (sh_grow_ok w G H al p g src len Hal Hno HG Hs1 Hrm) as Hc.
    destruct (mem_grow al w p src len) as [w'| | | |] eqn:E; cbn [mbind res_bind ok] in *; try done.
    split; [|done]. exists (<[p := grown g (take (Z.to_nat len) src) len]> G). cbn [fst snd].
    pose proof (mrel_set vs ns w L G i p g _ w' _ R Hi Hp HG Hc) as R'. rewrite (list_insert_id ns i (saddrs (grown g (take (Z.to_nat len) src) len)) Hns) in R'. exact R'.
  - destruct Hl as ([Hal Hno] & Hr). destruct (Hroom i _ Hr) as (g & p & Hi & Hp & HG & Hns & Hrm). rewrite Hi, Hp.
    pose proof (sh_finish_ok w G H al p g Hal Hno HG Hrm) as Hc.
    destruct (mem_finish al w p) as [[w' q]| | | |] eqn:E; cbn [mbind res_bind ok] in *; try done.
    destruct Hc as (a & -> & H'). rewrite Hns. cbn [fst snd]. destruct (mrel_new vs ns w L G i p g w' a _ _ R Hi Hp HG Hns H') as [-> R'].
    split; [exact R'|]. cbn [abss strs]. by rewrite fmap_length.
  - destruct Hl as [P Hi]. destruct (Hv i P Hi) as (g & p & -> & Hp & HG & Hns). rewrite Hi, Hns. unfold saddrs. cbn [abss strs].
    rewrite !list_lookup_fmap. destruct (s_done g !! n) as [[a b]|] eqn:En; cbn [fmap option_fmap option_map fst snd]; [|done].
    rewrite (hget_Some _ _ _ (sh_done w G H p g a b HG (elem_of_list_lookup_2 _ _ _ En))). cbn [mbind res_bind]. split; [by exists G|done].
  - destruct Hl as [P Hi]. destruct (Hv i P Hi) as (g & p & -> & Hp & HG & Hns). rewrite Hi, Hp. destruct mem; [|done].
    rewrite (sh_stats w G H p g HG). cbn [mbind res_bind]. split; [by exists G|]. cbn [abss strs mbytes]. by rewrite fmap_length.
  - destruct Hl as [P Hi]. destruct (Hv i P Hi) as (g & p & -> & Hp & HG & Hns). rewrite Hi, Hp.
    destruct (sh_destroy_ok w G H p g HG) as (w' & E & H' & _). rewrite E. cbn [mbind res_bind]. split; [|done].
    exists (delete p G). constructor; cbn [fst snd]; [done| |done|].
    + rewrite fmap_delete. eapply named_del; [exact N|exact Hp|exact Hi].
    + intros j q g2 Hq [Q HQ] [_ Hg2]%lookup_delete_Some. destruct (decide (j = i)) as [->|Hne].
      * rewrite list_lookup_insert in HQ; [discriminate|]. by eapply lookup_lt_Some.
      * rewrite list_lookup_insert_ne in HQ by done. eapply Hs; [exact Hq|by exists Q|exact Hg2].
Qed.

Lemma string_memories_ok cs : lawful mspec mlegal [] cs ->
  refines eq mcan (fun st L => (forall i, ~ alive L i) ->
      mblk st.2 = ∅ /\ minf st.2 = ∅ /\ stks (msh st.2) = ∅ /\ nodes (msh st.2) = ∅) cs
    (run mstep ([], [], mempty) cs) (run mspec [] cs).
Proof.
  intros Hl. eapply refines_Q; [|apply (run_refines _ _ _ _ mlegal mrel); [intros; by apply mstep_ok| |exact Hl]].
  - intros [[vs ns] w] L (G & R) Hd. cbn [fst snd] in *. assert (G = ∅) as ->.
    { apply (fmap_empty_inv abss). eapply named_dead; [apply R|done]. }
    by apply (sh_no_leak w ∅ (mr_hist _ _ _ _ _ R)).
  - exists ∅. constructor; cbn [fst snd]; try done; try (by constructor); try (rewrite fmap_empty; apply named_nil).
Qed.
