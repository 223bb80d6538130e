(** C40-C42, whole programs: any sequence of calls on any number of argument lists. *)
From Verif Require Import Base Trace CStr StackModel StackProofs ObjModel ObjProofs MemModel MemProofs MemHist ArgModel ArgProofs ArgSpec ArgHist.
Local Open Scope nat_scope.

(** The calls; a list is named by its number in the order of creation (by arg_create or
    arg_argify).  A program keeps the pointers that arg_get returned, and names them in that order.
    [rest]: what follows the argument string.  [ws]: the words of the command line, which the
    specification uses ([alegal] says that they are). *)
Inductive aop :=
| ACreate (al : aalloc)
| AArgify (al : aalloc) (s rest : list N) (style : Z) (ws : list (list N))
| AAdd (al : aalloc) (i : nat) (s rest : list N)
| AAddn (al : aalloc) (i : nat) (src : list N) (len : Z)
| AGrow (al : aalloc) (i : nat) (src : list N) (len : Z)
| AFinish (al : aalloc) (i : nat)
| AGet (i : nat) (item : Z)
| ARead (k : nat)
| ACount (i : nat)
| AVector (i : nat)
| ADestroy (i : nat).
Inductive ares := ABytes (b : list N) | ANum (n : Z) | AVec (n : Z) (v : list (option (list N))) | ADone.

(** ** the model: the program keeps the pointers it was given *)
Definition astate : Type := list positive * list positive * aworld.
(** what the first [argc + 1] pointers of the vector point to *)
Fixpoint read_vec (w : aworld) (v : list (option ptr)) (n : nat) {struct n} : res (list (option (list N))) :=
  match n, v with
  | O, _ => Ret []
  | S n', Some (Some a) :: v' => b ← hget (mblk (amem w)) a; l ← read_vec w v' n'; Ret (Some b :: l)
  | S n', Some None :: v' => l ← read_vec w v' n'; Ret (None :: l)
  | S _, None :: _ | S _, [] => UB
  end.
Definition astep (st : astate) (c : aop) : res (astate * ares) :=
  let '(vs, ps, w) := st in
  match c with
  | ACreate al => '(w', p) ← arg_create al w; Ret ((vs ++ [p], ps, w'), ADone)
  | AArgify al s rest style _ => '(w', p) ← arg_argify al w (s ++ 0%N :: rest) style; Ret ((vs ++ [p], ps, w'), ADone)
  | AAdd al i s rest => var vs i (fun p => w' ← arg_add al w (Some p) (s ++ 0%N :: rest); Ret ((vs, ps, w'), ADone))
  | AAddn al i src len => var vs i (fun p => w' ← arg_addn al w (Some p) src len; Ret ((vs, ps, w'), ADone))
  | AGrow al i src len => var vs i (fun p => w' ← arg_grow al w (Some p) src len; Ret ((vs, ps, w'), ADone))
  | AFinish al i => var vs i (fun p => w' ← arg_finish al w (Some p); Ret ((vs, ps, w'), ADone))
  | AGet i item => var vs i (fun p => q ← arg_get w (Some p) item;
      match q with Some a => b ← hget (mblk (amem w)) a; Ret ((vs, ps ++ [a], w), ABytes b) | None => UB end)
  | ARead k => var ps k (fun a => b ← hget (mblk (amem w)) a; Ret ((vs, ps, w), ABytes b))
  | ACount i => var vs i (fun p => n ← arg_count w (Some p); Ret ((vs, ps, w), ANum n))
  | AVector i => var vs i (fun p => '(n, v) ← arg_get_vector w (Some p); l ← read_vec w v (Z.to_nat n + 1); Ret ((vs, ps, w), AVec n l))
  | ADestroy i => var vs i (fun p => w' ← arg_destroy w (Some p); Ret ((vs, ps, w'), ADone))
  end.

(** ** the specification: the bytes of the items, the bytes grown since the last item, the number of
    bytes asked for; and which items the kept pointers are *)
Record asp := ASp { titems : list (list N); tgrow : list N; tbytes : Z }.
Definition item (P : asp) (b : list N) (n : Z) : asp := ASp (titems P ++ [b]) [] (tbytes P + n)%Z.
Definition aspecs : Type := list (option asp) * list (nat * nat).
Definition aspec (S : aspecs) (c : aop) : res (aspecs * ares) :=
  let '(L, K) := S in
  let upd (i : nat) (P : asp) : res (aspecs * ares) := Ret ((<[i := Some P]> L, K), ADone) in
  match c with
  | ACreate _ => Ret ((L ++ [Some (ASp [] [] 0)], K), ADone)
  | AArgify _ _ _ _ ws =>
      let t := (fun v => v ++ [0%N]) <$> ws in Ret ((L ++ [Some (ASp t [] (Z.of_nat (length (concat t))))], K), ADone)
  | AAdd _ i s _ => Trace.live L i (fun P => upd i (item P (s ++ [0%N]) (Z.of_nat (length s) + 1)%Z))
  | AAddn _ i src len => Trace.live L i (fun P => upd i (item P (take (Z.to_nat len + 1) src) (len + 1)%Z))
  | AGrow _ i src len => Trace.live L i (fun P => upd i (ASp (titems P) (tgrow P ++ take (Z.to_nat len) src) (tbytes P + len)%Z))
  | AFinish _ i => Trace.live L i (fun P => upd i (item P (tgrow P ++ [0%N]) 1%Z))
  | AGet i n => Trace.live L i (fun P =>
      if (n <? 0)%Z then Abort else match titems P !! Z.to_nat n with Some b => Ret ((L, K ++ [(i, Z.to_nat n)]), ABytes b) | None => Abort end)
  | ARead k => match K !! k with Some (i, n) => Trace.live L i (fun P => match titems P !! n with Some b => Ret (S, ABytes b) | None => UB end) | None => UB end
  | ACount i => Trace.live L i (fun P => Ret (S, ANum (Z.of_nat (length (titems P)))))
  | AVector i => Trace.live L i (fun P => Ret (S, AVec (Z.of_nat (length (titems P))) ((Some <$> titems P) ++ [None])))
  | ADestroy i => Trace.live L i (fun P => Ret ((<[i := None]> L, K), ADone))
  end.
(** malloc returns fresh addresses, and does not fail for the nodes of the stack (stk_push does not
    check it); arguments are strings (for the length-counted calls: readable; arg_addn reads
    [len + 1] bytes); the list has not been destroyed; the int counters have room *)
Definition aroom (L : list (option asp)) (i : nat) (n : Z) : Prop :=
  exists P, L !! i = Some (Some P) /\ (Z.of_nat (length (titems P)) + 2 < 2 ^ 30)%Z /\ (tbytes P + n < 2 ^ 31)%Z.
Definition alegal (S : aspecs) (c : aop) : Prop :=
  let '(L, K) := S in
  match c with
  | ACreate al => aalloc_ok al
  | AArgify al s _ style ws => aalloc_ok al /\ str_ok s /\ (Z.of_nat (length s) + 3 < 2 ^ 30)%Z /\ line (escapes style) (quotes style) s ws
  | AAdd al i s _ => aalloc_ok al /\ str_ok s /\ aroom L i (Z.of_nat (length s) + 1)
  | AAddn al i src len => aalloc_ok al /\ (0 <= len < Z.of_nat (length src))%Z /\ aroom L i (len + 1)
  | AGrow al i src len => aalloc_ok al /\ (0 <= len <= Z.of_nat (length src))%Z /\ aroom L i len
  | AFinish al i => aalloc_ok al /\ aroom L i 1
  | AGet i _ | ACount i | AVector i | ADestroy i => alive L i
  | ARead k => exists i n, K !! k = Some (i, n) /\ alive L i
  end.
(** the calls that can run out of memory *)
Definition acan (c : aop) : Prop :=
  match c with
  | ACreate al | AArgify al _ _ _ _ | AAdd al _ _ _ | AAddn al _ _ _ | AGrow al _ _ _ | AFinish al _ => afail al
  | _ => False
  end.

(** ** the relation *)
Definition absa (g : sgh) : asp := ASp (s_done g).*2 (s_cur g) (s_bytes g).
Record arelG (vs ps : list positive) (w : aworld) (L : list (option asp)) (K : list (nat * nat)) (G : gmap positive sgh) : Prop := {
  ar_hist : sinv (w, G);
  ar_named : named vs L (absa <$> G);
  ar_len : length ps = length K;
  ar_idx : forall k i n, K !! k = Some (i, n) -> i < length L;
  ar_kept : forall (k i n : nat) (p : positive) (g : sgh), K !! k = Some (i, n) -> vs !! i = Some p -> alive L i -> G !! p = Some g ->
     exists a b, ps !! k = Some a /\ s_done g !! n = Some (a, b) }.
Definition arel (st : astate) (S : aspecs) : Prop := exists G, arelG st.1.1 st.1.2 st.2 S.1 S.2 G.

Lemma arel_set vs ps w L K G i p g w' g' l : arelG vs ps w L K G -> alive L i -> vs !! i = Some p -> G !! p = Some g ->
  sinv (w', <[p := g']> G) -> s_done g' = s_done g ++ l -> arelG vs ps w' (<[i := Some (absa g')]> L) K (<[p := g']> G).
Proof.
  intros [H N Hn Hi Hs] [P HP] Hp HG H' Hd. constructor.
  - done.
  - rewrite fmap_insert. eapply named_set; [exact N|exact Hp|exact HP].
  - done.
  - intros k j n Hk. rewrite insert_length. by eapply Hi.
  - intros k j n q g2 Hk Hq [Q HQ] Hg2. destruct (decide (j = i)) as [->|Hne].
    + rewrite Hp in Hq. injection Hq as <-. rewrite lookup_insert in Hg2. injection Hg2 as <-.
      destruct (Hs k i n p g Hk Hp (ex_intro _ P HP) HG) as (a & b & H1 & H2). exists a, b. split; [done|].
      rewrite Hd. by apply lookup_app_l_Some.
    + rewrite list_lookup_insert_ne in HQ by done. eapply Hs; [exact Hk|exact Hq|by exists Q|].
      rewrite lookup_insert_ne in Hg2; [done|]. intros ->. apply Hne. by eapply (nm_inj _ _ _ N).
Qed.
Lemma arel_new vs ps w L K G p w' g' : arelG vs ps w L K G -> G !! p = None -> sinv (w', <[p := g']> G) ->
  arelG (vs ++ [p]) ps w' (L ++ [Some (absa g')]) K (<[p := g']> G).
Proof.
  intros [H N Hn Hi Hs] HG H'. constructor.
  - done.
  - rewrite fmap_insert. apply named_add; [exact N|]. by rewrite lookup_fmap, HG.
  - done.
  - intros k j n Hk. rewrite app_length. apply Hi in Hk. lia.
  - intros k j n q g2 Hk Hq [Q HQ] Hg2. pose proof (Hi _ _ _ Hk) as Hlt. rewrite lookup_app_l in HQ by done.
    rewrite lookup_app_l in Hq by (rewrite (nm_len _ _ _ N); done). eapply Hs; [exact Hk|exact Hq|by exists Q|].
    destruct (nm_get _ _ _ N j Q HQ) as (p2 & Hp2 & HG2). rewrite Hq in Hp2. injection Hp2 as <-.
    rewrite lookup_fmap in HG2. rewrite lookup_insert_ne in Hg2; [done|]. intros <-. rewrite HG in HG2. discriminate.
Qed.

Lemma read_vec_ok w (l : list (positive * list N)) rest :
  (forall a b, (a, b) ∈ l -> mblk (amem w) !! a = Some b) ->
  read_vec w (((fun a => Some (Some a)) <$> l.*1) ++ Some None :: rest) (length l + 1) = Ret ((Some <$> l.*2) ++ [None]).
Proof.
  induction l as [|[a b] l IH]; intros H; [reflexivity|]. cbn [length fmap list_fmap app read_vec Nat.add fst snd].
  rewrite (hget_Some _ _ b) by (apply H; left). cbn [mbind res_bind].
  rewrite (IH ltac:(intros a' b' Hab; apply H; by right)). done.
Qed.

Lemma astep_ok st S c : arel st S -> alegal S c -> call_ok eq acan arel c (astep st c) (aspec S c).
Proof.
  intros (G & R) Hl. destruct st as [[vs ps] w], S as [L K]. cbn [fst snd] in *. pose proof R as [H N Hn Hi Hs].
  assert (Hv : forall i, alive L i -> exists g p, L !! i = Some (Some (absa g)) /\ vs !! i = Some p /\ G !! p = Some g).
  { intros i [P Hp]. destruct (nm_get _ _ _ N i P Hp) as (p & Hp1 & HG). rewrite lookup_fmap in HG.
    destruct (G !! p) as [g|] eqn:Eg; [|discriminate]. injection HG as <-. exists g, p. done. }
  assert (Hroom : forall i n, aroom L i n -> exists g p, L !! i = Some (Some (absa g)) /\ vs !! i = Some p /\ G !! p = Some g /\ room g n /\ slot g).
  { intros i n (P & HP & H1 & H2). destruct (Hv i (ex_intro _ P HP)) as (g & p & HL & Hp & HG). exists g, p. do 3 (split; [done|]).
    rewrite HP in HL. injection HL as ->. unfold absa in H1, H2. cbn [titems tbytes] in H1, H2. rewrite fmap_length in H1. unfold room, slot. lia. }
  assert (Hupd : forall i p g w' g' l, L !! i = Some (Some (absa g)) -> vs !! i = Some p -> G !! p = Some g ->
    acall (w, G) (w', <[p := g']> G) -> s_done g' = s_done g ++ l -> arel (vs, ps, w') (<[i := Some (absa g')]> L, K)).
  { intros i p g w' g' l HL Hp HG Hc Hd. exists (<[p := g']> G). cbn [fst snd]. eapply arel_set; try done; [by exists (absa g)|]. by eapply acall_inv. }
  assert (Habs : forall g a b n, absa (stored g a b n) = item (absa g) b n).
  { intros g a b n. unfold absa, item. cbn [stored s_done s_cur s_bytes titems tbytes]. by rewrite fmap_app. }
  destruct c as [al|al s rest style ws|al i s rest|al i src len|al i src len|al i|i n|k|i|i|i]; cbn [alegal] in Hl; unfold astep, aspec, var, Trace.live.
  - pose proof (c_create w G H al Hl) as Hc. destruct (arg_create al w) as [[w' p]| | | |] eqn:E; cbn [mbind res_bind ok] in *; try done.
    destruct Hc as [HG Hc]. split; [|done]. exists (<[p := SG [] [] 0]> G). cbn [fst snd].
    apply (arel_new vs ps w L K G p w' (SG [] [] 0) R HG). by eapply acall_inv.
  - destruct Hl as (Hal & Hs1 & Hlen & Hline). pose proof (argify_ok al w G s rest style H Hal Hs1 Hlen) as Hc.
    rewrite (line_tok _ _ _ _ Hline) in Hc.
    destruct (arg_argify al w (s ++ 0%N :: rest) style) as [[w' p]| | | |] eqn:E; cbn [mbind res_bind ok] in *; try done.
    destruct Hc as (HG & g & Hlat & E1 & E2 & E3). split; [|done]. exists (<[p := g]> G). cbn [fst snd].
    pose proof (arel_new vs ps w L K G p w' g R HG (later_inv _ _ Hlat H)) as R'. unfold absa in R'. rewrite E1, E2, E3 in R'. exact R'.
  - destruct Hl as (Hal & Hs1 & Hr). destruct (Hroom i _ Hr) as (g & p & HL & Hp & HG & Hrm & Hsl). rewrite HL, Hp.
    pose proof (c_add w G H al Hal p g HG s rest Hs1 Hrm Hsl) as Hc.
    destruct (arg_add al w (Some p) (s ++ 0%N :: rest)) as [w'| | | |] eqn:E; cbn [mbind res_bind ok] in *; try done.
    destruct Hc as (a & _ & Hc). split; [|done]. rewrite <- (Habs g a). by eapply Hupd.
  - destruct Hl as (Hal & Hs1 & Hr). destruct (Hroom i _ Hr) as (g & p & HL & Hp & HG & Hrm & Hsl). rewrite HL, Hp.
    pose proof (c_addn w G H al Hal p g HG src len Hs1 Hrm Hsl) as Hc.
    destruct (arg_addn al w (Some p) src len) as [w'| | | |] eqn:E; cbn [mbind res_bind ok] in *; try done.
    destruct Hc as (a & _ & Hc). split; [|done]. rewrite <- (Habs g a). by eapply Hupd.
  - destruct Hl as (Hal & Hs1 & Hr). destruct (Hroom i _ Hr) as (g & p & HL & Hp & HG & Hrm & Hsl). rewrite HL, Hp.
    pose proof (c_grow w G H al Hal p g HG src len Hs1 Hrm) as Hc.
    destruct (arg_grow al w (Some p) src len) as [w'| | | |] eqn:E; cbn [mbind res_bind ok] in *; try done.
    split; [|done]. eapply (Hupd i p g w' (grown g (take (Z.to_nat len) src) len) []); try done. cbn [grown s_done]. by rewrite app_nil_r.
  - destruct Hl as (Hal & Hr). destruct (Hroom i _ Hr) as (g & p & HL & Hp & HG & Hrm & Hsl). rewrite HL, Hp.
    pose proof (c_finish w G H al Hal p g HG Hrm Hsl) as Hc.
    destruct (arg_finish al w (Some p)) as [w'| | | |] eqn:E; cbn [mbind res_bind ok] in *; try done.
    destruct Hc as (a & Hc). split; [|done]. change (tgrow (absa g)) with (s_cur g). rewrite <- (Habs g a). by eapply Hupd.
  - destruct (Hv i Hl) as (g & p & HL & Hp & HG). rewrite HL, Hp. destruct H as [GM I]. cbn [fst snd] in I.
    rewrite (get_ok w G GM I p g HG). cbn [absa titems]. rewrite list_lookup_fmap. destruct (Z.ltb_spec n 0).
    { rewrite decide_False by lia. done. }
    destruct (s_done g !! Z.to_nat n) as [[a b]|] eqn:En; cbn [fmap option_fmap option_map snd].
    + pose proof (lookup_lt_Some _ _ _ En). rewrite decide_True by lia. cbn [mbind res_bind].
      rewrite (hget_Some _ _ b) by (eapply (text_ok w G GM I p g HG), elem_of_list_lookup_2; exact En). cbn [mbind res_bind].
      split; [|done]. exists G. constructor; cbn [fst snd]; [by exists GM|done|rewrite !app_length, Hn; done|..].
      * intros k j m Hk. apply snoc_lookup in Hk as [[_ Hk]|[_ Hk]]; [by eapply Hi|]. injection Hk as <- <-. by eapply lookup_lt_Some.
      * intros k j m q g2 Hk Hq Ha Hg2. apply snoc_lookup in Hk as [[Hlt Hk]|[-> Hk]].
        -- destruct (Hs k j m q g2 Hk Hq Ha Hg2) as (a' & b' & H1 & H2). exists a', b'. split; [|done]. by apply lookup_app_l_Some.
        -- injection Hk as <- <-. rewrite Hp in Hq. injection Hq as <-. rewrite HG in Hg2. injection Hg2 as <-. exists a, b.
           split; [|done]. rewrite <- Hn, lookup_app_r, Nat.sub_diag by lia. done.
    + apply lookup_ge_None in En. rewrite decide_False by lia. done.
  - destruct Hl as (i & n & Hk & Ha). destruct (Hv i Ha) as (g & p & HL & Hp & HG). destruct (Hs k i n p g Hk Hp Ha HG) as (a & b & H1 & H2).
    rewrite Hk, H1, HL. cbn [absa titems]. rewrite list_lookup_fmap, H2. cbn [fmap option_fmap option_map snd].
    destruct H as [GM I]. cbn [fst snd] in I.
    rewrite (hget_Some _ _ b) by (eapply (text_ok w G GM I p g HG), elem_of_list_lookup_2; exact H2). cbn [mbind res_bind].
    split; [|done]. by exists G.
  - destruct (Hv i Hl) as (g & p & HL & Hp & HG). rewrite HL, Hp. destruct H as [GM I]. cbn [fst snd] in I.
    destruct (vector_ok w G GM I p g HG) as (v & rest & _ & E & _). rewrite E. cbn [mbind res_bind].
    split; [by exists G|]. cbn [absa titems]. by rewrite fmap_length.
  - destruct (Hv i Hl) as (g & p & HL & Hp & HG). rewrite HL, Hp. destruct H as [GM I]. cbn [fst snd] in I.
    destruct (vector_ok w G GM I p g HG) as (v & rest & E & _ & ->). rewrite E. cbn [mbind res_bind]. rewrite Nat2Z.id. unfold items.
    rewrite (read_vec_ok w (s_done g) rest) by (intros a b; apply (text_ok w G GM I p g HG)). cbn [mbind res_bind].
    split; [by exists G|]. cbn [absa titems]. by rewrite fmap_length.
  - destruct (Hv i Hl) as (g & p & HL & Hp & HG). rewrite HL, Hp. destruct H as [GM I]. cbn [fst snd] in I.
    destruct (destroy_ok w G GM I p g HG) as (w' & E & _ & GM' & I'). rewrite E. cbn [mbind res_bind]. split; [|done].
    exists (delete p G). constructor; cbn [fst snd]; [by exists GM'| |done| |].
    + rewrite fmap_delete. eapply named_del; [exact N|exact Hp|exact HL].
    + intros k j m Hk. rewrite insert_length. by eapply Hi.
    + intros k j m q g2 Hk Hq [Q HQ] [_ Hg2]%lookup_delete_Some. destruct (decide (j = i)) as [->|Hne].
      * rewrite list_lookup_insert in HQ; [discriminate|]. by eapply lookup_lt_Some.
      * rewrite list_lookup_insert_ne in HQ by done. eapply Hs; [exact Hk|exact Hq|by exists Q|exact Hg2].
Qed.

Lemma arg_lists_ok cs : lawful aspec alegal ([], []) cs ->
  refines eq acan (fun st S => (forall i, ~ alive S.1 i) ->
      args st.2 = ∅ /\ mblk (amem st.2) = ∅ /\ minf (amem st.2) = ∅ /\ stks (msh (amem st.2)) = ∅ /\ nodes (msh (amem st.2)) = ∅) cs
    (run astep ([], [], aempty) cs) (run aspec ([], []) cs).
Proof.
  intros Hl. eapply refines_Q; [|apply (run_refines _ _ _ _ alegal arel); [intros; by apply astep_ok| |exact Hl]].
  - intros [[vs ps] w] [L K] (G & R) Hd. cbn [fst snd] in *. assert (G = ∅) as ->.
    { apply (fmap_empty_inv absa). eapply named_dead; [apply R|done]. }
    destruct (ar_hist _ _ _ _ _ _ R) as [GM I]. destruct (ainv_no_leak w GM I) as (H1 & H2 & H3 & H4 & H5). done.
  - exists ∅. split; cbn [fst snd]; [exists ∅; apply ainv_start|rewrite fmap_empty; apply named_nil|done|intros k i n Hk; rewrite lookup_nil in Hk; discriminate|intros k i n p g Hk; rewrite lookup_nil in Hk; discriminate].
Qed.
