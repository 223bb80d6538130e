(** C99: the portable alloca of maa/alloca.c. *)
From Coq Require Import Sorting.Sorted.
From Verif Require Import Base Alloc Trace AllocaModel AllocaSpec AllocaProofs.
Local Open Scope Z_scope.

(** [areach] (AllocaSpec.v) follows a program through calls of functions, returns
    and calls of alloca; [g] lists the blocks that ought to be in memory.  They
    are: the malloc'ed blocks are those of [g], each of the bytes asked for and
    the header, and no two are at the same address. *)
Theorem C99_memory : forall up fs s g, areach up fs s g ->
  NoDup ((fun b : block => b.1.1) <$> g) /\
  forall a k, (exists h, blocks s !! a = Some h /\ h_bytes h = (16 + k)%N) <-> exists d, (a, d, k) ∈ g.
Proof.
  intros up fs s g Hr. pose proof (reach_inv _ _ _ _ Hr) as I. split; [apply I|]. intros a k. split.
  - intros (h & Hh & Hk). assert (Ha : a ∈ (fun b : block => b.1.1) <$> g) by (apply (ai_only _ _ _ _ I); eauto).
    apply elem_of_list_fmap in Ha as ([[a' d] k'] & -> & Hin). exists d. cbn [fst] in *. destruct (chain_in _ _ _ (ai_chain _ _ _ _ I) a' d k' Hin) as [q Hq].
    rewrite Hh in Hq. injection Hq as ->. cbn [h_bytes] in Hk. by assert (k' = k) as -> by lia.
  - intros [d Hin]. destruct (chain_in _ _ _ (ai_chain _ _ _ _ I) a d k Hin) as [q Hq]. eauto.
Qed.
Print Assumptions C99_memory.

(** A block is in memory as long as the function that got it has not returned,
    whatever that function calls, and no two such blocks are at the same address. *)
Theorem C99_live : forall up fs s g, areach up fs s g ->
  (forall d bs a, (d, bs) ∈ fs -> a ∈ bs -> is_Some (blocks s !! a)) /\ NoDup (concat fs.*2).
Proof.
  intros up fs s g Hr. pose proof (reach_inv _ _ _ _ Hr) as I. split; [|apply I]. intros d bs a Hin Ha.
  destruct (ai_own _ _ _ _ I d bs a Hin Ha) as [k Hk]. destruct (chain_in _ _ _ (ai_chain _ _ _ _ I) a d k Hk) as [q ->]. eauto.
Qed.
Print Assumptions C99_live.

(** A call: alloca(0) is NULL; otherwise the result is memory not in use, of the
    size asked for (unsigned), and exactly the blocks got further along the stack
    are freed; no undefined behaviour, and a fatal error only if malloc fails. *)
Theorem C99_call : forall up d bs fs s g al d1 d2 n, areach up ((d, bs) :: fs) s g -> alegal up ((d, bs) :: fs) (Alloca al d1 d2 n) ->
  ok (fun '(s', p) =>
        (p = None <-> u32 n = 0%N) /\
        (forall a, p = Some a -> (forall f, f ∈ fs -> a ∉ f.2) /\ a ∉ bs /\ exists h, blocks s' !! a = Some h /\ h_bytes h = (16 + u32 n)%N) /\
        forall a, p <> Some a -> is_Some (blocks s' !! a) <-> exists d' k, (a, d', k) ∈ g /\ ~ beyond up d' d)
     (exists H, al H = None) (alloca al s d d1 d2 n).
Proof.
  intros up d bs fs s g al d1 d2 n Hr Hl. pose proof (reach_inv _ _ _ _ Hr) as I. destruct Hl as (H1 & H2 & _).
  eapply ok_mono; [apply (alloca_spec _ _ _ _ _ _ _ _ _ n I H1 H2)| |done]. intros [s' [a|]].
  - intros (Hn & Hna & I'). split; [by split|]. split.
    + intros a' [= <-]. assert (Hx : forall d' bs', (d', bs') ∈ (d, bs) :: fs -> a ∉ bs').
      { intros d' bs' Hin Ha. pose proof (ai_apart _ _ _ _ I') as Hap. rewrite fmap_cons in Hap. cbn [concat snd] in Hap.
        apply NoDup_app in Hap as (A1 & A2 & _). apply NoDup_app in A1 as (_ & A1 & _). apply elem_of_cons in Hin as [[= -> ->]|Hin].
        - apply (A1 a Ha). left.
        - apply (A2 a); [apply elem_of_app; right; left|]. apply elem_of_list_In, in_concat. exists bs'. rewrite <- !elem_of_list_In. split; [|done].
          apply elem_of_list_fmap. by exists (d', bs'). }
      split; [|split].
      * intros [d' bs'] Hin. apply (Hx d' bs'). by right.
      * apply (Hx d bs). left.
      * destruct (chain_in _ _ _ (ai_chain _ _ _ _ I') a d (u32 n)) as [q Hq]; [left|]. eauto.
    + intros b Hb. split.
      * intros Hs. apply (ai_only _ _ _ _ I') in Hs. rewrite fmap_cons in Hs. apply elem_of_cons in Hs as [->|Hs]; [done|].
        apply elem_of_list_fmap in Hs as ([[b' d'] k] & -> & Hk). apply keep_sub in Hk as [K1 K2]. exists d', k. done.
      * intros (d' & k & K1 & K2). destruct (chain_in _ _ _ (ai_chain _ _ _ _ I') b d' k) as [q ->]; [|eauto]. right. by apply keep_sub.
  - intros (Hn & I'). split; [done|]. split; [done|]. intros b _. split.
    + intros Hs. apply (ai_only _ _ _ _ I') in Hs. apply elem_of_list_fmap in Hs as ([[b' d'] k] & -> & Hk). apply keep_sub in Hk as [K1 K2]. exists d', k. done.
    + intros (d' & k & K1 & K2). destruct (chain_in _ _ _ (ai_chain _ _ _ _ I') b d' k) as [q ->]; [|eauto]. by apply keep_sub.
Qed.
Print Assumptions C99_call.

(** Nothing is lost in the end: alloca(0) in the outermost function leaves just its own blocks. *)
Lemma reclaim_not_fatal dir d : forall n H p, reclaim n H p dir d <> Fatal.
Proof.
  induction n as [|n IH]; intros H p; [done|]. cbn [reclaim]. destruct p as [a|]; [|done]. unfold hget, hfree.
  destruct (H !! a) as [x|] eqn:E; [|done]. rb. destruct (deeper _ _ _); [|done]. rb. apply IH.
Qed.
Theorem C99_main : forall up d bs s g al d1 d2 n, areach up [(d, bs)] s g -> alegal up [(d, bs)] (Alloca al d1 d2 n) -> u32 n = 0%N ->
  exists s', alloca al s d d1 d2 n = Ret (s', None) /\ forall a, is_Some (blocks s' !! a) <-> a ∈ bs.
Proof.
  intros up d bs s g al d1 d2 n Hr Hl Hn. pose proof (reach_inv _ _ _ _ Hr) as I. destruct Hl as (H1 & H2 & _).
  pose proof (alloca_spec _ _ _ _ _ _ _ _ _ n I H1 H2) as Hs.
  assert (Hret : exists s' p, alloca al s d d1 d2 n = Ret (s', p)).
  { unfold alloca in *. cbn zeta in *. pose proof (reclaim_not_fatal (stack_dir (if stack_dir s =? 0 then find_stack_direction s d1 d2 else s)) d
      (S (size (blocks (if stack_dir s =? 0 then find_stack_direction s d1 d2 else s)))) (blocks (if stack_dir s =? 0 then find_stack_direction s d1 d2 else s))
      (last_header (if stack_dir s =? 0 then find_stack_direction s d1 d2 else s))) as Hnf.
    destruct (reclaim _ _ _ _ _) as [[H p]| | | |]; cbn [mbind res_bind] in *; try done. rewrite Hn. cbn. eauto. }
  destruct Hret as (s' & p & E). rewrite E in Hs. cbn [ok] in Hs. destruct p as [a|]; [by destruct Hs|]. destruct Hs as [_ I'].
  exists s'. split; [exact E|]. intros a. split.
  - intros Hs. apply (ai_only _ _ _ _ I') in Hs. apply elem_of_list_fmap in Hs as ([[b' d'] k] & -> & Hk). cbn [fst].
    destruct (ai_main _ _ _ _ I') as (d0 & bs0 & Hla & Hm). cbn in Hla. injection Hla as <- <-.
    destruct (Hm _ _ _ Hk) as [Hb|[_ Hb]]; [|done]. apply keep_sub in Hk as [K1 _]. done.
  - intros Ha. destruct (ai_own _ _ _ _ I' d bs a) as [k Hk]; [left|done|]. destruct (chain_in _ _ _ (ai_chain _ _ _ _ I') a d k Hk) as [q ->]. eauto.
Qed.
Print Assumptions C99_main.

(** Whole programs, from the start, in one outermost function: no undefined
    behaviour, no endless loop, a fatal error only where malloc fails; so all of
    the above holds at the end. *)
Definition acan (c : aop) : Prop := match c with Alloca al _ _ _ => exists H, al H = None | _ => False end.
Fixpoint alawful (up : bool) (ds : list Z) (cs : list aop) : Prop :=
  match cs with
  | [] => True
  | c :: cs' => alegal up ((fun d => (d, [])) <$> ds) c /\
      alawful up (match c with Enter d => d :: ds | Leave => tail ds | Alloca _ _ _ _ => ds end) cs'
  end.
Theorem C99_programs : forall up d cs, alawful up [d] cs ->
  match (run astep ([(d, [])], astart) cs).2 with
  | Ret (fs, s) => exists g, areach up fs s g
  | Fatal => exists c, cs !! length (run astep ([(d, [])], astart) cs).1 = Some c /\ acan c
  | _ => False
  end.
Proof.
  intros up d cs. assert (H : forall ds fs s g, areach up fs s g -> fs.*1 = ds -> alawful up ds cs ->
    match (run astep (fs, s) cs).2 with
    | Ret (fs, s) => exists g, areach up fs s g
    | Fatal => exists c, cs !! length (run astep (fs, s) cs).1 = Some c /\ acan c
    | _ => False
    end).
  2:{ intros Hl. apply (H [d] [(d, [])] astart []); [constructor|done|exact Hl]. }
  induction cs as [|c cs IH]; intros ds fs s g Hr Hd Hl; [cbn; eauto|]. destruct Hl as [Hc Hl]. cbn [run].
  assert (Hc' : alegal up fs c).
  { subst ds. destruct c as [e| |al d1 d2 n]; cbn [alegal] in *; destruct fs as [|[e0 bs0] [|f fs]]; cbn in *; try done; destruct Hc as (? & ? & Hc); try done. }
  destruct c as [d'| |al d1 d2 n].
  - cbn [astep fst snd]. specialize (IH (d' :: ds) ((d', []) :: fs) s g (ar_enter _ _ _ _ _ Hr Hc')). destruct (run astep ((d', []) :: fs, s) cs) as [ps r].
    cbn [fst snd length] in *. apply IH; [cbn; by rewrite Hd|exact Hl].
  - destruct fs as [|f fs]; [done|]. cbn [astep fst snd]. specialize (IH (tail ds) fs s g (ar_leave _ _ _ _ _ Hr Hc')). destruct (run astep (fs, s) cs) as [ps r].
    cbn [fst snd length] in *. apply IH; [by subst ds|exact Hl].
  - destruct fs as [|[d0 bs] fs]; [by destruct Hc' as (_ & _ & ?)|]. cbn [astep fst snd]. pose proof (reach_inv _ _ _ _ Hr) as I. pose proof Hc' as (H1 & H2 & _).
    pose proof (alloca_spec _ _ _ _ _ _ _ _ _ n I H1 H2) as Hs. destruct (alloca al s d0 d1 d2 n) as [[s' p]| | | |] eqn:E; cbn [ok] in Hs; try done; cbn [mbind res_bind].
    + assert (Hr' : exists g', areach up ((d0, bs ++ option_list p) :: fs) s' g').
      { destruct p as [a|]; [eexists; by eapply ar_new|]. exists (keep up d0 g). cbn [option_list]. rewrite app_nil_r. by eapply ar_null. }
      destruct Hr' as [g' Hr']. specialize (IH ds _ _ _ Hr'). destruct (run astep ((d0, bs ++ option_list p) :: fs, s') cs) as [ps r].
      cbn [fst snd length] in *. apply IH; [by rewrite <- Hd|exact Hl].
    + cbn [fst snd length]. exists (Alloca al d1 d2 n). done.
Qed.
Print Assumptions C99_programs.

(** What it does not promise: blocks of functions that returned stay while alloca
    is called only from as deep in the stack, so a loop that calls a function
    using alloca keeps all of its blocks, until alloca is called further up. *)
Theorem C99_loop_keeps_all : forall up d d' d1 d2 al k n s, beyond up d' d -> beyond up d2 d1 -> malloc_ok al -> u32 k <> 0%N ->
  (run astep ([(d, [])], astart) (concat (replicate n [Enter d'; Alloca al d1 d2 k; Leave]))).2 = Ret ([(d, [])], s) ->
  size (blocks s) = n.
Proof.
  intros up d d' d1 d2 al k n s Hd Hd2 Hal Hk.
  assert (H : forall m s0 g, areach up [(d, [])] s0 g -> Forall (fun b => b.1.2 = d') g ->
    (run astep ([(d, [])], s0) (concat (replicate m [Enter d'; Alloca al d1 d2 k; Leave]))).2 = Ret ([(d, [])], s) ->
    size (blocks s) = (length g + m)%nat).
  2:{ intros E. apply (H n astart []); [constructor|constructor|exact E]. }
  induction m as [|m IH]; intros s0 g Hr Hg E.
  - cbn in E. injection E as <-. pose proof (reach_inv _ _ _ _ Hr) as I. rewrite (size_chain (blocks s0) g); [lia|apply I|apply I|].
    intros a d0 k0 Hin. destruct (chain_in _ _ _ (ai_chain _ _ _ _ I) a d0 k0 Hin) as [q ->]. eauto.
  - cbn [replicate concat app] in E. cbn [run] in E. cbn [astep fst snd] in E.
    assert (Hr1 : areach up [(d', []); (d, [])] s0 g) by (by apply ar_enter).
    assert (Hl : alegal up [(d', []); (d, [])] (Alloca al d1 d2 k)) by (split; [done|split; done]).
    pose proof (reach_inv _ _ _ _ Hr1) as I. pose proof (alloca_spec _ _ _ _ _ _ _ _ _ k I Hal Hd2) as Hs.
    destruct (alloca al s0 d' d1 d2 k) as [[s' [a|]]| | | |] eqn:Ea; cbn [ok] in Hs; cbn [mbind res_bind] in E; try done.
    2:{ by destruct Hs. }
    cbn [app option_list fst snd] in E. pose proof (ar_new _ _ _ _ _ _ _ _ _ _ _ _ Hr1 Hl Ea) as Hr2. cbn [app] in Hr2.
    assert (Hr3 : areach up [(d, [])] s' ((a, d', u32 k) :: keep up d' g)) by (by apply (ar_leave _ _ _ _ _ Hr2)).
    rewrite keep_all in Hr3.
    2:{ eapply Forall_impl; [exact Hg|]. intros b ->. apply beyond_irr. }
    cbv beta iota in E. match type of E with context [run ?f ?x ?l] => destruct (run f x l) as [ps r] eqn:Er end. cbn [fst snd] in E.
    rewrite (IH s' _ Hr3); [cbn [length]; lia|by constructor|]. transitivity r; [|exact E]. exact (f_equal snd Er).
Qed.
Print Assumptions C99_loop_keeps_all.
(** And if two calls from one function find the stack at different depths (the
    second while less is on the stack), the second frees the block of the first,
    although the function has not returned. *)
Theorem C99_pitfall : forall up d d' d1 d2 al al' k k' s a s' p, beyond up d' d -> beyond up d2 d1 -> malloc_ok al -> malloc_ok al' ->
  alloca al astart d' d1 d2 k = Ret (s, Some a) -> alloca al' s d d1 d2 k' = Ret (s', p) -> p = Some a \/ blocks s' !! a = None.
Proof.
  intros up d d' d1 d2 al al' k k' s a s' p Hd Hd2 Hal Hal' E E'.
  assert (Hr : areach up [(d', []); (d, [])] astart []) by (apply ar_enter; [constructor|done]).
  assert (Hr1 : areach up [(d', [a]); (d, [])] s [(a, d', u32 k)]) by (eapply (ar_new up d' [] _ _ [] al d1 d2 k); [exact Hr|split; [done|split; done]|exact E]).
  assert (Hr2 : areach up [(d, [])] s [(a, d', u32 k)]) by (by apply (ar_leave _ _ _ _ _ Hr1)).
  assert (Hl : alegal up [(d, [])] (Alloca al' d1 d2 k')) by (split; [done|split; done]).
  pose proof (C99_call up d [] [] s _ al' d1 d2 k' Hr2 Hl) as Hc. rewrite E' in Hc. cbn [ok] in Hc. destruct Hc as (_ & _ & Hc).
  destruct (decide (p = Some a)) as [|Hne]; [by left|right]. destruct (blocks s' !! a) as [h|] eqn:Eh; [|done]. exfalso.
  destruct (proj1 (Hc a Hne)) as (d'' & k'' & Hin & Hnb); [eauto|]. apply elem_of_list_singleton in Hin as [= -> ->]. done.
Qed.
Print Assumptions C99_pitfall.

(** ** A concrete program on a stack that grows downward: main calls f, which calls g; later main collects *)
Definition ex_acalls : list aop :=
  [Alloca bump 900 800 10; Enter 500; Alloca bump 900 800 20; Enter 400; Alloca bump 900 800 30; Alloca bump 900 800 0; Leave; Alloca bump 900 800 40;
   Leave; Enter 500; Alloca bump 900 800 50; Leave]%Z%N.
Example ex_acalls_legal : alawful false [1000] ex_acalls.
Proof.
  unfold ex_acalls. generalize (@bump_ok header). generalize (@bump header). intros al Hal.
  repeat first [exact I | split; [first [exact I|reflexivity|split; [exact Hal|split; [reflexivity|discriminate]]]|]].
Qed.
Definition left_over (r : res astate) : list (positive * N) := match r with Ret (_, s) => (fun '(a, h) => (a, h_bytes h)) <$> map_to_list (blocks s) | _ => [] end.
Example ex_acalls_run :
  let r := run astep ([(1000, [])], astart) ex_acalls in
  r.1 = [Some 1; None; Some 2; None; Some 3; None; None; Some 3; None; None; Some 4; None]%positive /\
  left_over r.2 = [(1%positive, 26); (2%positive, 36); (4%positive, 66); (3%positive, 56)]%N.
Proof. vm_compute. split; reflexivity. Qed.
Example ex_acalls_main :
  left_over (run astep ([(1000, [])], astart) (ex_acalls ++ [Alloca bump 900 800 0])).2 = [(1%positive, 26)]%N.
Proof. vm_compute. reflexivity. Qed.
