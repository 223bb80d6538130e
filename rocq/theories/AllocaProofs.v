(** C99: proofs about alloca. *)
From Coq Require Import Sorting.Sorted.
From Verif Require Import Base Trace AllocaModel AllocaSpec.
Local Open Scope Z_scope.

Notation addrs g := ((fun b : block => b.1.1) <$> g).
Definition dir_of (up : bool) : Z := if up then 1 else -1.
Lemma deeper_beyond up a b : deeper (dir_of up) a b = true <-> beyond up a b.
Proof. unfold deeper, dir_of, beyond. destruct up; cbn; rewrite ?orb_false_r, ?andb_true_l, ?orb_false_l; apply Z.ltb_lt. Qed.
Lemma beyond_trans up a b c : beyond up a b -> beyond up b c -> beyond up a c.
Proof. unfold beyond. destruct up; lia. Qed.
Lemma beyond_irr up a : ~ beyond up a a.
Proof. unfold beyond. destruct up; lia. Qed.
Lemma not_beyond up a b c : ~ beyond up a b -> beyond up c b -> beyond up c a.
Proof. unfold beyond. destruct up; lia. Qed.
Lemma not_beyond_trans up a b c : ~ beyond up a b -> ~ beyond up b c -> ~ beyond up a c.
Proof. unfold beyond. destruct up; lia. Qed.

(** the chain of headers *)
Fixpoint chain (H : gmap positive header) (p : ptr) (g : list block) : Prop :=
  match g with
  | [] => p = None
  | (a, d, k) :: g' => p = Some a /\ exists q, H !! a = Some (Hdr q d (16 + k)) /\ chain H q g'
  end.
Definition only (H : gmap positive header) (g : list block) : Prop := forall a, is_Some (H !! a) -> a ∈ addrs g.
Lemma chain_in H p g : chain H p g -> forall a d k, (a, d, k) ∈ g -> exists q, H !! a = Some (Hdr q d (16 + k)).
Proof.
  revert p. induction g as [|[[a d] k] g IH]; intros p Hc a' d' k' Hin; [by apply elem_of_nil in Hin|].
  destruct Hc as (_ & q & Ha & Hc). apply elem_of_cons in Hin as [[= -> -> ->]|Hin]; [by exists q|by eapply IH].
Qed.
Lemma chain_delete H p g a : a ∉ addrs g -> chain H p g -> chain (delete a H) p g.
Proof.
  revert p. induction g as [|[[b d] k] g IH]; intros p Hn Hc; [done|]. destruct Hc as (-> & q & Hb & Hc).
  rewrite fmap_cons in Hn. apply not_elem_of_cons in Hn as [H1 H2]. split; [done|]. exists q. split; [|by apply IH].
  rewrite lookup_delete_ne; [done|]. cbn in H1. congruence.
Qed.
Lemma chain_insert H p g a x : a ∉ addrs g -> chain H p g -> chain (<[a := x]> H) p g.
Proof.
  revert p. induction g as [|[[b d] k] g IH]; intros p Hn Hc; [done|]. destruct Hc as (-> & q & Hb & Hc).
  rewrite fmap_cons in Hn. apply not_elem_of_cons in Hn as [H1 H2]. split; [done|]. exists q. split; [|by apply IH].
  rewrite lookup_insert_ne; [done|]. cbn in H1. congruence.
Qed.
(** the block obtained last is the deepest *)
Definition falling (up : bool) (g : list block) : Prop := StronglySorted (fun b c => ~ beyond up c.1.2 b.1.2) g.
Lemma keep_all up d g : Forall (fun b => ~ beyond up b.1.2 d) g -> keep up d g = g.
Proof. induction 1 as [|b g Hb _ IH]; [done|]. unfold keep in *. rewrite filter_cons, decide_True by done. by rewrite IH. Qed.
Lemma keep_sub up d g b : b ∈ keep up d g <-> ~ beyond up b.1.2 d /\ b ∈ g.
Proof. unfold keep. by rewrite elem_of_list_filter. Qed.
Lemma keep_addrs up d g : NoDup (addrs g) -> NoDup (addrs (keep up d g)).
Proof.
  induction g as [|b g IH]; [done|]. intros Hn. apply NoDup_cons in Hn as [H1 H2]. unfold keep. rewrite filter_cons. destruct (decide _); [|by apply IH].
  rewrite fmap_cons. apply NoDup_cons. split; [|by apply IH]. intros Hin. apply H1. apply elem_of_list_fmap in Hin as (c & -> & Hc).
  apply elem_of_list_filter in Hc as [_ Hc]. apply elem_of_list_fmap. by exists c.
Qed.
Lemma keep_falling up d g : falling up g -> falling up (keep up d g).
Proof.
  induction 1 as [|b g Hs IH Hb]; [constructor|]. unfold keep. rewrite filter_cons. destruct (decide _); [|exact IH].
  constructor; [exact IH|]. apply Forall_forall. intros c Hc. apply elem_of_list_filter in Hc as [_ Hc]. by eapply Forall_forall in Hb.
Qed.
Lemma reclaim_spec up d : forall g n H p, (length g < n)%nat -> chain H p g -> only H g -> NoDup (addrs g) -> falling up g ->
  exists H' p', reclaim n H p (dir_of up) d = Ret (H', p') /\ chain H' p' (keep up d g) /\ only H' (keep up d g) /\
    (forall a, a ∉ addrs g -> H' !! a = H !! a).
Proof.
  induction g as [|[[a d0] k] g IH]; intros n H p Hn Hc Ho Hnd Hf; (destruct n as [|n]; [cbn in Hn; lia|]); cbn [reclaim].
  - cbn in Hc. subst p. by exists H, None.
  - destruct Hc as (-> & q & Ha & Hc). rewrite (hget_Some _ _ _ Ha). rb. cbn [h_deep h_next].
    rewrite fmap_cons in Hnd. apply NoDup_cons in Hnd as [Hna Hnd]. inversion Hf as [|? ? Hf1 Hf2]; subst. cbn [fst] in Hna.
    destruct (deeper (dir_of up) d0 d) eqn:E.
    + apply deeper_beyond in E. unfold hfree. rewrite Ha. rb.
      destruct (IH n (delete a H) q) as (H' & p' & E' & J1 & J2 & J3).
      * cbn in Hn. lia.
      * by apply chain_delete.
      * intros b Hb. destruct (decide (b = a)) as [->|Hne]; [rewrite lookup_delete in Hb; by destruct Hb|]. rewrite lookup_delete_ne in Hb by done.
        specialize (Ho b Hb). rewrite fmap_cons in Ho. apply elem_of_cons in Ho as [|]; [done|done].
      * done.
      * done.
      * exists H', p'. split; [exact E'|]. assert (Ek : keep up d ((a, d0, k) :: g) = keep up d g) by (unfold keep; rewrite filter_cons, decide_False by (cbn; tauto); done).
        rewrite Ek. split; [done|]. split; [done|]. intros b Hb. rewrite fmap_cons in Hb. apply not_elem_of_cons in Hb as [Hb1 Hb2]. rewrite J3 by done.
        apply lookup_delete_ne. cbn in Hb1. congruence.
    + assert (Hnb : ~ beyond up d0 d) by (intros Hb; apply deeper_beyond in Hb; congruence). exists H, (Some a). split; [done|].
      rewrite keep_all; [split; [|done]; split; [done|eauto]|]. constructor; [done|]. eapply Forall_impl; [exact Hf2|].
      intros [[b db] kb] Hb. cbn [fst snd] in *. by eapply not_beyond_trans.
Qed.

Record ainv (up : bool) (fs : list frame) (s : ast) (g : list block) : Prop := {
  ai_dir : (stack_dir s = 0 /\ fsd_addr s = None) \/ stack_dir s = dir_of up;
  ai_chain : chain (blocks s) (last_header s) g;
  ai_only : only (blocks s) g;
  ai_nodup : NoDup (addrs g);
  ai_falling : falling up g;
  ai_frames : StronglySorted (fun f f' : frame => beyond up f.1 f'.1) fs;
  ai_own : forall d bs a, (d, bs) ∈ fs -> a ∈ bs -> exists k, (a, d, k) ∈ g;
  ai_apart : NoDup (concat fs.*2);
  ai_main : exists d0 bs0, last fs = Some (d0, bs0) /\ forall a d k, (a, d, k) ∈ g -> beyond up d d0 \/ (d = d0 /\ a ∈ bs0);
}.
Lemma size_chain H g : only H g -> NoDup (addrs g) -> (forall a d k, (a, d, k) ∈ g -> is_Some (H !! a)) -> size H = length g.
Proof.
  intros Ho Hn Hi. rewrite <- size_dom. replace (dom H) with (list_to_set (addrs g) : gset positive).
  - rewrite size_list_to_set by done. by rewrite fmap_length.
  - apply set_eq. intros a. rewrite elem_of_list_to_set, elem_of_dom. split; [|apply Ho]. intros Ha. apply elem_of_list_fmap in Ha as ([[a' d] k] & -> & Hb). by eapply Hi.
Qed.
(** the direction is found the first time *)
Lemma dir_found up s d1 d2 : (stack_dir s = 0 /\ fsd_addr s = None) \/ stack_dir s = dir_of up -> beyond up d2 d1 ->
  let s1 := if stack_dir s =? 0 then find_stack_direction s d1 d2 else s in
  stack_dir s1 = dir_of up /\ blocks s1 = blocks s /\ last_header s1 = last_header s.
Proof.
  intros Hd Hb. cbn zeta. destruct (Z.eqb_spec (stack_dir s) 0) as [E|E].
  - destruct Hd as [[_ Hd]|Hd]; [|rewrite E in Hd; by destruct up]. unfold find_stack_direction. rewrite Hd. cbn. split; [|done].
    unfold beyond, dir_of in *. destruct up; destruct (Z.ltb_spec d1 d2); lia.
  - destruct Hd as [[Hd _]|Hd]; [done|]. done.
Qed.
Lemma alloca_spec up fs s g d bs al d1 d2 n : ainv up ((d, bs) :: fs) s g -> malloc_ok al -> beyond up d2 d1 ->
  ok (fun '(s', p) => match p with
                      | None => u32 n = 0%N /\ ainv up ((d, bs) :: fs) s' (keep up d g)
                      | Some a => u32 n <> 0%N /\ a ∉ addrs (keep up d g) /\ ainv up ((d, bs ++ [a]) :: fs) s' ((a, d, u32 n) :: keep up d g)
                      end)
     (exists H, al H = None) (alloca al s d d1 d2 n).
Proof.
  intros [Hdir Hc Ho Hnd Hf Hfr Hown Hap Hmain] Hal Hd. destruct (dir_found up s d1 d2 Hdir Hd) as (E1 & E2 & E3). unfold alloca. cbn zeta.
  rewrite E1, E2, E3.
  destruct (reclaim_spec up d g (S (size (blocks s))) (blocks s) (last_header s)) as (H & p & E & J1 & J2 & J3); try done.
  { rewrite (size_chain (blocks s) g); [lia|done|done|]. intros a d' k Hin. destruct (chain_in _ _ _ Hc a d' k Hin) as [q ->]. eauto. }
  rewrite E. rb. generalize (fsd_addr (if stack_dir s =? 0 then find_stack_direction s d1 d2 else s)). intros fa.
  inversion Hfr as [|? ? Hfr1 Hfr2]; subst.
  assert (Hown' : forall d' bs' a, (d', bs') ∈ (d, bs) :: fs -> a ∈ bs' -> exists k, (a, d', k) ∈ keep up d g).
  { intros d' bs' a Hin Ha. destruct (Hown d' bs' a Hin Ha) as [k Hk]. exists k. apply keep_sub. split; [|done]. cbn [fst snd].
    apply elem_of_cons in Hin as [[= -> ->]|Hin]; [apply beyond_irr|]. eapply Forall_forall in Hfr2; [|exact Hin]. cbn [fst] in Hfr2.
    intros Hx. by apply (beyond_irr up d), (beyond_trans up d d' d). }
  assert (Hmain' : exists d0 bs0, last ((d, bs) :: fs) = Some (d0, bs0) /\ forall a d' k, (a, d', k) ∈ keep up d g -> beyond up d' d0 \/ (d' = d0 /\ a ∈ bs0)).
  { destruct Hmain as (d0 & bs0 & Hl & Hm). exists d0, bs0. split; [done|]. intros a d' k Hk. apply keep_sub in Hk as [_ Hk]. by eapply Hm. }
  destruct (N.eqb_spec (u32 n) 0) as [En|En].
  { cbn [ok]. split; [done|]. split; cbn [stack_dir blocks last_header fsd_addr]; try done.
    - by right.
    - by apply keep_addrs.
    - by apply keep_falling. }
  destruct (al H) as [a|] eqn:Ea; cbn [ok]; [|by exists H].
  pose proof (Hal _ _ Ea) as Hfresh.
  assert (Hna : a ∉ addrs (keep up d g)).
  { intros Hin. apply elem_of_list_fmap in Hin as ([[a' d'] k] & -> & Hk). destruct (chain_in _ _ _ J1 a' d' k Hk) as [q Hq]. cbn in Hfresh. congruence. }
  split; [done|]. split; [done|].
  split; cbn [stack_dir blocks last_header fsd_addr].
  - by right.
  - split; [done|]. exists p. split; [apply lookup_insert|]. by apply chain_insert.
  - intros b Hb. rewrite fmap_cons. apply elem_of_cons. destruct (decide (b = a)) as [->|Hne]; [by left|right]. rewrite lookup_insert_ne in Hb by done. by apply J2.
  - rewrite fmap_cons. apply NoDup_cons. split; [done|by apply keep_addrs].
  - constructor; [by apply keep_falling|]. apply Forall_forall. intros b Hb. by apply keep_sub in Hb as [Hb _].
  - constructor; done.
  - intros d' bs' b Hin Hb. apply elem_of_cons in Hin as [[= -> ->]|Hin].
    + apply elem_of_app in Hb as [Hb|Hb].
      * destruct (Hown' d bs b) as [k Hk]; [left|done|]. exists k. by right.
      * apply elem_of_list_singleton in Hb as ->. exists (u32 n). left.
    + destruct (Hown' d' bs' b) as [k Hk]; [by right|done|]. exists k. by right.
  - rewrite fmap_cons in *. cbn [concat snd] in *. rewrite <- app_assoc. apply NoDup_app in Hap as (A1 & A2 & A3). apply NoDup_app. split; [done|].
    assert (Hnc : forall d' bs', (d', bs') ∈ (d, bs) :: fs -> a ∉ bs').
    { intros d' bs' Hin Ha. destruct (Hown' d' bs' a Hin Ha) as [k Hk]. apply Hna. apply elem_of_list_fmap. by exists (a, d', k). }
    assert (Hnf : a ∉ concat fs.*2).
    { intros Ha. apply elem_of_list_In, in_concat in Ha as (bs' & Hin & Ha). apply elem_of_list_In in Hin, Ha. apply elem_of_list_fmap in Hin as ([d' bs''] & -> & Hin).
      apply (Hnc d' bs''); [by right|done]. }
    split.
    + intros b Hb Hb'. apply elem_of_app in Hb' as [Hb'|Hb']; [|by apply (A2 b)]. apply elem_of_list_singleton in Hb' as ->. apply (Hnc d bs); [left|done].
    + apply NoDup_app. split; [apply NoDup_singleton|]. split; [|done]. intros b Hb. by apply elem_of_list_singleton in Hb as ->.
  - destruct Hmain' as (d0 & bs0 & Hl & Hm). destruct fs as [|f fs].
    + cbn in Hl. injection Hl as <- <-. exists d, (bs ++ [a]). split; [done|]. intros b d' k Hb. apply elem_of_cons in Hb as [[= -> -> ->]|Hb].
      * right. split; [done|]. apply elem_of_app. right. left.
      * destruct (Hm b d' k Hb) as [|[-> Hin]]; [by left|right]. split; [done|]. apply elem_of_app. by left.
    + exists d0, bs0. split; [exact Hl|]. intros b d' k Hb. apply elem_of_cons in Hb as [[= -> -> ->]|Hb]; [|by apply (Hm b d' k)].
      left. change (last (f :: fs) = Some (d0, bs0)) in Hl. assert (Hin : (d0, bs0) ∈ f :: fs) by (apply last_Some_elem_of; exact Hl).
      eapply Forall_forall in Hfr2; [|exact Hin]. done.
Qed.
Lemma reach_inv up fs s g : areach up fs s g -> ainv up fs s g.
Proof.
  induction 1 as [d|fs s g d Hr [Hdir Hc Ho Hnd Hf Hfr Hown Hap Hmain] Hl|f fs s g Hr [Hdir Hc Ho Hnd Hf Hfr Hown Hap Hmain] Hl
    |d bs fs s g al d1 d2 n s' Hr IH Hl E|d bs fs s g al d1 d2 n s' a Hr IH Hl E].
  - split; cbn; try done.
    + by left.
    + by intros a [x Hx].
    + constructor.
    + constructor.
    + repeat constructor.
    + intros d' bs a Hin. apply elem_of_list_singleton in Hin as [= -> ->]. intros Ha. by apply elem_of_nil in Ha.
    + constructor.
    + exists d, []. split; [done|]. intros a d' k Hk. by apply elem_of_nil in Hk.
  - split; try done.
    + destruct fs as [|[d0 bs0] fs]; [done|]. cbn [alegal] in Hl. constructor; [done|]. inversion Hfr as [|? ? H1 H2]; subst. constructor; [done|].
      eapply Forall_impl; [exact H2|]. intros [d' bs'] Hd. cbn [fst] in *. by eapply beyond_trans.
    + intros d' bs a Hin Ha. apply elem_of_cons in Hin as [[= -> ->]|Hin]; [by apply elem_of_nil in Ha|by eapply Hown].
    + destruct Hmain as (d0 & bs0 & Hla & Hm). exists d0, bs0. split; [|done]. destruct fs; [done|]. exact Hla.
  - split; try done.
    + by inversion Hfr.
    + intros d' bs a Hin. apply Hown. by right.
    + rewrite fmap_cons in Hap. cbn [concat] in Hap. by apply NoDup_app in Hap as (_ & _ & ?).
    + destruct Hmain as (d0 & bs0 & Hla & Hm). exists d0, bs0. split; [|done]. destruct fs; [done|]. exact Hla.
  - destruct Hl as (H1 & H2 & _). pose proof (alloca_spec _ _ _ _ _ _ _ _ _ n IH H1 H2) as Hs. rewrite E in Hs. by destruct Hs.
  - destruct Hl as (H1 & H2 & _). pose proof (alloca_spec _ _ _ _ _ _ _ _ _ n IH H1 H2) as Hs. rewrite E in Hs. by destruct Hs as (_ & _ & ?).
Qed.
