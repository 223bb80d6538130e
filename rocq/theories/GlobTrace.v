(** C87, whole programs: any sequence of calls of the functions that work on the global string
    pool (str_find, str_findn, str_exists, str_copy, str_copyn, str_grow, str_finish, str_unique,
    str_destroy, str_get_stats). *)
From Verif Require Import Base Trace ListLemmas CStr StackModel StackProofs ObjModel ObjProofs MemModel MemProofs MemHist.
From Verif Require Import HashModel HashSpec HashProofs HashHist HashFnModel HashFnProofs StrModel StrProofs StrHist StrTrace.
Local Open Scope nat_scope.

(** The calls.  A string is named by its number in the order in which the pool first returned it,
    counted from the creation of the pool.  [rest]: what follows the argument in memory. *)
Inductive gop :=
| GFind (al : palloc) (s rest : list N)
| GFindn (al : palloc) (src : list N) (len : Z)
| GExists (s rest : list N)
| GCopy (al : palloc) (s rest : list N)
| GCopyn (al : palloc) (src : list N) (len : Z)
| GGrow (al : palloc) (src : list N) (len : Z)
| GFinish (al : palloc)
| GUnique (al : palloc) (prefix rest : list N)
| GDestroy
| GRead (n : nat)                     (* the bytes of the [n]-th string *)
| GStats (al : palloc).               (* str_get_stats: count and bytes *)

(** ** the model: the program keeps the pointers it was given *)
Definition gstate : Type := list positive * pworld.
Definition gnamed (l : list positive) (r : pworld * positive) : res (gstate * pres) :=
  let '(l', n) := known l r.2 in Ret ((l', r.1), PName n).
Definition gstep (st : gstate) (c : gop) : res (gstate * pres) :=
  let '(l, w) := st in
  match c with
  | GFind al s rest => r ← str_find al w (s ++ 0%N :: rest); gnamed l r
  | GFindn al src len => r ← str_findn al w src len; gnamed l r
  | GExists s rest => '(w', z) ← str_exists w (s ++ 0%N :: rest); Ret ((l, w'), PInt z)
  | GCopy al s rest => r ← str_copy al w (s ++ 0%N :: rest); gnamed l r
  | GCopyn al src len => r ← str_copyn al w src len; gnamed l r
  | GGrow al src len => w' ← str_grow al w src len; Ret ((l, w'), PDone)
  | GFinish al => r ← str_finish al w; gnamed l r
  | GUnique al prefix rest => r ← str_unique al w (prefix ++ 0%N :: rest); gnamed l r
  | GDestroy => '(w', _) ← str_destroy w; Ret (([], w'), PDone)
  | GRead n => match l !! n with Some a => b ← hget (mblk (pmem w)) a; Ret ((l, w), PBytes b) | None => UB end
  | GStats al => '(c, b, _, _, _) ← str_get_stats true al w; Ret ((l, w), PCount c b)
  end.

(** ** the specification: the pool, if there is one (StrTrace.psp: the contents of the strings
    handed out, the numbers of the interned ones, the bytes being grown, the number of bytes),
    and the next number of str_unique *)
Record gsp := GSp { gpool : option psp; next : Z }.
Definition no_strings : psp := PSp [] ∅ [] 0.
(** the string, up to a NUL, in the first [len] bytes *)
Definition first_of (src : list N) (len : Z) : list N := upto_nul (take (Z.to_nat len) src).
Definition find_in (P : psp) (s : list N) : psp * nat :=
  match interned P !! s with
  | Some k => (P, k)
  | None => (intern (with_new P (s ++ [0%N]) (Z.of_nat (length s) + 1)) s (length (objs P)), length (objs P))
  end.
(** the first number from [n] on that is free, [fuel] of them at most being taken *)
Fixpoint free_from (fuel : nat) (P : psp) (prefix : list N) (n : Z) : Z :=
  match fuel with
  | O => n
  | S f => match interned P !! (prefix ++ c_itoa n) with Some _ => free_from f P prefix (n + 1)%Z | None => n end
  end.
Definition gspec (g : gsp) (c : gop) : res (gsp * pres) :=
  let P := default no_strings (gpool g) in        (* for the calls that create the pool *)
  let put (x : psp * nat) : res (gsp * pres) := Ret (GSp (Some x.1) (next g), PName x.2) in
  let need {A} (f : psp -> res A) : res A := match gpool g with Some P => f P | None => UB end in
  match c with
  | GFind _ s _ => put (find_in P s)
  | GFindn _ src len => put (find_in P (first_of src len))
  | GExists s _ => need (fun P => Ret (g, PInt (match interned P !! s with Some _ => 1 | None => 0 end)))
  | GCopy _ s _ => put (with_new P (s ++ [0%N]) (Z.of_nat (length s) + 1), length (objs P))
  | GCopyn _ src len => need (fun P => put (with_new P (take (Z.to_nat len + 1) src) (len + 1), length (objs P)))
  | GGrow _ src len =>
      Ret (GSp (Some (PSp (objs P) (interned P) (growing P ++ take (Z.to_nat len) src) (nbytes P + len)%Z)) (next g), PDone)
  | GFinish _ =>
      let k := length (objs P) in let s := upto_nul (growing P) in
      let P' := with_new P (growing P ++ [0; 0]%N) 2 in
      put (match interned P !! s with Some _ => P' | None => intern P' s k end, k)
  | GUnique _ prefix _ => need (fun P =>
      let n := free_from (size (interned P)) P prefix (next g) in
      let x := find_in P (prefix ++ c_itoa n) in
      Ret (GSp (Some x.1) (n + 1), PName x.2))
  | GDestroy => Ret (GSp None (next g), PDone)
  | GRead n => match gpool g ≫= (fun P => objs P !! n) with Some b => Ret (g, PBytes b) | None => UB end
  | GStats _ => match gpool g with
                | Some P => Ret (g, PCount (Z.of_nat (length (objs P))) (nbytes P))
                | None => Ret (g, PCount 0 0)
                end
  end.
(** malloc returns fresh addresses, and does not fail for the nodes of the pool's stack; arguments
    are strings (for the length-counted calls: readable); the int counters have room *)
Definition groom (g : gsp) (n : Z) : Prop :=
  let P := default no_strings (gpool g) in (Z.of_nat (length (objs P)) + 1 < 2 ^ 31)%Z /\ (nbytes P + n < 2 ^ 31)%Z.
(** the argument of str_findn is readable: [len] bytes, or a string *)
Definition readable (src : list N) (len : Z) : Prop :=
  Forall byte_ok src /\ ((len <= Z.of_nat (length src))%Z \/ 0%N ∈ src).
Definition glegal (g : gsp) (c : gop) : Prop :=
  match c with
  | GFind al s _ | GCopy al s _ => palloc_ok al /\ str_ok s /\ groom g (Z.of_nat (length s) + 1)
  | GFindn al src len => palloc_ok al /\ (0 <= len < 2 ^ 31 - 1)%Z /\ readable src len /\ groom g (Z.of_nat (length (first_of src len)) + 1)
  | GExists s _ => str_ok s
  | GCopyn al src len => palloc_ok al /\ (0 <= len < Z.of_nat (length src))%Z /\ groom g (len + 1)
  | GGrow al src len => palloc_ok al /\ (0 <= len <= Z.of_nat (length src))%Z /\ Forall byte_ok (take (Z.to_nat len) src) /\ groom g len
  | GFinish al => palloc_ok al /\ groom g 2
  | GUnique al prefix _ => palloc_ok al /\ str_ok prefix /\ groom g (Z.of_nat (length prefix) + 11) /\
      (next g + Z.of_nat (size (interned (default no_strings (gpool g)))) + 1 < 2 ^ 31)%Z
  | GDestroy | GRead _ => True
  | GStats _ => (Z.of_nat (length (objs (default no_strings (gpool g)))) < 2 ^ 31)%Z
  end.
(** the calls that can run out of memory *)
Definition gcan (c : gop) : Prop :=
  match c with
  | GFind al _ _ | GFindn al _ _ | GCopy al _ _ | GGrow al _ _ | GFinish al => gfail al
  | GCopyn al _ _ | GUnique al _ _ => pfail al
  | GStats al => blk_alloc (pa_hash al) 72 = false
  | _ => False
  end.

(** ** the relation *)
Definition grel (st : gstate) (g : gsp) : Prop :=
  exists G, pool_history st.2 G /\ uniq st.2 = next g /\
    match glob st.2 with
    | None => G = ∅ /\ gpool g = None /\ st.1 = []
    | Some p => exists q, G = {[p := q]} /\ gpool g = Some (absp q) /\ st.1 = addrs q /\ q_ro q = 0%Z
    end.

(** the counter of str_unique is not touched by the other calls *)
Lemma insert_uniq al w a d w' : pool_insert al w a d = Ret w' -> uniq w' = uniq w.
Proof.
  unfold pool_insert. intros H. ib H x E. ib H k E1. destruct (keys_live _ _); [|done]. ib H tz E2. destruct tz as [t z].
  injection H as <-. done.
Qed.
Lemma copy_uniq al w p s w' a : str_pool_copy al w p s = Ret (w', a) -> uniq w' = uniq w.
Proof. unfold str_pool_copy. intros H. ib H bx E. destruct bx as [b x]. ib H md E1. destruct md as [m d]. injection H as <- <-. done. Qed.
Lemma copyn_uniq al w p s n w' a : str_pool_copyn al w p s n = Ret (w', a) -> uniq w' = uniq w.
Proof. unfold str_pool_copyn. intros H. ib H bx E. destruct bx as [b x]. ib H md E1. destruct md as [m d]. injection H as <- <-. done. Qed.
Lemma grow_uniq al w p s n w' : str_pool_grow al w p s n = Ret w' -> uniq w' = uniq w.
Proof. unfold str_pool_grow. intros H. ib H bx E. destruct bx as [b x]. ib H m E1. injection H as <-. done. Qed.
Lemma finish_uniq al w p w' a : str_pool_finish al w p = Ret (w', a) -> uniq w' = uniq w.
Proof.
  unfold str_pool_finish. intros H. ib H bx E. destruct bx as [b x]. ib H m1 E1. ib H md E2. destruct md as [m2 [d|]]; [|done].
  ib H w3 E3. injection H as <- <-. apply insert_uniq in E3. exact E3.
Qed.
Lemma destroy_uniq w p w' H : str_pool_destroy w p = Ret (w', H) -> uniq w' = uniq w.
Proof. unfold str_pool_destroy. destruct p as [a|]; [|done]. intros E. ib E x E1. ib E m E2. ib E h E3. ib E q E4. injection E as <- <-. done. Qed.

(** ** one pool *)
Record gone (l : list positive) (w : pworld) (n : Z) (P : psp) (p : positive) (q : pgh) : Prop := {
  go_hist : pool_history w {[p := q]};
  go_next : uniq w = n;
  go_glob : glob w = Some p;
  go_pool : P = absp q;
  go_names : l = addrs q;
  go_ro : q_ro q = 0%Z }.
Lemma gone_grel l w n P p q : gone l w n P p q -> grel (l, w) (GSp (Some P) n).
Proof. intros [H1 H2 H3 -> -> H6]. exists {[p := q]}. cbn [fst snd gpool next]. rewrite H3. split; [done|]. split; [done|]. exists q. done. Qed.
Lemma grel_gone l w g p : grel (l, w) g -> glob w = Some p -> exists P q, gpool g = Some P /\ gone l w (next g) P p q.
Proof.
  intros (G & H1 & H2 & H3) Hgl. cbn [fst snd] in *. rewrite Hgl in H3. destruct H3 as (q & -> & H3 & H4 & H5). exists (absp q), q. done.
Qed.
Lemma grel_none l w g : grel (l, w) g -> glob w = None -> gpool g = None /\ l = [].
Proof. intros (G & H1 & H2 & H3) Hgl. cbn [fst snd] in *. rewrite Hgl in H3. tauto. Qed.
(** _str_check_global *)
Lemma check_one al l w g : grel (l, w) g -> palloc_ok al ->
  ok (fun w1 => exists p q, gone l w1 (next g) (default no_strings (gpool g)) p q) (gfail al) (check_global al w).
Proof.
  intros R Hal. destruct (glob w) as [p|] eqn:Hgl.
  - destruct (grel_gone _ _ _ _ R Hgl) as (P & q & -> & Hq). unfold check_global. rewrite Hgl. cbn [ok default]. by exists p, q.
  - destruct (grel_none _ _ _ R Hgl) as [-> ->]. destruct R as (G & H1 & H2 & H3). cbn [fst snd] in *. rewrite Hgl in H3. destruct H3 as (-> & _ & _).
    destruct (pool_history_inv w ∅ H1) as [GM I]. pose proof (pool_create_ok w ∅ GM al I Hal) as Hc.
    destruct (check_global al w) as [w1| | | |] eqn:E; unfold check_global in E; rewrite Hgl in E.
    + destruct (global_ok al w ∅ GM w1 I Hal Hgl) as (p & Hp & _ & Hu & _); [unfold check_global; by rewrite Hgl|].
      exists p, fresh_pool. split; try done; [|congruence]. eapply history_step; [exact H1|].
      change {[p := fresh_pool]} with (<[p := fresh_pool]> (∅ : gmap positive pgh)).
      eapply pc_global; [exact Hal|exact Hgl| |exact Hp]. unfold check_global. by rewrite Hgl.
    + destruct (str_pool_create al w) as [[? ?]| | | |]; try discriminate E. cbn [ok] in *. by eapply create_gfail.
    + destruct (str_pool_create al w) as [[? ?]| | | |]; done.
    + destruct (str_pool_create al w) as [[? ?]| | | |]; done.
    + destruct (str_pool_create al w) as [[? ?]| | | |]; done.
Qed.

Section one.
Context (l : list positive) (w : pworld) (n : Z) (P : psp) (p : positive) (q : pgh) (R : gone l w n P p q).
Let Hg : ({[p := q]} : gmap positive pgh) !! p = Some q := lookup_singleton p q.
Lemma one_room g k : P = default no_strings (gpool g) -> groom g k -> room (q_mem q) k.
Proof using R.
  intros E [H1 H2]. destruct R. rewrite <- E, go_pool0 in H1, H2. unfold absp in H1, H2. cbn [objs nbytes] in H1, H2. rewrite fmap_length in H1. by split.
Qed.
Lemma one_int : NoDup (q_int q).*1 /\ forall c, c ∈ (q_int q).*2 -> c ∈ addrs q.
Proof using R. destruct R. split; [apply (int_nodup w _ go_hist0 p q Hg)|]. intros x. apply (int_done w _ go_hist0 p q Hg). Qed.
Lemma one_put q' w' n' : later (w, {[p := q]}) (w', <[p := q']> {[p := q]}) -> uniq w' = n' -> glob w' = Some p -> q_ro q' = 0%Z ->
  gone (addrs q') w' n' (absp q') p q'.
Proof using R. intros Hk Hu Hgl Hr. rewrite insert_singleton in Hk. destruct R. split; try done. by eapply history_later. Qed.
(** a new string *)
Lemma one_new q' w' n' a b k : later (w, {[p := q]}) (w', <[p := q']> {[p := q]}) -> uniq w' = n' -> glob w' = Some p -> a ∉ addrs q ->
  q_mem q' = stored (q_mem q) a b k -> q_ro q' = q_ro q ->
  known l a = (addrs q', length (objs P)) /\ gone (addrs q') w' n' (absp q') p q'.
Proof using R.
  intros Hk Hu Hgl Ha Hm Hr. split.
  - destruct R as [_ _ _ -> -> _]. unfold known. rewrite (proj2 (index_None a (addrs q)) Ha). unfold addrs, absp. rewrite Hm. cbn [stored s_done objs]. by rewrite fmap_app, !fmap_length.
  - apply one_put; try done. rewrite Hr. by destruct R.
Qed.
Lemma one_find al s rest : palloc_ok al -> str_ok s -> room (q_mem q) (Z.of_nat (length s) + 1) ->
  ok (fun r => exists l' P' k q', known l r.2 = (l', k) /\ find_in P s = (P', k) /\ gone l' r.1 n P' p q')
     (pfail al) (str_pool_find al w (Some p) (s ++ 0%N :: rest)).
Proof using R.
  intros Hal Hok Hrm. destruct one_int as [Hnd Hin]. pose proof R as [Hh Hu Hgl HP Hl Hro].
  destruct (pool_history_inv w _ Hh) as [GM I].
  assert (Hpre : assoc s (q_int q) = None -> q_ro q = 0%Z /\ room (q_mem q) (Z.of_nat (length s) + 1)) by done.
  pose proof (find_ok w _ GM I p q Hg al Hal s rest Hok Hpre) as Hf.
  destruct (str_pool_find al w (Some p) (s ++ 0%N :: rest)) as [[w' a]| | | |] eqn:E; cbn [ok] in Hf |- *; try done.
  destruct Hf as ((GM' & I') & Hgl' & Hu' & Hc). cbn [fst snd].
  assert (Hk : later (w, {[p := q]}) (w', <[p := found q s a]> {[p := q]})) by (apply rtc_once; by eapply pc_find).
  unfold find_in. rewrite HP, (absp_int q Hnd). unfold found in *. destruct (assoc s (q_int q)) as [b|] eqn:Ea; cbn [fmap option_fmap option_map].
  - destruct Hc as [-> _]. assert (Hb : b ∈ addrs q). { apply Hin. apply elem_of_list_fmap. exists (s, b). split; [done|by apply assoc_in]. }
    exists l, (absp q), (num q b), (asked q s). split; [rewrite Hl; unfold known; by rewrite (num_ok q b Hb)|]. split; [done|]. rewrite Hl.
    apply (one_put (asked q s) w' n Hk); [congruence|congruence|exact Hro].
  - assert (Ha : a ∉ addrs q).
    { destruct (wi_pool _ _ _ I' p _ (lookup_insert _ _ _)) as (x & _ & Ho). pose proof (sh_nodup _ _ (wi_mem _ _ _ I') _ _ (po_mem _ _ _ Ho)) as Hd.
      unfold entered in Hd. cbn [set_mem q_mem stored s_done] in Hd. rewrite fmap_app in Hd. apply NoDup_app in Hd as (_ & Hd & _).
      intros Hx. apply (Hd a Hx). left. }
    destruct (one_new _ w' n a (s ++ [0%N]) (Z.of_nat (length s) + 1)%Z Hk ltac:(congruence) ltac:(congruence) Ha eq_refl eq_refl) as [E2 Hr'].
    eexists _, _, _, _. split; [exact E2|]. rewrite HP. split; [|exact Hr']. f_equal. symmetry. apply (absp_entered q a _ _ s Hnd Hin Ha Ea).
Qed.
Lemma one_copy al s rest : palloc_ok al -> str_ok s -> room (q_mem q) (Z.of_nat (length s) + 1) ->
  ok (fun r => exists l' q', known l r.2 = (l', length (objs P)) /\ gone l' r.1 n (with_new P (s ++ [0%N]) (Z.of_nat (length s) + 1)) p q')
     (pfail al) (str_pool_copy al w (Some p) (s ++ 0%N :: rest)).
Proof using R.
  intros Hal Hok Hrm. destruct one_int as [Hnd Hin]. pose proof R as [Hh Hu Hgl HP Hl Hro].
  destruct (pool_history_inv w _ Hh) as [GM I]. pose proof (copy_ok w _ GM I p q Hg al Hal s rest Hok Hrm) as Hf.
  destruct (str_pool_copy al w (Some p) (s ++ 0%N :: rest)) as [[w' a]| | | |] eqn:E; cbn [ok] in Hf |- *; try done.
  destruct Hf as ((GM' & I') & Hc & _). cbn [fst snd].
  assert (Hk : later (w, {[p := q]}) (w', <[p := set_mem q (stored (q_mem q) a (s ++ [0%N]) (Z.of_nat (length s) + 1))]> {[p := q]})) by (apply rtc_once; by eapply pc_copy).
  assert (Ha : a ∉ addrs q).
  { intros Hx. apply elem_of_list_fmap in Hx as ([a' b] & Ex & Hx). cbn in Ex. subst a'. rewrite (done_memory w _ Hh p q Hg _ _ Hx) in Hc. done. }
  destruct (one_new _ w' n a (s ++ [0%N]) (Z.of_nat (length s) + 1)%Z Hk) as [E2 Hr']; [apply copy_uniq in E; congruence|apply copy_glob in E; congruence|exact Ha|reflexivity|reflexivity|].
  eexists _, _. split; [exact E2|]. rewrite (absp_stored q a _ _ Hin) in Hr'. rewrite HP. exact Hr'.
Qed.
Lemma one_copyn al src len : palloc_ok al -> (0 <= len < Z.of_nat (length src))%Z -> room (q_mem q) (len + 1) ->
  ok (fun r => exists l' q', known l r.2 = (l', length (objs P)) /\ gone l' r.1 n (with_new P (take (Z.to_nat len + 1) src) (len + 1)) p q')
     (pfail al) (str_pool_copyn al w (Some p) src len).
Proof using R.
  intros Hal Hok Hrm. destruct one_int as [Hnd Hin]. pose proof R as [Hh Hu Hgl HP Hl Hro].
  destruct (pool_history_inv w _ Hh) as [GM I]. pose proof (copyn_ok w _ GM I p q Hg al Hal src len Hok Hrm) as Hf.
  destruct (str_pool_copyn al w (Some p) src len) as [[w' a]| | | |] eqn:E; cbn [ok] in Hf |- *; try done.
  destruct Hf as ((GM' & I') & Hc & _). cbn [fst snd].
  assert (Hk : later (w, {[p := q]}) (w', <[p := set_mem q (stored (q_mem q) a (take (Z.to_nat len + 1) src) (len + 1))]> {[p := q]})) by (apply rtc_once; by eapply pc_copyn).
  assert (Ha : a ∉ addrs q).
  { intros Hx. apply elem_of_list_fmap in Hx as ([a' b] & Ex & Hx). cbn in Ex. subst a'. rewrite (done_memory w _ Hh p q Hg _ _ Hx) in Hc. done. }
  destruct (one_new _ w' n a (take (Z.to_nat len + 1) src) (len + 1)%Z Hk) as [E2 Hr']; [apply copyn_uniq in E; congruence|apply copyn_glob in E; congruence|exact Ha|reflexivity|reflexivity|].
  eexists _, _. split; [exact E2|]. rewrite (absp_stored q a _ _ Hin) in Hr'. rewrite HP. exact Hr'.
Qed.
Lemma one_grow al src len : palloc_ok al -> (0 <= len <= Z.of_nat (length src))%Z -> Forall byte_ok (take (Z.to_nat len) src) -> room (q_mem q) len ->
  ok (fun w' => exists q', gone l w' n (PSp (objs P) (interned P) (growing P ++ take (Z.to_nat len) src) (nbytes P + len)) p q')
     (pfail al) (str_pool_grow al w (Some p) src len).
Proof using R.
  intros Hal Hok Hb Hrm. pose proof R as [Hh Hu Hgl HP Hl Hro].
  destruct (pool_history_inv w _ Hh) as [GM I]. pose proof (grow_ok w _ GM I p q Hg al Hal src len Hok Hrm Hb) as Hf.
  destruct (str_pool_grow al w (Some p) src len) as [w'| | | |] eqn:E; cbn [ok] in Hf |- *; try done.
  eexists. rewrite Hl, HP. apply (one_put (set_mem q (MemHist.grown (q_mem q) (take (Z.to_nat len) src) len))); [apply rtc_once; by eapply pc_grow|apply grow_uniq in E; congruence|apply grow_glob in E; congruence|exact Hro].
Qed.
Lemma one_finish al : palloc_ok al -> room (q_mem q) 2 ->
  ok (fun r => exists l' q', known l r.2 = (l', length (objs P)) /\
        gone l' r.1 n (match interned P !! upto_nul (growing P) with
                       | Some _ => with_new P (growing P ++ [0; 0]%N) 2
                       | None => intern (with_new P (growing P ++ [0; 0]%N) 2) (upto_nul (growing P)) (length (objs P))
                       end) p q')
     (pfail al) (str_pool_finish al w (Some p)).
Proof using R.
  intros Hal Hrm. destruct one_int as [Hnd Hin]. pose proof R as [Hh Hu Hgl HP Hl Hro].
  pose proof (hist_finish w _ Hh p q Hg al Hal Hrm Hro) as Hf.
  destruct (str_pool_finish al w (Some p)) as [[w' a]| | | |] eqn:E; cbn [ok] in Hf |- *; try done.
  destruct Hf as (Hk & Ha & _). cbn [fst snd].
  assert (Hm : q_mem (finished q a) = stored (q_mem q) a (s_cur (q_mem q) ++ [0; 0]%N) 2).
  { unfold finished, entered, MemHist.grown, stored. cbn [set_mem q_mem s_done s_cur s_bytes]. f_equal. lia. }
  destruct (one_new _ w' n a (s_cur (q_mem q) ++ [0; 0]%N) 2%Z (keeps_later _ _ _ Hk)) as [E2 Hr']; [apply finish_uniq in E; congruence|apply finish_glob in E; congruence|exact Ha|exact Hm|reflexivity|].
  exists (addrs (finished q a)), (finished q a). split; [exact E2|]. rewrite HP, (absp_int q Hnd).
  assert (Hfin : finished q a = entered (set_mem q (stored (q_mem q) a (s_cur (q_mem q) ++ [0; 0]%N) 2)) (upto_nul (s_cur (q_mem q))) a).
  { unfold finished. f_equal. f_equal. rewrite <- Hm. reflexivity. }
  change (growing (absp q)) with (s_cur (q_mem q)). rewrite Hfin in Hr' |- *.
  destruct (assoc (upto_nul (s_cur (q_mem q))) (q_int q)) as [b|] eqn:Ea; cbn [fmap option_fmap option_map].
  - assert (Ee : entered (set_mem q (stored (q_mem q) a (s_cur (q_mem q) ++ [0; 0]%N) 2)) (upto_nul (s_cur (q_mem q))) a = set_mem q (stored (q_mem q) a (s_cur (q_mem q) ++ [0; 0]%N) 2)).
    { unfold entered. cbn [set_mem q_int]. rewrite Ea. reflexivity. }
    rewrite Ee in *. rewrite (absp_stored q a _ _ Hin) in Hr'. exact Hr'.
  - rewrite (absp_entered q a _ _ _ Hnd Hin Ha Ea) in Hr'. exact Hr'.
Qed.
Lemma one_size : size (interned P) = length (q_int q).
Proof using R.
  destruct one_int as [Hnd _]. destruct R as [_ _ _ -> _ _]. change (interned (absp q)) with (imap q).
  unfold size, map_size. unfold imap. rewrite map_to_list_to_map; [by rewrite fmap_length|]. rewrite <- list_fmap_compose. exact Hnd.
Qed.
Lemma one_free pre m : forall fuel k, (forall i, (k <= i < m)%Z -> pre ++ c_itoa i ∈ (q_int q).*1) -> pre ++ c_itoa m ∉ (q_int q).*1 ->
  (k <= m <= k + Z.of_nat fuel)%Z -> free_from fuel P pre k = m.
Proof using R.
  destruct one_int as [Hnd _]. pose proof R as [_ _ _ -> _ _].
  induction fuel as [|fuel IH]; intros k Hin Hout Hm; cbn [free_from]; [lia|].
  rewrite (absp_int q Hnd). destruct (assoc (pre ++ c_itoa k) (q_int q)) as [b|] eqn:Ea; cbn [fmap option_fmap option_map].
  - apply IH; [intros i Hi; apply Hin; lia|done|]. assert (k <> m); [|lia]. intros ->. apply Hout. apply elem_of_list_fmap. exists (pre ++ c_itoa m, b). split; [done|by apply assoc_in].
  - apply assoc_None in Ea. destruct (decide (k = m)); [done|]. exfalso. apply Ea, Hin. lia.
Qed.
Lemma one_unique al pre rest : palloc_ok al -> str_ok pre -> room (q_mem q) (Z.of_nat (length pre) + 11) ->
  (n + Z.of_nat (size (interned P)) + 1 < 2 ^ 31)%Z ->
  ok (fun r => exists l' P' k q', let m := free_from (size (interned P)) P pre n in
        known l r.2 = (l', k) /\ find_in P (pre ++ c_itoa m) = (P', k) /\ gone l' r.1 (m + 1) P' p q')
     (pfail al) (str_unique al w (pre ++ 0%N :: rest)).
Proof using R.
  intros Hal Hok Hrm Hn. rewrite one_size in *. destruct one_int as [Hnd Hin]. pose proof R as [Hh Hu Hgl HP Hl Hro].
  rewrite <- Hu in Hn. pose proof (unique_full al w _ p q pre rest Hh Hgl Hg Hal Hok Hro Hrm Hn) as Hf.
  destruct (str_unique al w (pre ++ 0%N :: rest)) as [[w' a]| | | |] eqn:E; cbn [ok] in Hf |- *; try done.
  destruct Hf as (m & q' & Hm & Hu' & Hout & Hall & _ & _ & Hk & Hint & Hmem & Hro' & Hgl'). cbn [fst snd].
  rewrite (one_free pre m _ n); [|rewrite <- Hu; exact Hall|exact Hout|lia].
  assert (Ha : a ∉ addrs q).
  { destruct (pool_history_inv w' _ (history_later _ _ _ _ Hh (keeps_later _ _ _ Hk))) as [GM' I'].
    destruct (wi_pool _ _ _ I' p _ (lookup_insert _ _ _)) as (x & _ & Ho). pose proof (sh_nodup _ _ (wi_mem _ _ _ I') _ _ (po_mem _ _ _ Ho)) as Hd.
    rewrite Hmem in Hd. cbn [stored s_done] in Hd. rewrite fmap_app in Hd. apply NoDup_app in Hd as (_ & Hd & _). intros Hx. apply (Hd a Hx). left. }
  destruct (one_new q' w' (m + 1)%Z a (pre ++ c_itoa m ++ [0%N]) (Z.of_nat (length (pre ++ c_itoa m)) + 1)%Z (keeps_later _ _ _ Hk)) as [E2 Hr']; [exact Hu'|congruence|exact Ha|exact Hmem|exact Hro'|].
  eexists _, _, _, _. split; [exact E2|]. split; [|exact Hr'].
  assert (Ea : assoc (pre ++ c_itoa m) (q_int q) = None) by (by apply assoc_None).
  unfold find_in. rewrite HP, (absp_int q Hnd), Ea. cbn [fmap option_fmap option_map]. f_equal. symmetry.
  rewrite <- (absp_entered q a ((pre ++ c_itoa m) ++ [0%N]) (Z.of_nat (length (pre ++ c_itoa m)) + 1) (pre ++ c_itoa m) Hnd Hin Ha Ea).
  unfold absp, imap, num, addrs, entered. cbn [set_mem q_int q_mem]. rewrite Hint, Hmem, Ea, <- app_assoc. reflexivity.
Qed.
End one.

(** ** one call *)
Lemma first_of_spec src len : (0 <= len)%Z -> readable src len ->
  str_ok (first_of src len) /\ exists tl, src = first_of src len ++ tl /\
    (len = Z.of_nat (length (first_of src len)) \/ ((Z.of_nat (length (first_of src len)) < len)%Z /\ exists tl', tl = 0%N :: tl')).
Proof.
  intros Hlen [Hb Hr]. unfold first_of. destruct (Z_of_nat_complete len Hlen) as [n ->]. rewrite Nat2Z.id.
  revert src Hb Hr. clear. induction n as [|n IH]; intros src Hb Hr.
  - split; [constructor|]. exists src. split; [done|]. by left.
  - destruct src as [|b src]; [destruct Hr as [Hr|Hr]; [cbn in Hr; lia|by apply elem_of_nil in Hr]|].
    apply Forall_cons in Hb as [Hc Hb]. cbn [take upto_nul]. destruct (b =? 0)%N eqn:Eb.
    + apply N.eqb_eq in Eb as ->. split; [constructor|]. exists (0%N :: src). split; [done|]. right. split; [cbn; lia|by exists src].
    + apply N.eqb_neq in Eb. destruct (IH src Hb) as (Hs & tl & E & Ht).
      { destruct Hr as [Hr|Hr]; [left; cbn [length] in Hr; lia|]. apply elem_of_cons in Hr as [Hr|Hr]; [congruence|by right]. }
      split; [constructor; [unfold byte_ok in Hc; lia|exact Hs]|]. exists tl. cbn [app length]. rewrite <- E. split; [done|].
      destruct Ht as [Ht|[Ht Ht']]; [left; lia|right; split; [lia|done]].
Qed.
Lemma findn_find al w src len s : (0 <= len < 2 ^ 31 - 1)%Z -> str_ok s ->
  (exists tl, src = s ++ tl /\ (len = Z.of_nat (length s) \/ ((Z.of_nat (length s) < len)%Z /\ exists tl', tl = 0%N :: tl'))) ->
  exists pad, str_findn al w src len = str_find al w (s ++ 0%N :: pad).
Proof.
  intros Hl Hs Hf. exists (replicate (Z.to_nat len - length s) 0%N). unfold str_findn, str_find.
  rewrite sint_ok by lia. rb. destruct (check_global al w) as [w1| | | |]; try reflexivity. rb.
  destruct (Z.ltb_spec len 0); [lia|].
  assert (Hc : c_strncpy src (Z.to_nat len) = Ret (s ++ replicate (Z.to_nat len - length s) 0%N)).
  { rewrite <- (Z2Nat.id len) in Hf by lia. generalize dependent (Z.to_nat len). clear -Hs. intros n. revert s n Hs.
    induction src as [|b src IH]; intros s n Hs (tl & E & Hl).
    - destruct s; [|discriminate E]. cbn [app] in E. subst tl. destruct Hl as [Hl|(_ & tl' & [=])]. cbn [length] in Hl.
      assert (n = 0%nat) as -> by lia. reflexivity.
    - destruct s as [|c s]; cbn [app] in E.
      + destruct n as [|n]; [reflexivity|]. destruct Hl as [Hl|(_ & tl' & ->)]; [cbn in Hl; lia|]. injection E as -> ->. reflexivity.
      + injection E as -> ->. apply Forall_cons in Hs as [Hc Hs]. cbn [length] in Hl. destruct n as [|n]; [lia|]. cbn [c_strncpy length].
        assert ((c =? 0)%N = false) as -> by (unfold CStr.str_ok in *; apply N.eqb_neq; lia).
        rewrite (IH s n Hs); [reflexivity|]. exists tl. split; [reflexivity|]. destruct Hl as [Hl|[Hl Ht]]; [left; lia|right; split; [lia|assumption]]. }
  rewrite Hc. rb. f_equal. rewrite <- app_assoc. f_equal. symmetry. apply replicate_cons_app.
Qed.
(** a call on the pool just checked for *)
Lemma gfind_one al l w g s rest : grel (l, w) g -> palloc_ok al -> str_ok s -> groom g (Z.of_nat (length s) + 1) ->
  call_ok peq gcan grel (GFind al s rest) (r ← str_find al w (s ++ 0%N :: rest); gnamed l r)
    (let x := find_in (default no_strings (gpool g)) s in Ret (GSp (Some x.1) (next g), PName x.2)).
Proof.
  intros R Hal Hs Hr. unfold str_find. pose proof (check_one al l w g R Hal) as Hc.
  destruct (check_global al w) as [w1| | | |]; cbn [ok] in Hc; try done. destruct Hc as (p & q & Hq). cbn [mbind res_bind].
  rewrite (go_glob _ _ _ _ _ _ Hq). pose proof (one_find _ _ _ _ _ _ Hq al s rest Hal Hs (one_room _ _ _ _ _ _ Hq g _ eq_refl Hr)) as Hf.
  destruct (str_pool_find al w1 (Some p) _) as [[w' a]| | | |]; cbn [ok] in Hf; try done; [|by left].
  destruct Hf as (l' & P' & k & q' & E1 & E2 & Hq'). cbn [mbind res_bind]. unfold gnamed. cbn [fst snd] in *. rewrite E1, E2. cbn.
  split; [by eapply gone_grel|done].
Qed.
Lemma gstep_ok st g c : grel st g -> glegal g c -> call_ok peq gcan grel c (gstep st c) (gspec g c).
Proof.
  intros R Hl. destruct st as [l w].
  destruct c as [al s rest|al src len|s rest|al s rest|al src len|al src len|al|al pre rest| |n|al]; cbn [glegal] in Hl; cbn [gstep].
  - destruct Hl as (Hal & Hs & Hr). by apply (gfind_one al l w g s rest).
  - destruct Hl as (Hal & Hlen & Hrd & Hr). destruct (first_of_spec src len ltac:(lia) Hrd) as [Hs Hf].
    destruct (findn_find al w src len _ Hlen Hs Hf) as [pad ->]. pose proof (gfind_one al l w g _ pad R Hal Hs Hr) as Ho. exact Ho.
  - unfold str_exists. cbn [gspec]. destruct (glob w) as [p|] eqn:Hgl.
    + destruct (grel_gone _ _ _ _ R Hgl) as (P & q & HP & Hq). rewrite HP. destruct (one_int _ _ _ _ _ _ Hq) as [Hnd Hin]. pose proof Hq as [Hh Hu _ E5 E6 Hro].
      destruct (pool_history_inv w _ Hh) as [GM I]. destruct (exists_ok w _ GM I p q (lookup_singleton _ _) s rest Hl) as (w' & E & I' & Hgl' & Hu' & _).
      rewrite E. cbn. split.
      * destruct g as [gp gn]. cbn in HP, Hu. subst gp. apply (gone_grel _ _ _ _ p (asked q s)). subst P l.
        apply (one_put _ _ _ _ _ _ Hq (asked q s)); [apply rtc_once; eapply pc_exists; [apply lookup_singleton|done|exact E]|congruence|congruence|exact Hro].
      * rewrite E5, (absp_int q Hnd). by destruct (assoc s (q_int q)).
    + destruct (grel_none _ _ _ R Hgl) as [-> _]. done.
  - destruct Hl as (Hal & Hs & Hr). unfold str_copy. pose proof (check_one al l w g R Hal) as Hc.
    destruct (check_global al w) as [w1| | | |]; cbn [ok] in Hc; try done. destruct Hc as (p & q & Hq). cbn [mbind res_bind gspec].
    rewrite (go_glob _ _ _ _ _ _ Hq). pose proof (one_copy _ _ _ _ _ _ Hq al s rest Hal Hs (one_room _ _ _ _ _ _ Hq g _ eq_refl Hr)) as Hf.
    destruct (str_pool_copy al w1 (Some p) _) as [[w' a]| | | |]; cbn [ok] in Hf; try done; [|by left].
    destruct Hf as (l' & q' & E1 & Hq'). cbn [mbind res_bind]. unfold gnamed. cbn [fst snd] in *. rewrite E1. cbn. split; [by eapply gone_grel|done].
  - destruct Hl as (Hal & Hs & Hr). unfold str_copyn. cbn [gspec]. destruct (glob w) as [p|] eqn:Hgl.
    + destruct (grel_gone _ _ _ _ R Hgl) as (P & q & HP & Hq).
      pose proof (one_copyn _ _ _ _ _ _ Hq al src len Hal Hs (one_room _ _ _ _ _ _ Hq g _ ltac:(by rewrite HP) Hr)) as Hf. rewrite HP.
      destruct (str_pool_copyn al w (Some p) _ _) as [[w' a]| | | |]; cbn [ok] in Hf; try done.
      destruct Hf as (l' & q' & E1 & Hq'). cbn [mbind res_bind]. unfold gnamed. cbn [fst snd] in *. rewrite E1. cbn. split; [by eapply gone_grel|done].
    + destruct (grel_none _ _ _ R Hgl) as [-> _]. done.
  - destruct Hl as (Hal & Hs & Hb & Hr). unfold str_grow. pose proof (check_one al l w g R Hal) as Hc.
    destruct (check_global al w) as [w1| | | |]; cbn [ok] in Hc; try done. destruct Hc as (p & q & Hq). cbn [mbind res_bind gspec].
    rewrite (go_glob _ _ _ _ _ _ Hq). pose proof (one_grow _ _ _ _ _ _ Hq al src len Hal Hs Hb (one_room _ _ _ _ _ _ Hq g _ eq_refl Hr)) as Hf.
    destruct (str_pool_grow al w1 (Some p) _ _) as [w'| | | |]; cbn [ok] in Hf; try done; [|by left].
    destruct Hf as (q' & Hq'). cbn. split; [by eapply gone_grel|done].
  - destruct Hl as (Hal & Hr). unfold str_finish. pose proof (check_one al l w g R Hal) as Hc.
    destruct (check_global al w) as [w1| | | |]; cbn [ok] in Hc; try done. destruct Hc as (p & q & Hq). cbn [mbind res_bind gspec].
    rewrite (go_glob _ _ _ _ _ _ Hq). pose proof (one_finish _ _ _ _ _ _ Hq al Hal (one_room _ _ _ _ _ _ Hq g _ eq_refl Hr)) as Hf.
    destruct (str_pool_finish al w1 (Some p)) as [[w' a]| | | |]; cbn [ok] in Hf; try done; [|by left].
    destruct Hf as (l' & q' & E1 & Hq'). cbn [mbind res_bind]. unfold gnamed. cbn [fst snd] in *. rewrite E1. cbn [call_ok peq]. split; [by eapply gone_grel|done].
  - destruct Hl as (Hal & Hs & Hr & Hn). cbn [gspec]. destruct (glob w) as [p|] eqn:Hgl.
    + destruct (grel_gone _ _ _ _ R Hgl) as (P & q & HP & Hq). rewrite HP in Hn. cbn [default] in Hn.
      pose proof (one_unique _ _ _ _ _ _ Hq al pre rest Hal Hs (one_room _ _ _ _ _ _ Hq g _ ltac:(by rewrite HP) Hr) Hn) as Hf. rewrite HP.
      destruct (str_unique al w _) as [[w' a]| | | |]; cbn [ok] in Hf; try done.
      destruct Hf as (l' & P' & k & q' & E1 & E2 & Hq'). cbn [mbind res_bind]. unfold gnamed. cbn [fst snd] in *. rewrite E1. cbn zeta in E2, Hq' |- *. rewrite E2. cbn [call_ok peq fst snd].
      split; [by eapply gone_grel|done].
    + pose proof (grel_none _ _ _ R Hgl) as [HP _]. rewrite HP in Hn |- *. destruct R as (G & Hh & Hu & _). cbn [snd] in *.
      destruct (pool_history_inv w G Hh) as [GM I]. pose proof (wi_uniq _ _ _ I) as Hu1.
      assert (E : str_unique al w (pre ++ 0%N :: rest) = UB); [|by rewrite E]. change (size (interned (default no_strings None))) with 0 in Hn.
      unfold str_unique. rewrite c_string_spec by done. rb. rewrite Hgl. cbn [unique_loop]. destruct (itoa_spec (uniq w) ltac:(lia)) as (_ & _ & Hlen).
      rewrite (sint_ok (uniq w + 1)) by lia. rb. rewrite app_length.
      rewrite (proj2 (Nat.ltb_ge (length pre + 100) (length pre + length (c_itoa (uniq w)) + 1))) by lia.
      unfold str_exists, str_pool_exists, ppool. cbn [glob]. by rewrite Hgl.
  - cbn [gspec]. destruct (glob w) as [p|] eqn:Hgl.
    + destruct (grel_gone _ _ _ _ R Hgl) as (P & q & HP & Hq). pose proof Hq as [Hh Hu _ _ _ Hro].
      destruct (pool_history_inv w _ Hh) as [GM I]. pose proof (pool_destroy_ok w _ GM p q I (lookup_singleton _ _)) as Hd. rewrite decide_True in Hd by done.
      destruct Hd as (w2 & GM' & E2 & _). unfold str_destroy. rewrite Hgl, E2. cbn. split; [|done].
      exists ∅. cbn [fst snd]. split; [|split; [apply destroy_uniq in E2; cbn [uniq next]; congruence|done]].
      eapply history_step; [exact Hh|]. rewrite <- (delete_singleton p q). eapply pc_gdestroy; [exact Hgl|]. unfold str_destroy. rewrite Hgl, E2. reflexivity.
    + unfold str_destroy. rewrite Hgl. cbn. destruct (grel_none _ _ _ R Hgl) as [HP ->]. split; [|done]. destruct g as [gp gn]. cbn in *. by subst gp.
  - cbn [gspec]. destruct (glob w) as [p|] eqn:Hgl.
    + destruct (grel_gone _ _ _ _ R Hgl) as (P & q & HP & Hq). pose proof Hq as [Hh Hu _ -> -> Hro]. rewrite HP. unfold addrs, absp. cbn [mbind option_bind objs]. rewrite !list_lookup_fmap.
      destruct (s_done (q_mem q) !! n) as [[a b]|] eqn:En; [|done]. cbn [fmap option_fmap option_map fst snd].
      rewrite (hget_Some _ _ _ (done_memory w _ Hh p q (lookup_singleton _ _) a b (elem_of_list_lookup_2 _ _ _ En))). cbn. done.
    + destruct (grel_none _ _ _ R Hgl) as [-> ->]. done.
  - cbn [gspec]. unfold str_get_stats. destruct (glob w) as [p|] eqn:Hgl.
    + destruct (grel_gone _ _ _ _ R Hgl) as (P & q & HP & Hq). destruct (one_int _ _ _ _ _ _ Hq) as [Hnd Hin]. pose proof Hq as [Hh Hu _ E5 _ Hro]. rewrite HP, E5 in Hl |- *. cbn [default from_option id] in Hl. unfold absp in Hl. cbn [objs] in Hl. rewrite fmap_length in Hl.
      assert (Hq2 : length (q_int q) <= length (s_done (q_mem q))).
      { destruct (int_nodup w _ Hh p q (lookup_singleton _ _)) as [_ Hnd2]. rewrite <- (fmap_length snd (q_int q)), <- (fmap_length fst (s_done (q_mem q))).
        apply submseteq_length, NoDup_submseteq; [done|]. exact Hin. }
      pose proof (hist_stats w _ Hh p q (lookup_singleton _ _) al ltac:(lia)) as Hf.
      destruct (str_pool_get_stats true al w (Some p)) as [[[[[c b] r] h] m]| | | |]; cbn [ok] in Hf; try done.
      destruct Hf as (-> & -> & _). cbn. split; [done|]. unfold absp. cbn [objs nbytes]. by rewrite fmap_length.
    + cbn. destruct (grel_none _ _ _ R Hgl) as [-> _]. done.
Qed.

(** the program starts with no pool, and the first number is 1 *)
Definition gstart : gsp := GSp None 1.
Lemma globals_ok cs : lawful gspec glegal gstart cs ->
  refines peq gcan (fun st g => gpool g = None -> pools st.2 = ∅ /\ mblk (pmem st.2) = ∅ /\ minf (pmem st.2) = ∅ /\ stks (msh (pmem st.2)) = ∅ /\ nodes (msh (pmem st.2)) = ∅) cs
    (run gstep ([], pempty) cs) (run gspec gstart cs).
Proof.
  intros Hl. eapply refines_Q; [|apply (run_refines _ _ _ _ glegal grel); [intros; by apply gstep_ok| |exact Hl]].
  - intros [l w] g (G & Hh & _ & H3) Hd. cbn [fst snd] in *. destruct (glob w) as [p|]; [destruct H3 as (q & _ & H3 & _); congruence|].
    destruct H3 as (-> & _ & _). pose proof (hist_no_leak w Hh). tauto.
  - exists ∅. split; cbn [fst snd]; [apply rtc_refl|]. done.
Qed.
