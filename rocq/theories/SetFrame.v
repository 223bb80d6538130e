(** The frame of set.c: a call on a set whose nodes are part of a larger memory does what it does when
    the memory holds nothing else, and leaves the rest alone (see HashFrame.v for [sim] and [part]). *)
From Verif Require Import Base PrimeModel HashModel HashSpec HashProofs HashOps HashIter HashFrame SetModel.

Section SFrame.
Context {K : Type}.
Notation bheap := (gmap positive (bucket K unit)).
Notation hst := (hst K unit).
Notation halloc := (halloc K unit).
Implicit Types (H : bheap) (F : bheap) (s : hst) (t : table) (al : halloc).

Lemma sim_set_destroy_buckets F H H' t : part F H H' -> sim (part2 F) (set_destroy_buckets H t) (set_destroy_buckets H' t).
Proof.
  intros Hp. unfold set_destroy_buckets. eapply (sim_bind (part F)).
  - apply sim_for_up; [|done]. intros i a a' Ha. apply sim_same. intros p. apply sim_free_chain; [done|]. pose proof (part_size _ _ _ Ha). lia.
  - intros a a' Ha. by apply sim_ret.
Qed.
Lemma sim_set_insert_ F al H H' t h k : halloc_ok al -> part F H H' -> sim (part2 F) (set_insert_ (al_part F al) H t h k) (set_insert_ al H' t h k).
Proof.
  intros Hal [Hd ->]. unfold set_insert_. apply sim_same. intros i. cbn [al_part node_alloc].
  destruct (node_alloc al (H ∪ F)) as [a|] eqn:E; [|done]. apply sim_same. intros p. apply sim_same. intros bs. apply sim_ret.
  apply Hal, lookup_union_None in E as [E1 E2]. split; [|done]. cbn. split; [|by rewrite insert_union_l].
  by apply map_disjoint_insert_l_2.
Qed.
Lemma sim_set_copy F al n : halloc_ok al -> forall n' H H' t p, part F H H' -> (n <= n')%nat ->
  sim (part2 F) (set_copy_chain (al_part F al) n H t p) (set_copy_chain al n' H' t p).
Proof.
  intros Hal. induction n as [|n IH]; intros n' H H' t p Hp Hn; (destruct p as [a|]; [|destruct n'; by apply sim_ret]); [done|].
  destruct n' as [|n']; [lia|]. cbn [set_copy_chain]. eapply sim_bind; [by apply (sim_hget F)|]. intros b b' <-.
  eapply sim_bind; [by apply sim_set_insert_|]. intros [H1 t1] [H1' t1'] [Hp1 E]. cbn in Hp1, E. subst t1'.
  eapply sim_bind; [by apply (sim_hget F)|]. intros b1 b1' <-. apply IH; [done|lia].
Qed.
Lemma set_create_part F al n : set_create_ (al_part F al) n = set_create_ al n.
Proof. unfold set_create_, xmalloc_blk. cbn [al_part blk_alloc]. reflexivity. Qed.
Lemma sim_set_grow F al H H' t : halloc_ok al -> part F H H' -> sim (part2 F) (set_grow (al_part F al) H t) (set_grow al H' t).
Proof.
  intros Hal Hp. unfold set_grow. rewrite set_create_part. apply sim_same. intros new.
  eapply (sim_bind (part2 F)).
  - apply sim_for_up; [|by split]. intros i [a ta] [a' ta'] [Ha E]. cbn in Ha, E. subst ta'. apply sim_same. intros p.
    apply sim_set_copy; [done|done|]. pose proof (part_size _ _ _ Ha). lia.
  - intros [a ta] [a' ta'] [Ha E]. cbn in Ha, E. subst ta'. eapply sim_bind; [by apply sim_set_destroy_buckets|].
    intros [b tb] [b' tb'] [Hb E]. cbn in Hb, E. subst tb'. by apply sim_ret.
Qed.
Lemma sim_set_insert env F al s s' k : halloc_ok al -> parts F s s' -> sim (parts2 F) (set_insert env (al_part F al) s k) (set_insert env al s' k).
Proof.
  intros Hal [Hp Et]. unfold set_insert. rewrite Et. destruct (negb _); [done|].
  eapply (sim_bind (part2 F)).
  - destruct (_ <? _)%N; [by apply sim_set_grow|]. by apply sim_ret.
  - intros [H t] [H' t'] [HpH E]. cbn in HpH, E. subst t'. apply sim_same. intros h. apply sim_same. intros p.
    eapply sim_bind; [apply (sim_find env F); [exact HpH|pose proof (part_size _ _ _ HpH); lia]|]. intros r r' <-. destruct r; [by apply sim_ret|].
    eapply sim_bind; [by apply sim_set_insert_|]. intros [H1 t1] [H1' t1'] [Hp1 E]. cbn in Hp1, E. subst t1'. by apply sim_ret.
Qed.
Lemma sim_set_delete env F s s' k : parts F s s' -> sim (parts2 F) (set_delete env s k) (set_delete env s' k).
Proof.
  intros [Hp Et]. unfold set_delete. rewrite Et. apply sim_same. intros h. destruct (negb _); [done|].
  apply sim_same. intros p. eapply sim_bind; [apply (sim_find env F); [exact Hp|pose proof (part_size _ _ _ Hp); lia]|]. intros r r' <-.
  destruct r as [[prev a]|]; [|by apply sim_ret].
  eapply sim_bind; [by apply (sim_hget F)|]. intros b b' <-. eapply (sim_bind (part2 F)).
  - destruct prev as [q|].
    + eapply sim_bind; [by apply (sim_hget F)|]. intros bq bq' <-. eapply sim_bind; [by apply sim_hset|]. intros H1 H1' Hp1. by apply sim_ret.
    + apply sim_same. intros bs. by apply sim_ret.
  - intros [H1 t1] [H1' t1'] [Hp1 E]. cbn in Hp1, E. subst t1'. eapply sim_bind; [by apply sim_hfree|]. intros H2 H2' Hp2. by apply sim_ret.
Qed.
Lemma sim_set_member env F s s' k : parts F s s' -> sim (parts2 F) (set_member env s k) (set_member env s' k).
Proof.
  intros [Hp Et]. unfold set_member. rewrite Et. apply sim_same. intros h.
  apply sim_same. intros p. eapply sim_bind; [apply (sim_find env F); [exact Hp|pose proof (part_size _ _ _ Hp); lia]|]. intros r r' <-.
  destruct r as [[[q|] a]|]; [|by apply sim_ret|by apply sim_ret].
  destruct (_ =? 0)%Z; [|by apply sim_ret]. eapply sim_bind; [by apply (sim_hget F)|]. intros b b' <-.
  eapply sim_bind; [by apply (sim_hget F)|]. intros bq bq' <-. eapply sim_bind; [by apply sim_hset|]. intros H1 H1' Hp1.
  eapply sim_bind; [by apply (sim_hget F)|]. intros b1 b1' <-. eapply sim_bind; [by apply sim_hset|]. intros H2 H2' Hp2.
  apply sim_same. intros bs. by apply sim_ret.
Qed.
(** a look-up in a readonly set changes no node *)
Lemma member_readonly env s k s' r : set_member env s k = Ret (s', r) -> readonly (tab s) <> 0%Z -> heap s' = heap s /\ readonly (tab s') = readonly (tab s).
Proof.
  unfold set_member. intros E Hro. destruct (umod _ _) as [h| | | |]; try discriminate E. cbn [mbind res_bind] in E.
  destruct (aget _ _) as [p| | | |]; try discriminate E. cbn [mbind res_bind] in E.
  destruct (find_loop _ _ _ _ _ _) as [o| | | |]; try discriminate E. cbn [mbind res_bind] in E.
  destruct o as [[[q|] a]|]; [|injection E as <- <-; done|injection E as <- <-; done].
  cbn [set_counts readonly] in E. rewrite (proj2 (Z.eqb_neq _ _) Hro) in E. by injection E as <- <-.
Qed.
Lemma sim_set_readonly F s s' f : parts F s s' -> sim (parts2 F) (set_readonly_ s f) (set_readonly_ s' f).
Proof. intros [Hp Et]. unfold set_readonly_. rewrite Et. by apply sim_ret. Qed.
Lemma sim_set_destroy F s s' : parts F s s' -> sim (part F) (set_destroy s) (set_destroy s').
Proof.
  intros [Hp Et]. unfold set_destroy. rewrite Et. destruct (negb _); [done|].
  eapply sim_bind; [by apply sim_set_destroy_buckets|]. intros [H1 t1] [H1' t1'] [Hp1 E]. cbn in Hp1, E. by apply sim_ret.
Qed.
Lemma sim_set_get_stats F al s s' : parts F s s' -> sim eq (set_get_stats (al_part F al) s) (set_get_stats al s').
Proof.
  intros [Hp Et]. unfold set_get_stats, xmalloc_blk. cbn [al_part blk_alloc]. rewrite Et. apply sim_same. intros _. eapply (sim_bind eq).
  - apply sim_for_up; [|done]. intros i a a' <-. apply sim_same. intros [p|]; [|by apply sim_ret].
    eapply sim_bind; [apply (sim_count F); [exact Hp|pose proof (part_size _ _ _ Hp); lia]|]. intros c c' <-. by apply sim_ret.
  - intros st st' <-. destruct (negb _); [done|by apply sim_ret].
Qed.

(** ** walks: the set walked is a part of the memory *)
Definition inside s s' : Prop := heap s ⊆ heap s' /\ tab s' = tab s.
Lemma sim_hget_sub H H' a : H ⊆ H' -> sim eq (hget H a) (hget H' a).
Proof. intros Hs. unfold hget. destruct (H !! a) as [b|] eqn:E; [|done]. exists b. split; [|done]. by rewrite (lookup_weaken _ _ _ _ E Hs). Qed.
Lemma parts_inside F s s' : parts F s s' -> inside s s'.
Proof. intros [[_ E] Et]. split; [rewrite E; apply map_union_subseteq_l|done]. Qed.
Section Walks.
Context {T T' : Type} (R : T -> T' -> Prop) (get : T -> res hst) (get' : T' -> res hst) (body : K -> T -> res (T * bool)) (body' : K -> T' -> res (T' * bool)).
Context (Hget : forall w w', R w w' -> sim inside (get w) (get' w')).
Context (Hbody : forall k w w', R w w' -> sim (fun a b => R a.1 b.1 /\ b.2 = a.2) (body k w) (body' k w')).
Lemma sim_walk_chain n : forall n' p w w', R w w' -> (n <= n')%nat ->
  sim (fun a b => R a.1 b.1 /\ b.2 = a.2) (walk_chain get body n p w) (walk_chain get' body' n' p w').
Proof using Hget Hbody.
  induction n as [|n IH]; intros n' p w w' Hr Hn; (destruct p as [a|]; [|destruct n'; by apply sim_ret]); [done|].
  destruct n' as [|n']; [lia|]. cbn [walk_chain]. eapply sim_bind; [by apply Hget|]. intros s s' [Hs _].
  eapply sim_bind; [by apply sim_hget_sub|]. intros b b' <-. eapply sim_bind; [by apply Hbody|].
  intros [w1 st] [w1' st'] [Hr1 E]. cbn in Hr1, E. subst st'. destruct st; [by apply sim_ret|].
  eapply sim_bind; [by apply Hget|]. intros s1 s1' [Hs1 _]. eapply sim_bind; [by apply sim_hget_sub|]. intros b1 b1' <-. apply IH; [done|lia].
Qed.
Lemma sim_walk_rows fuel fuel' : (fuel <= fuel')%nat -> forall n n' i w w', R w w' -> (n <= n')%nat ->
  sim (fun a b => R a.1 b.1 /\ b.2 = a.2) (walk_rows get body n fuel i w) (walk_rows get' body' n' fuel' i w').
Proof using Hget Hbody.
  intros Hf. induction n as [|n IH]; intros n' i w w' Hr Hn; [done|].
  destruct n' as [|n']; [lia|]. cbn [walk_rows]. eapply sim_bind; [by apply Hget|]. intros s s' [_ Et]. rewrite Et.
  destruct (_ <? _)%N; [|by apply sim_ret]. apply sim_same. intros p. eapply sim_bind; [by apply sim_walk_chain|].
  intros [w1 st] [w1' st'] [Hr1 E]. cbn in Hr1, E. subst st'. destruct st; [by apply sim_ret|]. apply IH; [done|lia].
Qed.
Lemma sim_walk n n' w w' : R w w' -> (n <= n')%nat ->
  sim (fun a b => R a.1 b.1 /\ b.2 = a.2) (walk get body n w) (walk get' body' n' w').
Proof using Hget Hbody. intros Hr Hn. by apply sim_walk_rows. Qed.
End Walks.
(** iterators that leave the rest of the memory alone *)
Definition sframed {U} F (cb cb' : siterator K U) : Prop := forall k s s' u, parts F s s' -> sim (parts3 F) (cb k (s, u)) (cb' k (s', u)).
Lemma sim_set_iterate {U} F (cb cb' : siterator K U) n n' s s' u : sframed F cb cb' -> parts F s s' -> (n <= n')%nat ->
  sim (parts3 F) (set_iterate n cb s u) (set_iterate n' cb' s' u).
Proof.
  intros Hcb [Hp Et] Hn. unfold set_iterate. rewrite Et.
  eapply (sim_bind (fun a b => (parts F a.1.1 b.1.1 /\ b.1.2 = a.1.2) /\ b.2 = a.2)).
  - apply (sim_walk (fun a b : hst * U => parts F a.1 b.1 /\ b.2 = a.2)).
    + intros [s1 u1] [s1' u1'] [Hp1 _]. apply sim_ret. by eapply parts_inside.
    + intros k [s1 u1] [s1' u1'] [Hp1 E]. cbn in Hp1, E. subst u1'. eapply sim_bind; [by apply Hcb|].
      intros [[s2 u2] r] [[s2' u2'] r'] (H1 & H2 & H3). cbn in H1, H2, H3. subst u2' r'. by apply sim_ret.
    + split; [|done]. split; [exact Hp|]. cbn. by rewrite Et.
    + done.
  - intros [[s1 u1] r] [[s1' u1'] r'] [[[Hp1 Et1] E] E']. cbn in Hp1, Et1, E, E'. subst u1' r'. apply sim_ret. split; [|done]. split; [exact Hp1|].
    cbn. by rewrite Et1.
Qed.
Lemma sim_set_init_position F s s' : parts F s s' -> sim (parts2 F) (set_init_position s) (set_init_position s').
Proof. intros [Hp Et]. unfold set_init_position. rewrite Et. apply sim_same. intros [p|]; by apply sim_ret. Qed.
Lemma sim_set_next_position F s s' p : parts F s s' -> sim (parts2 F) (set_next_position s p) (set_next_position s' p).
Proof.
  intros [Hp Et]. unfold set_next_position. rewrite Et. destruct p as [a|]; [|by apply sim_ret].
  eapply sim_bind; [by apply (sim_hget F)|]. intros b b' <-. destruct (bnext b); [by apply sim_ret|]. apply sim_same. intros h.
  apply sim_same. intros [q|]; by apply sim_ret.
Qed.
Lemma sim_set_get_position F s s' p : parts F s s' -> sim eq (set_get_position s p) (set_get_position s' p).
Proof.
  intros [Hp Et]. unfold set_get_position. destruct p as [a|]; [|by apply sim_ret].
  eapply sim_bind; [by apply (sim_hget F)|]. intros b b' <-. by apply sim_ret.
Qed.
End SFrame.
