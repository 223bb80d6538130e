(** The frame of hash.c: a call on a table whose nodes are part of a larger memory does what it does
    when the memory holds nothing else, and leaves the rest alone. *)
From Verif Require Import Base PrimeModel HashModel HashSpec HashProofs HashOps HashIter.

(** [m'] does what [m] does, up to [R] on what they return; nothing is said if [m] is undefined *)
Definition sim {A B} (R : A -> B -> Prop) (m : res A) (m' : res B) : Prop :=
  match m with
  | Ret a => exists a', m' = Ret a' /\ R a a'
  | Fatal => m' = Fatal
  | Abort => m' = Abort
  | _ => True
  end.
Lemma sim_bind {A B A' B'} (R : A -> A' -> Prop) (S : B -> B' -> Prop) (m : res A) (m' : res A') (f : A -> res B) (f' : A' -> res B') :
  sim R m m' -> (forall a a', R a a' -> sim S (f a) (f' a')) -> sim S (m ≫= f) (m' ≫= f').
Proof. unfold sim at 1. destruct m; cbn; intros H Hf; try (by subst); try done. destruct H as (a' & -> & Ha). by apply Hf. Qed.
Lemma sim_ret {A B} (R : A -> B -> Prop) a b : R a b -> sim R (Ret a) (Ret b).
Proof. intros H. by exists b. Qed.
Lemma sim_refl {A} (m : res A) : sim eq m m.
Proof. destruct m; try done. by eexists. Qed.
(** the same computation first *)
Lemma sim_same {A B B'} (S : B -> B' -> Prop) (m : res A) (f : A -> res B) (f' : A -> res B') :
  (forall a, sim S (f a) (f' a)) -> sim S (m ≫= f) (m ≫= f').
Proof. intros H. eapply sim_bind; [apply sim_refl|]. intros a a' <-. apply H. Qed.

Section Frame.
Context {K D : Type}.
Notation bheap := (gmap positive (bucket K D)).
Implicit Types (H : bheap) (F : bheap) (s : hst K D) (t : table).

(** a part of the memory and the memory *)
Definition part F H H' : Prop := H ##ₘ F /\ H' = H ∪ F.
Definition part2 {X} F (a b : bheap * X) : Prop := part F a.1 b.1 /\ b.2 = a.2.
Definition parts F s s' : Prop := part F (heap s) (heap s') /\ tab s' = tab s.
Definition parts2 {X} F (a b : hst K D * X) : Prop := parts F a.1 b.1 /\ b.2 = a.2.
(** malloc, seen by the part *)
Definition al_part F (al : halloc K D) : halloc K D := HA (fun H => node_alloc al (H ∪ F)) (blk_alloc al).
Lemma al_part_ok F al : halloc_ok al -> halloc_ok (al_part F al).
Proof. intros Hal H a E. specialize (Hal _ _ E). by apply lookup_union_None in Hal as [? _]. Qed.

Lemma sim_hget F H H' a : part F H H' -> sim eq (hget H a) (hget H' a).
Proof.
  intros [Hd ->]. unfold hget. destruct (H !! a) as [b|] eqn:E; [|done]. exists b. split; [|done]. by rewrite (lookup_union_Some_l _ _ _ _ E).
Qed.
Lemma sim_hset F H H' a b : part F H H' -> sim (part F) (hset H a b) (hset H' a b).
Proof.
  intros [Hd ->]. unfold hset. destruct (H !! a) as [b0|] eqn:E; [|done]. rewrite (lookup_union_Some_l _ _ _ _ E).
  eexists. split; [done|]. split; [|by rewrite insert_union_l].
  apply map_disjoint_insert_l_2; [|done]. by eapply map_disjoint_Some_l.
Qed.
Lemma sim_hfree F H H' a : part F H H' -> sim (part F) (hfree H a) (hfree H' a).
Proof.
  intros [Hd ->]. unfold hfree. destruct (H !! a) as [b0|] eqn:E; [|done]. rewrite (lookup_union_Some_l _ _ _ _ E).
  eexists. split; [done|]. split; [by apply map_disjoint_delete_l|].
  rewrite delete_union. rewrite (delete_notin F); [done|]. by eapply map_disjoint_Some_l.
Qed.
Lemma part_size F H H' : part F H H' -> (size H <= size H')%nat.
Proof. intros [Hd ->]. rewrite map_size_disj_union by done. lia. Qed.

Lemma sim_for_up {T} (R : T -> T -> Prop) f f' : (forall i a a', R a a' -> sim R (f i a) (f' i a')) ->
  forall n i a a', R a a' -> sim R (for_up n i f a) (for_up n i f' a').
Proof.
  intros Hf. induction n as [|n IH]; intros i a a' Ha; cbn [for_up]; [by apply sim_ret|].
  eapply sim_bind; [by apply Hf|]. intros b b' Hb. by apply IH.
Qed.
Lemma sim_free_chain F n : forall n' H H' p, part F H H' -> (n <= n')%nat -> sim (part F) (free_chain n H p) (free_chain n' H' p).
Proof.
  induction n as [|n IH]; intros n' H H' p Hp Hn; (destruct p as [a|]; [|destruct n'; by apply sim_ret]); [done|].
  destruct n' as [|n']; [lia|]. cbn [free_chain]. eapply sim_bind; [by apply (sim_hget F)|]. intros b b' <-.
  eapply sim_bind; [by apply sim_hfree|]. intros H1 H1' Hp1. apply IH; [done|lia].
Qed.
Lemma sim_destroy F H H' t : part F H H' -> sim (part2 F) (destroy_buckets H t) (destroy_buckets H' t).
Proof.
  intros Hp. unfold destroy_buckets. apply sim_same. intros _. eapply (sim_bind (part F)).
  - apply sim_for_up; [|done]. intros i a a' Ha. apply sim_same. intros p. apply sim_free_chain; [done|]. pose proof (part_size _ _ _ Ha). lia.
  - intros a a' Ha. by apply sim_ret.
Qed.
Lemma sim_insert_ F al H H' t h k d : halloc_ok al -> part F H H' -> sim (part2 F) (hsh_insert_ (al_part F al) H t h k d) (hsh_insert_ al H' t h k d).
Proof.
  intros Hal [Hd ->]. unfold hsh_insert_. apply sim_same. intros i. apply sim_same. intros _. cbn [al_part node_alloc].
  destruct (node_alloc al (H ∪ F)) as [a|] eqn:E; [|done]. apply sim_same. intros p. apply sim_same. intros bs. apply sim_ret.
  apply Hal, lookup_union_None in E as [E1 E2]. split; [|done]. cbn. split; [|by rewrite insert_union_l].
  by apply map_disjoint_insert_l_2.
Qed.
Lemma sim_copy F al n : halloc_ok al -> forall n' H H' t p, part F H H' -> (n <= n')%nat ->
  sim (part2 F) (copy_chain (al_part F al) n H t p) (copy_chain al n' H' t p).
Proof.
  intros Hal. induction n as [|n IH]; intros n' H H' t p Hp Hn; (destruct p as [a|]; [|destruct n'; by apply sim_ret]); [done|].
  destruct n' as [|n']; [lia|]. cbn [copy_chain]. eapply sim_bind; [by apply (sim_hget F)|]. intros b b' <-.
  eapply sim_bind; [by apply sim_insert_|]. intros [H1 t1] [H1' t1'] [Hp1 E]. cbn in Hp1, E. subst t1'.
  eapply sim_bind; [by apply (sim_hget F)|]. intros b1 b1' <-. apply IH; [done|lia].
Qed.
Lemma create_part F al n : hsh_create_ (al_part F al) n = hsh_create_ al n.
Proof. unfold hsh_create_, xmalloc_blk. cbn [al_part blk_alloc]. reflexivity. Qed.
Lemma sim_grow F al H H' t : halloc_ok al -> part F H H' -> sim (part2 F) (hsh_grow (al_part F al) H t) (hsh_grow al H' t).
Proof.
  intros Hal Hp. unfold hsh_grow. rewrite create_part. apply sim_same. intros new.
  eapply (sim_bind (part2 F)).
  - apply sim_for_up; [|by split]. intros i [a ta] [a' ta'] [Ha E]. cbn in Ha, E. subst ta'. apply sim_same. intros p.
    apply sim_copy; [done|done|]. pose proof (part_size _ _ _ Ha). lia.
  - intros [a ta] [a' ta'] [Ha E]. cbn in Ha, E. subst ta'. eapply sim_bind; [by apply sim_destroy|].
    intros [b tb] [b' tb'] [Hb E]. cbn in Hb, E. subst tb'. by apply sim_ret.
Qed.
Lemma sim_find env F n : forall n' H H' prev pt k, part F H H' -> (n <= n')%nat ->
  sim eq (find_loop env n H prev pt k) (find_loop env n' H' prev pt k).
Proof.
  induction n as [|n IH]; intros n' H H' prev pt k Hp Hn; (destruct pt as [a|]; [|destruct n'; by apply sim_ret]); [done|].
  destruct n' as [|n']; [lia|]. cbn [find_loop]. eapply sim_bind; [by apply (sim_hget F)|]. intros b b' <-.
  destruct (cmpf env (bkey b) k =? 0)%Z; [by apply sim_ret|]. apply IH; [done|lia].
Qed.
Lemma sim_insert env F al s s' k d : halloc_ok al -> parts F s s' -> sim (parts2 F) (hsh_insert env (al_part F al) s k d) (hsh_insert env al s' k d).
Proof.
  intros Hal [Hp Et]. unfold hsh_insert. rewrite Et. apply sim_same. intros _. destruct (negb _); [done|].
  eapply (sim_bind (part2 F)).
  - destruct (_ <? _)%N; [by apply sim_grow|]. by apply sim_ret.
  - intros [H t] [H' t'] [HpH E]. cbn in HpH, E. subst t'. apply sim_same. intros h. apply sim_same. intros p.
    eapply sim_bind; [apply (sim_find env F); [exact HpH|pose proof (part_size _ _ _ HpH); lia]|]. intros r r' <-. destruct r; [by apply sim_ret|].
    eapply sim_bind; [by apply sim_insert_|]. intros [H1 t1] [H1' t1'] [Hp1 E]. cbn in Hp1, E. subst t1'. by apply sim_ret.
Qed.
Lemma sim_delete env F s s' k : parts F s s' -> sim (parts2 F) (hsh_delete env s k) (hsh_delete env s' k).
Proof.
  intros [Hp Et]. unfold hsh_delete. rewrite Et. apply sim_same. intros h. apply sim_same. intros _. destruct (negb _); [done|].
  apply sim_same. intros p. eapply sim_bind; [apply (sim_find env F); [exact Hp|pose proof (part_size _ _ _ Hp); lia]|]. intros r r' <-.
  destruct r as [[prev a]|]; [|by apply sim_ret].
  eapply sim_bind; [by apply (sim_hget F)|]. intros b b' <-. eapply (sim_bind (part2 F)).
  - destruct prev as [q|].
    + eapply sim_bind; [by apply (sim_hget F)|]. intros bq bq' <-. eapply sim_bind; [by apply sim_hset|]. intros H1 H1' Hp1. by apply sim_ret.
    + apply sim_same. intros bs. by apply sim_ret.
  - intros [H1 t1] [H1' t1'] [Hp1 E]. cbn in Hp1, E. subst t1'. eapply sim_bind; [by apply sim_hfree|]. intros H2 H2' Hp2. by apply sim_ret.
Qed.
Lemma sim_retrieve env F s s' k : parts F s s' -> sim (parts2 F) (hsh_retrieve env s k) (hsh_retrieve env s' k).
Proof.
  intros [Hp Et]. unfold hsh_retrieve. rewrite Et. apply sim_same. intros h. apply sim_same. intros _.
  apply sim_same. intros p. eapply sim_bind; [apply (sim_find env F); [exact Hp|pose proof (part_size _ _ _ Hp); lia]|]. intros r r' <-.
  destruct r as [[[q|] a]|]; [|eapply sim_bind; [by apply (sim_hget F)|]; intros b b' <-; by apply sim_ret|by apply sim_ret].
  destruct (_ =? 0)%Z; (eapply sim_bind; [by apply (sim_hget F)|]; intros b b' <-); [|by apply sim_ret].
  eapply sim_bind; [by apply (sim_hget F)|]. intros bq bq' <-. eapply sim_bind; [by apply sim_hset|]. intros H1 H1' Hp1.
  eapply sim_bind; [by apply (sim_hget F)|]. intros b1 b1' <-. eapply sim_bind; [by apply sim_hset|]. intros H2 H2' Hp2.
  apply sim_same. intros bs. eapply sim_bind; [by apply (sim_hget F)|]. intros b2 b2' <-. by apply sim_ret.
Qed.
Lemma sim_readonly F s s' f : parts F s s' -> sim (parts2 F) (hsh_readonly s f) (hsh_readonly s' f).
Proof. intros [Hp Et]. unfold hsh_readonly. rewrite Et. apply sim_same. intros _. by apply sim_ret. Qed.
Lemma sim_hsh_destroy F s s' : parts F s s' -> sim (part F) (hsh_destroy s) (hsh_destroy s').
Proof.
  intros [Hp Et]. unfold hsh_destroy. rewrite Et. apply sim_same. intros _. destruct (negb _); [done|].
  eapply sim_bind; [by apply sim_destroy|]. intros [H1 t1] [H1' t1'] [Hp1 E]. cbn in Hp1, E. by apply sim_ret.
Qed.

(** iterators that leave the rest of the memory alone *)
Definition framed {U} F (cb cb' : iterator K D U) : Prop := forall k d s s' u, parts F s s' -> sim (fun a b => parts F a.1.1 b.1.1 /\ b.1.2 = a.1.2 /\ b.2 = a.2) (cb k d (s, u)) (cb' k d (s', u)).
Definition parts3 {U X} F (a b : hst K D * U * X) : Prop := parts F a.1.1 b.1.1 /\ b.1.2 = a.1.2 /\ b.2 = a.2.
Lemma sim_iter_chain {U} F (cb cb' : iterator K D U) : framed F cb cb' -> forall n n' p s s' u, parts F s s' -> (n <= n')%nat ->
  sim (parts3 F) (iter_chain n cb p (s, u)) (iter_chain n' cb' p (s', u)).
Proof.
  intros Hcb. induction n as [|n IH]; intros n' p s s' u Hp Hn; (destruct p as [a|]; [|destruct n'; by apply sim_ret]); [done|].
  destruct n' as [|n']; [lia|]. cbn [iter_chain]. eapply sim_bind; [apply (sim_hget F); apply Hp|]. intros b b' <-.
  eapply sim_bind; [by apply Hcb|]. intros [[s1 u1] r] [[s1' u1'] r'] (H1 & H2 & H3). cbn in H1, H2, H3. subst u1' r'.
  destruct (negb _); [by apply sim_ret|]. apply IH; [done|lia].
Qed.
Lemma sim_iter_rows {U} F (cb cb' : iterator K D U) fuel fuel' : framed F cb cb' -> (fuel <= fuel')%nat -> forall n n' i s s' u, parts F s s' -> (n <= n')%nat ->
  sim (parts3 F) (iter_rows n fuel cb i (s, u)) (iter_rows n' fuel' cb' i (s', u)).
Proof.
  intros Hcb Hfu. induction n as [|n IH]; intros n' i s s' u Hp Hn; [done|].
  destruct n' as [|n']; [lia|]. cbn [iter_rows fst]. rewrite (proj2 Hp). destruct (_ <? _)%N; [|by apply sim_ret].
  apply sim_same. intros p. eapply sim_bind; [by apply sim_iter_chain|].
  intros [[s1 u1] r] [[s1' u1'] r'] (H1 & H2 & H3). cbn in H1, H2, H3. subst u1' r'. destruct r; [by apply sim_ret|]. apply IH; [done|lia].
Qed.
Lemma sim_iterate {U} F (cb cb' : iterator K D U) n n' s s' u : framed F cb cb' -> parts F s s' -> (n <= n')%nat ->
  sim (parts3 F) (hsh_iterate n cb s u) (hsh_iterate n' cb' s' u).
Proof. intros Hcb Hp Hn. unfold hsh_iterate. rewrite (proj2 Hp). apply sim_same. intros _. by apply sim_iter_rows. Qed.

Lemma sim_init_position F s s' : parts F s s' -> sim (parts2 F) (hsh_init_position s) (hsh_init_position s').
Proof. intros [Hp Et]. unfold hsh_init_position. rewrite Et. apply sim_same. intros _. apply sim_same. intros [p|]; by apply sim_ret. Qed.
Lemma sim_next_position F s s' p : parts F s s' -> sim (parts2 F) (hsh_next_position s p) (hsh_next_position s' p).
Proof.
  intros [Hp Et]. unfold hsh_next_position. rewrite Et. apply sim_same. intros _. destruct p as [a|]; [|by apply sim_ret].
  eapply sim_bind; [by apply (sim_hget F)|]. intros b b' <-. destruct (bnext b); [by apply sim_ret|]. apply sim_same. intros h.
  apply sim_same. intros [q|]; by apply sim_ret.
Qed.
Lemma sim_get_position env F s s' p : parts F s s' -> sim eq (hsh_get_position env s p) (hsh_get_position env s' p).
Proof.
  intros [Hp Et]. unfold hsh_get_position. destruct p as [a|]; [|by apply sim_ret].
  eapply sim_bind; [by apply (sim_hget F)|]. intros b b' <-. by apply sim_ret.
Qed.
Lemma sim_pos_loop {U} env F (cb cb' : iterator K D U) : framed F cb cb' -> forall n n' p s s' u, parts F s s' -> (n <= n')%nat ->
  sim (parts3 F) (pos_loop n env cb p (s, u)) (pos_loop n' env cb' p (s', u)).
Proof.
  intros Hcb. induction n as [|n IH]; intros n' p s s' u Hp Hn; (destruct p as [a|]; [|destruct n'; by apply sim_ret]); [done|].
  destruct n' as [|n']; [lia|]. cbn [pos_loop fst]. eapply sim_bind; [by apply (sim_get_position env F)|]. intros [k d] [k' d'] [= <- <-].
  destruct k as [k|]; [|done].
  eapply sim_bind; [by apply Hcb|]. intros [[s1 u1] r] [[s1' u1'] r'] (H1 & H2 & H3). cbn in H1, H2, H3. subst u1' r'.
  destruct (negb _); [by apply sim_ret|]. cbn [fst snd]. eapply sim_bind; [by apply (sim_next_position F)|].
  intros [s2 q] [s2' q'] [Hp2 E]. cbn in Hp2, E. subst q'. apply IH; [done|lia].
Qed.
Lemma sim_ITERATE {U} env F (cb cb' : iterator K D U) n n' s s' u : framed F cb cb' -> parts F s s' -> (n <= n')%nat ->
  sim (parts3 F) (HSH_ITERATE n env cb s u) (HSH_ITERATE n' env cb' s' u).
Proof.
  intros Hcb Hp Hn. unfold HSH_ITERATE. eapply sim_bind; [by apply (sim_init_position F)|].
  intros [s2 q] [s2' q'] [Hp2 E]. cbn in Hp2, E. subst q'. by apply sim_pos_loop.
Qed.
(** statistics *)
Lemma sim_count F w n : forall n' H H' p c, part F H H' -> (n <= n')%nat -> sim eq (count_chain w n H p c) (count_chain w n' H' p c).
Proof.
  induction n as [|n IH]; intros n' H H' p c Hp Hn; (destruct p as [a|]; [|destruct n'; by apply sim_ret]); [done|].
  destruct n' as [|n']; [lia|]. cbn [count_chain]. eapply sim_bind; [by apply (sim_hget F)|]. intros b b' <-. apply IH; [done|lia].
Qed.
Lemma sim_get_stats F al s s' : parts F s s' -> sim eq (hsh_get_stats (al_part F al) s) (hsh_get_stats al s').
Proof.
  intros [Hp Et]. unfold hsh_get_stats, xmalloc_blk. cbn [al_part blk_alloc]. rewrite Et. apply sim_same. intros _. apply sim_same. intros _. eapply (sim_bind eq).
  - apply sim_for_up; [|done]. intros i a a' <-. apply sim_same. intros [p|]; [|by apply sim_ret].
    eapply sim_bind; [apply (sim_count F); [exact Hp|pose proof (part_size _ _ _ Hp); lia]|]. intros c c' <-. by apply sim_ret.
  - intros st st' <-. destruct (negb _); [done|by apply sim_ret].
Qed.
End Frame.
