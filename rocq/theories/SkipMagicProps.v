(** C102: using a skip list after it was destroyed.  [msl_history w G n D] (SkipMagicHist.v):
    every history of calls that obey the rules of C33; [G] are the live lists with their data,
    [D] the lists that were destroyed and whose memory sl_create has not used again. *)
From Verif Require Import Base Alloc StackModel ObjModel SkipModel SkipSpec SkipProofs SkipWorld SkipHist SkipProps
  SkipMagicModel SkipMagicHist.
Local Open Scope Z_scope.

(** no live list is among the destroyed ones, and every call on a destroyed one stops the program *)
Theorem C102_destroyed : forall K (w : mworld K) G n D l, msl_history w G n D -> l ∈ D ->
  G !! l = None /\
  (forall al rnd d, msl_insert al rnd w (Some l) d = Abort) /\ (forall d, msl_delete w (Some l) d = Abort) /\
  (forall k, msl_find w (Some l) k = Abort) /\ msl_dump w (Some l) = Abort /\ (forall al, msl_destroy al w (Some l) = Abort) /\
  (forall X (f : X -> mworld K -> ptr -> res (X * mworld K * Z)) s, msl_iterate f s w (Some l) = Abort).
Proof.
  intros K w G n D l h Hl. apply msl_history_inv in h. pose proof (mcheck_dead _ _ _ _ _ h Hl) as Hc.
  split; [by eapply minv_disj|]. unfold msl_insert, msl_delete, msl_find, msl_dump, msl_destroy, msl_iterate. by rewrite Hc.
Qed.
Print Assumptions C102_destroyed.

(** what is in [D]: a list just destroyed is, and stays there whatever is done to the others,
    until sl_create returns its address or the library is shut down *)
Theorem C102_destroy : forall K (w : mworld K) G n D l g al, msl_history w G n D -> G !! l = Some g -> sal_ok al -> snodes_ok al ->
  exists w', msl_destroy al w (Some l) = Ret w' /\ msl_history w' (delete l G) n ({[l]} ∪ D).
Proof.
  intros K w G n D l g al h Hl Hal Hn. pose proof (msl_history_inv _ _ _ _ h) as I.
  destruct (C34_destroy K (mbase w) G n l g al (mi_base _ _ _ _ I) Hl Hal Hn) as (w1 & E & _).
  assert (E2 : msl_destroy al w (Some l) = Ret (MW w1 (<[l := SL_LIST_MAGIC_FREED]> (mmagic w)))).
  { unfold msl_destroy. rewrite (mcheck_live _ _ _ _ _ I) by eauto. rb. rewrite E. done. }
  eexists. split; [exact E2|]. by eapply (mh_destroy al).
Qed.
Print Assumptions C102_destroy.
Theorem C102_create : forall K (w : mworld K) G n D al cmp key, msl_history w G n D -> sal_ok al -> snodes_ok al -> order cmp ->
  Z.of_nat n < 2 ^ 31 - 1 ->
  ok (fun '(w', l) => G !! l = None /\ msl_history w' (<[l := GL cmp key []]> G) (n + 1) (D ∖ {[l]}))
     (exists h1 h2 h3 h4 m, sa_entry al h1 = None \/ al_info (sa_obj al) h2 = None \/ al_stk (sa_obj al) h3 = None \/
        al_blk (sa_obj al) m h4 = None)
     (msl_create al w (Some cmp) (Some key)).
Proof.
  intros K w G n D al cmp key h Hal Hn Ho Hb. pose proof (msl_history_inv _ _ _ _ h) as I.
  pose proof (C33_create K (mbase w) G n al cmp key (mi_base _ _ _ _ I) Hal Hn Ho Hb) as Hc.
  destruct (msl_create al w (Some cmp) (Some key)) as [[w' l]| | | |] eqn:E; unfold msl_create in E;
    destruct (sl_create al (mbase w) (Some cmp) (Some key)) as [[w1 l1]| | | |] eqn:E1; cbn [mbind res_bind] in E; try done.
  assert (E2 : msl_create al w (Some cmp) (Some key) = Ret (w', l)) by (unfold msl_create; by rewrite E1).
  injection E as <- <-. cbn [ok] in *. split; [tauto|]. by eapply (mh_create al).
Qed.
Print Assumptions C102_create.

(** on live lists the calls are those of C33 to C35, and a history goes on *)
Theorem C102_live : forall K (w : mworld K) G n D l g, msl_history w G n D -> G !! l = Some g ->
  l ∉ D /\ sl_history (mbase w) G n /\
  (forall al rnd d, sal_ok al -> absent g (g_key g d) -> Z.of_nat (length (g_data g)) < 2 ^ 31 - 2 ->
     ok (fun w' => msl_history w' (<[l := g_insert d g]> G) n D) (exists h, sa_entry al h = None) (msl_insert al rnd w (Some l) d)) /\
  (forall d x, present g (g_key g d) x ->
     exists w', msl_delete w (Some l) d = Ret w' /\ msl_history w' (<[l := g_delete d g]> G) n D) /\
  (forall k d, present g k d -> msl_find w (Some l) k = Ret d) /\ (forall k, absent g k -> msl_find w (Some l) k = Ret None) /\
  (forall X (f : X -> mworld K -> ptr -> res (X * mworld K * Z)) s, msl_iterate f s w (Some l) = calls f s w (g_data g)).
Proof.
  intros K w G n D l g h Hl. pose proof (msl_history_inv _ _ _ _ h) as I. pose proof (mi_base _ _ _ _ I) as Hb.
  pose proof (mcheck_live _ _ _ _ _ I (ex_intro _ g Hl)) as Hc.
  split. { intros HD. pose proof (minv_disj _ _ _ _ _ I HD) as Hx. rewrite Hl in Hx. done. }
  split; [done|]. split; [|split; [|split; [|split]]].
  - intros al rnd d Hal Ha Hlen. pose proof (C33_insert K (mbase w) G n l g al rnd d Hb Hl Hal Ha Hlen) as Hok.
    destruct (sl_insert al rnd (mbase w) (Some l) d) as [w1| | | |] eqn:E;
      assert (E2 : msl_insert al rnd w (Some l) d = (w' ← sl_insert al rnd (mbase w) (Some l) d; Ret (MW w' (mmagic w))))
        by (unfold msl_insert; by rewrite Hc); rewrite E2, E; cbn [mbind res_bind ok] in *; try done.
    eapply (mh_insert al rnd w G n D l g d); try done. by rewrite E2, E.
  - intros d x Hp. destruct (C33_delete K (mbase w) G n l g d x Hb Hl Hp) as (w1 & E & _).
    assert (E2 : msl_delete w (Some l) d = Ret (MW w1 (mmagic w))) by (unfold msl_delete; rewrite Hc; rb; by rewrite E).
    eexists. split; [exact E2|]. by eapply mh_delete.
  - intros k d Hp. unfold msl_find. rewrite Hc. rb. by apply (C33_find K (mbase w) G n l g k Hb Hl).
  - intros k Hp. unfold msl_find. rewrite Hc. rb. by apply (C33_find K (mbase w) G n l g k Hb Hl).
  - intros X f s. unfold msl_iterate. rewrite Hc. rb. rewrite (C35_iterate K (mbase w) G n l g _ _ _ Hb Hl).
    rewrite iterate_mcalls. by destruct w.
Qed.
Print Assumptions C102_live.
(** the shutdown, which gives the memory back, ends both *)
Theorem C102_shutdown : forall K (w : mworld K) n D, msl_history w ∅ n D ->
  exists w', msl_shutdown w = Ret w' /\ msl_history w' ∅ 0 ∅ /\ sent (mbase w') = ∅ /\ oblk (sobj (mbase w')) = ∅.
Proof.
  intros K w n D h. pose proof (msl_history_inv _ _ _ _ h) as I.
  destruct (C34_shutdown K (mbase w) n (mi_base _ _ _ _ I)) as (w1 & E & _ & _ & H1 & H2).
  assert (E2 : exists m, msl_shutdown w = Ret (MW w1 m)) by (unfold msl_shutdown; rewrite E; rb; eauto).
  destruct E2 as [m E2]. eexists. split; [exact E2|]. split; [|done]. by eapply mh_shutdown.
Qed.
Print Assumptions C102_shutdown.

(** two lists, the first destroyed: a call on it stops the program, the second still works;
    the next sl_create reuses its address *)
Definition mnew (w : mworld Z) : mworld Z := (getr (msl_create ex_sal w (Some zcmp) (Some zkey)) (mempty, 1%positive)).1.
Definition m2 : mworld Z := mnew (mnew mempty).
Definition m3 : mworld Z := getr (msl_insert ex_sal (ones 2) m2 (Some l2) (D 5)) mempty.
Definition m4 : mworld Z := getr (msl_destroy ex_sal m3 (Some l1)) mempty.
Lemma mnew_ok w G n D l : msl_history w G n D -> Z.of_nat n <? 2 ^ 31 - 1 = true ->
  is_ret (msl_create ex_sal w (Some zcmp) (Some zkey)) = true ->
  (getr (msl_create ex_sal w (Some zcmp) (Some zkey)) (mempty, 1%positive)).2 = l ->
  msl_history (mnew w) (<[l := g0]> G) (n + 1) (D ∖ {[l]}).
Proof.
  intros h Hb Hr <-. eapply (mh_create ex_sal); [exact h|apply ex_sal_ok|apply ex_sal_ok|apply zcmp_order|lia|]. by apply getr_ok2.
Qed.
Example C102_reachable : exists G D, msl_history m4 G 2 D /\ 1%positive ∈ D /\
  (exists g, G !! 2%positive = Some g /\ g_data g = [Some 5%positive]) /\
  msl_find m4 (Some 1%positive) 5 = Abort /\ msl_find m4 (Some 2%positive) 5 = Ret (Some 5%positive) /\
  (getr (msl_create ex_sal m4 (Some zcmp) (Some zkey)) (mempty, 3%positive)).2 = 1%positive /\
  msl_find (mnew m4) (Some 1%positive) 5 = Ret None.
Proof.
  assert (h : msl_history (K := Z) mempty ∅ 0 ∅) by constructor.
  apply (mnew_ok _ _ _ _ l1) in h; [|vm_compute; reflexivity..].
  apply (mnew_ok _ _ _ _ l2) in h; [|vm_compute; reflexivity..]. fold m2 in h.
  eapply (mh_insert ex_sal (ones 2) _ _ _ _ l2 g0 (D 5) m3) in h;
    [|apply ex_sal_ok|apply lookup_insert|apply absentb_ok; vm_compute; reflexivity|cbn; lia|apply getr_ok; vm_compute; reflexivity].
  eapply (mh_destroy ex_sal _ _ _ _ l1 g0 m4) in h;
    [|apply ex_sal_ok|apply ex_sal_ok|rewrite !lookup_insert_ne by done; apply lookup_insert|apply getr_ok; vm_compute; reflexivity].
  eexists _, _. split; [exact h|]. split; [by apply elem_of_union_l, elem_of_singleton|]. split.
  { exists (g_insert (D 5) g0). split; [|vm_compute; reflexivity]. rewrite lookup_delete_ne by done. apply lookup_insert. }
  repeat split; vm_compute; reflexivity.
Qed.
