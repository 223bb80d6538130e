(** C33-C35: skip lists.  [sl_history w G n] (SkipHist.v) says that [w] is reached by
    calls that obey the rules; [G] maps each live list to its order and its data as
    the calls alone determine them (SkipSpec.v).  [rnd] is whatever random() yields. *)
From Verif Require Import Base Alloc StackModel StackProofs ObjModel ObjProofs SkipModel SkipSpec SkipProofs SkipWorld SkipHist.
Local Open Scope Z_scope.

(** ** C33 *)
Theorem C33_create : forall K (w : sworld K) G n al cmp key, sl_history w G n -> sal_ok al -> snodes_ok al -> order cmp ->
  Z.of_nat n < 2 ^ 31 - 1 ->
  ok (fun '(w', l) => G !! l = None /\ sl_history w' (<[l := GL cmp key []]> G) (n + 1))
     (exists h1 h2 h3 h4 m, sa_entry al h1 = None \/ al_info (sa_obj al) h2 = None \/ al_stk (sa_obj al) h3 = None \/
        al_blk (sa_obj al) m h4 = None)
     (sl_create al w (Some cmp) (Some key)).
Proof. exact (fun K w G n al cmp key h => hs_create w G n h al cmp key). Qed.
Print Assumptions C33_create.
Theorem C33_insert : forall K (w : sworld K) G n l g al rnd d, sl_history w G n -> G !! l = Some g -> sal_ok al ->
  absent g (g_key g d) -> Z.of_nat (length (g_data g)) < 2 ^ 31 - 2 ->
  ok (fun w' => sl_history w' (<[l := g_insert d g]> G) n) (exists h, sa_entry al h = None) (sl_insert al rnd w (Some l) d).
Proof. exact (fun K w G n l g al rnd d h Hl => hs_insert w G n h l g Hl al rnd d). Qed.
Print Assumptions C33_insert.
Theorem C33_insert_duplicate : forall K (w : sworld K) G n l g al rnd d x, sl_history w G n -> G !! l = Some g ->
  present g (g_key g d) x -> sl_insert al rnd w (Some l) d = Abort.
Proof. exact (fun K w G n l g al rnd d x h Hl => hs_insert_dup w G n h l g Hl al rnd d x). Qed.
Print Assumptions C33_insert_duplicate.
Theorem C33_delete : forall K (w : sworld K) G n l g d x, sl_history w G n -> G !! l = Some g -> present g (g_key g d) x ->
  exists w', sl_delete w (Some l) d = Ret w' /\ sl_history w' (<[l := g_delete d g]> G) n.
Proof. exact (fun K w G n l g d x h Hl => hs_delete w G n h l g Hl d x). Qed.
Print Assumptions C33_delete.
Theorem C33_delete_absent : forall K (w : sworld K) G n l g d, sl_history w G n -> G !! l = Some g ->
  absent g (g_key g d) -> sl_delete w (Some l) d = Abort.
Proof. exact (fun K w G n l g d h Hl => hs_delete_absent w G n h l g Hl d). Qed.
Print Assumptions C33_delete_absent.
Theorem C33_find : forall K (w : sworld K) G n l g k, sl_history w G n -> G !! l = Some g ->
  (forall d, present g k d -> sl_find w (Some l) k = Ret d) /\ (absent g k -> sl_find w (Some l) k = Ret None).
Proof. exact (fun K w G n l g k h Hl => hs_find w G n h l g Hl k). Qed.
Print Assumptions C33_find.
Theorem C33_null : forall K (w : sworld K) al rnd d k cmp key, sl_insert al rnd w None d = Abort /\ sl_delete w None d = Abort /\
  sl_find w None k = Abort /\ sl_destroy al w None = Abort /\ sl_dump w None = Abort /\
  (smem w <> None -> sl_create al w None key = Abort /\ sl_create al w cmp None = Abort).
Proof.
  intros. do 5 (split; [done|]). intros Hm. unfold sl_create. destruct (smem w); [|done]. rb. split; [done|]. by destruct cmp.
Qed.
Print Assumptions C33_null.

(** ** C34.  None of the calls above reads a freed, NULL or uninitialised entry or an
    out-of-range slot: those are undefined behaviour in the model, excluded by [ok] and [Ret]. *)
Theorem C34_entries : forall K (w : sworld K) G n, sl_history w G n -> size (sent w) = entries_total G.
Proof. exact (fun K w G n h => hs_entries w G n h). Qed.
Print Assumptions C34_entries.
(** the pool of the lists counts as used exactly the live lists *)
Theorem C34_pool_used : forall K (w : sworld K) G n m, sl_history w G n -> smem w = Some m ->
  exists total reused, mem_get_object_stats true (sobj w) (Some m) = Ret (total, Z.of_nat (size G), reused, 48).
Proof. exact (fun K w G n m h => hs_used w G n h m). Qed.
Print Assumptions C34_pool_used.
Theorem C34_level_and_dump : forall K (w : sworld K) G n l g, sl_history w G n -> G !! l = Some g ->
  exists level lines, sl_dump w (Some l) = Ret (level, Z.of_nat (length (g_data g)), lines) /\
    (level <= 16)%nat /\ length lines = S (length (g_data g)).
Proof. exact (fun K w G n l g h Hl => hs_dump w G n h l g Hl). Qed.
Print Assumptions C34_level_and_dump.
Theorem C34_destroy : forall K (w : sworld K) G n l g al, sl_history w G n -> G !! l = Some g -> sal_ok al -> snodes_ok al ->
  exists w', sl_destroy al w (Some l) = Ret w' /\ sl_history w' (delete l G) n.
Proof. exact (fun K w G n l g al h Hl => hs_destroy w G n h l g Hl al). Qed.
Print Assumptions C34_destroy.
Theorem C34_shutdown : forall K (w : sworld K) n, sl_history w ∅ n ->
  exists w', sl_shutdown w = Ret w' /\ sl_history w' ∅ 0 /\ smem w' = None /\ oblk (sobj w') = ∅ /\ sent w' = ∅.
Proof. exact @hs_shutdown. Qed.
Print Assumptions C34_shutdown.

(** ** C35: whatever the callback does to the lists *)
Theorem C35_iterate : forall K (w : sworld K) G n l g X (f : X -> sworld K -> ptr -> res (X * sworld K * Z)) s,
  sl_history w G n -> G !! l = Some g -> sl_iterate f s w (Some l) = calls f s w (g_data g).
Proof. exact (fun K w G n l g X f s h Hl => hs_iterate w G n h l g Hl f s). Qed.
Print Assumptions C35_iterate.
Theorem C35_ascending : forall K (w : sworld K) G n l g, sl_history w G n -> G !! l = Some g -> ascending g /\ order (g_cmp g).
Proof. exact (fun K w G n l g h Hl => hs_ascending w G n h l g Hl). Qed.
Print Assumptions C35_ascending.
Theorem C35_null : forall K (w : sworld K) X (f : X -> sworld K -> ptr -> res (X * sworld K * Z)) s,
  sl_iterate f s w None = Ret (s, w, 0).
Proof. done. Qed.
Print Assumptions C35_null.

(** ** A reachable case: integer keys, two lists, towers of different heights *)
Definition zcmp (a b : Z) : Z := if a <? b then -1 else if a =? b then 0 else 1.
Lemma zcmp_order : order zcmp.
Proof.
  unfold zcmp. constructor; intros a b; [|intros c];
  repeat match goal with |- context [?x <? ?y] => destruct (Z.ltb_spec x y) end;
  repeat match goal with |- context [?x =? ?y] => destruct (Z.eqb_spec x y) end; lia.
Qed.
Definition zkey (d : ptr) : Z := match d with Some p => Zpos p | None => 0 end.
Definition ex_sal : salloc Z := SA bump (OA bump bump bump (fun _ h => (fun a => (a, SL 0 0 1%positive zcmp zkey)) <$> bump h)).
Lemma ex_sal_ok : sal_ok ex_sal /\ snodes_ok ex_sal.
Proof.
  split; [constructor; [apply bump_ok|]; constructor; try apply bump_ok|done].
  intros z h a b. unfold ex_sal. cbn [al_blk sa_obj]. destruct (bump h) as [a'|] eqn:E; [|done].
  cbn. intros [= <- <-]. split; [by apply bump_ok|done].
Qed.
(** random() with k ones *)
Definition ones (k n : nat) : N := if (n <? k)%nat then 255%N else 0%N.
Definition D (p : positive) : ptr := Some p.
Definition absentb (g : glist Z) (k : Z) : bool := forallb (fun d => negb (g_cmp g (g_key g d) k =? 0)) (g_data g).
Lemma absentb_ok g k : absentb g k = true -> absent g k.
Proof. intros H d Hd. unfold absentb in H. rewrite forallb_forall in H. specialize (H d (proj1 (elem_of_list_In _ _) Hd)). lia. Qed.
Definition presentb (g : glist Z) (k : Z) (d : ptr) : bool := bool_decide (d ∈ g_data g) && (g_cmp g (g_key g d) k =? 0).
Lemma presentb_ok g k d : presentb g k d = true -> present g k d.
Proof. unfold presentb. intros [H1 H2]%andb_true_iff. split; [by apply (bool_decide_eq_true_1 _)|lia]. Qed.
Definition l1 : positive := 1.
Definition l2 : positive := 2.
Definition new (w : sworld Z) : sworld Z := (getr (sl_create ex_sal w (Some zcmp) (Some zkey)) (sempty_world, 1%positive)).1.
Definition ins (l : positive) (k : nat) (d : ptr) (w : sworld Z) : sworld Z := getr (sl_insert ex_sal (ones k) w (Some l) d) sempty_world.
Definition del (l : positive) (d : ptr) (w : sworld Z) : sworld Z := getr (sl_delete w (Some l) d) sempty_world.
Definition g0 : glist Z := GL zcmp zkey [].
Definition ga : glist Z := g_insert (D 9) (g_insert (D 5) g0).
Definition gb : glist Z := g_insert (D 2) (g_insert (D 7) ga).
Definition gc : glist Z := g_delete (D 9) gb.
Definition gd : glist Z := g_insert (D 3) g0.
Definition wa : sworld Z := new (ins l1 0 (D 9) (ins l1 3 (D 5) (new sempty_world))).
Definition wb : sworld Z := ins l1 1 (D 2) (ins l1 7 (D 7) (ins l2 40 (D 3) wa)).
Definition wc : sworld Z := del l1 (D 9) wb.
Lemma ins_ok w G n l g k d : sl_history w G n -> G !! l = Some g -> absentb g (g_key g d) = true ->
  Z.of_nat (length (g_data g)) <? 2 ^ 31 - 2 = true ->
  is_ret (sl_insert ex_sal (ones k) w (Some l) d) = true -> sl_history (ins l k d w) (<[l := g_insert d g]> G) n.
Proof.
  intros h Hl Ha Hb Hr. eapply (sh_insert ex_sal (ones k)); [exact h|apply ex_sal_ok|exact Hl|by apply absentb_ok|lia|].
  by apply getr_ok.
Qed.
Lemma new_ok w G n l : sl_history w G n -> Z.of_nat n <? 2 ^ 31 - 1 = true ->
  is_ret (sl_create ex_sal w (Some zcmp) (Some zkey)) = true ->
  (getr (sl_create ex_sal w (Some zcmp) (Some zkey)) (sempty_world, 1%positive)).2 = l ->
  sl_history (new w) (<[l := g0]> G) (n + 1).
Proof.
  intros h Hb Hr <-. eapply (sh_create ex_sal); [exact h|apply ex_sal_ok|apply ex_sal_ok|apply zcmp_order|lia|]. by apply getr_ok2.
Qed.
Lemma wc_history : exists G, sl_history wc G 2 /\ G !! l1 = Some gc /\ G !! l2 = Some gd.
Proof.
  assert (h : sl_history (K := Z) sempty_world ∅ 0) by constructor.
  apply (new_ok _ _ _ l1) in h; [|vm_compute; reflexivity..].
  apply (ins_ok _ _ _ l1 g0 3 (D 5)) in h; [|done|vm_compute; reflexivity..].
  apply (ins_ok _ _ _ l1 (g_insert (D 5) g0) 0 (D 9)) in h; [|apply lookup_insert|vm_compute; reflexivity..].
  apply (new_ok _ _ _ l2) in h; [|vm_compute; reflexivity..]. fold ga wa in h.
  apply (ins_ok _ _ _ l2 g0 40 (D 3)) in h; [|apply lookup_insert|vm_compute; reflexivity..]. fold gd in h.
  apply (ins_ok _ _ _ l1 ga 7 (D 7)) in h; [|rewrite !lookup_insert_ne by done; apply lookup_insert|vm_compute; reflexivity..].
  apply (ins_ok _ _ _ l1 (g_insert (D 7) ga) 1 (D 2)) in h; [|apply lookup_insert|vm_compute; reflexivity..]. fold gb wb in h.
  eapply (sh_delete _ _ _ l1 gb (D 9) (D 9) wc) in h; [|apply lookup_insert|apply presentb_ok; vm_compute; reflexivity|apply getr_ok; vm_compute; reflexivity].
  fold gc in h. eexists. split; [exact h|]. split; [apply lookup_insert|].
  rewrite lookup_insert_ne by done. rewrite lookup_insert_ne by done. rewrite lookup_insert_ne by done. apply lookup_insert.
Qed.
(** lists {2,5,7} and {3}; an iteration whose callback deletes each datum it is given and stops at 5 *)
Example C33_reachable : exists G, sl_history wc G 2 /\
  (exists g, G !! 1%positive = Some g /\ g_data g = [D 2; D 5; D 7] /\ present g 5 (D 5) /\ absent g 4) /\
  (exists g, G !! 2%positive = Some g /\ g_data g = [D 3]) /\
  size (sent wc) = 6%nat /\
  sl_find wc (Some 1%positive) 7 = Ret (D 7) /\ sl_find wc (Some 1%positive) 9 = Ret None /\
  (let r := sl_iterate (fun s w d => w' ← sl_delete w (Some 1%positive) d;
       Ret (s ++ [d], w', if decide (d = D 5) then 8 else 0)) [] wc (Some 1%positive) in
   let '(seen, w', code) := getr r ([], wc, 0) in
   is_ret r = true /\ seen = [D 2; D 5] /\ code = 8 /\
   sl_find w' (Some 1%positive) 2 = Ret None /\ sl_find w' (Some 1%positive) 7 = Ret (D 7)).
Proof.
  destruct wc_history as (G & h & H1 & H2). exists G. split; [done|]. split.
  { exists gc. split; [done|]. split; [vm_compute; reflexivity|]. split; [apply presentb_ok; vm_compute; reflexivity|apply absentb_ok; vm_compute; reflexivity]. }
  split; [exists gd; split; [done|vm_compute; reflexivity]|].
  do 3 (split; [vm_compute; reflexivity|]). vm_compute. repeat split.
Qed.
