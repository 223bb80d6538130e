(** C39 (position loops), C84: the functions on the global string pool, str_pool_copyn, str_pool_grow. *)
From Verif Require Import Base Alloc ListLemmas CStr StackModel StackProofs ObjModel ObjProofs MemModel MemProofs MemHist MemProps.
From Verif Require Import PrimeModel HashModel HashSpec HashProofs HashHist HashFnModel HashFnProofs StrModel StrProofs StrHist StrProps.
Local Open Scope Z_scope.

(** a loop STR_ITERATE sees every interned string once, in the order of str_pool_iterate; left early it leaves the pool
    read-only (and there is no call to undo that: STR_ITERATE_END names a function that does not exist) *)
Theorem C39_STR_ITERATE : forall w G p g, pool_history w G -> G !! p = Some g ->
  exists l : list positive, l ≡ₚ (q_int g).*2 /\
  forall X (strs : X -> ptr -> list (list N)) (f : ptr -> X -> X * Z) (u : X) fuel,
  (forall u k, Forall str_ok (strs u k)) -> (length l < fuel)%nat ->
  exists w' g', STR_ITERATE (lookup_it (Some p) strs f) fuel w (Some p) u = Ret ((walk f l u).1, w', (walk f l u).2) /\
     keeps p (w, G) (w', <[p := g']> G) /\ q_int g' = q_int g /\ q_mem g' = q_mem g /\
     q_ro g' = (if decide (l = []) then q_ro g else if (walk f l u).2 then 1 else 0).
Proof.
  intros w G p g H Hg. destruct (C39_iterate w G p g H Hg) as (l & Hl & Hi). exists l. split; [assumption|].
  intros X strs f u fuel Hs Hf. destruct (Hi X strs f u fuel Hs Hf) as [(w' & g' & E & Hk) _]. exists w', g'. split; [|exact Hk].
  unfold str_pool_iterate in E. unfold STR_ITERATE. destruct (str_pool_init_position w (Some p)) as [[w0 pos]| | | |]; try discriminate E.
  cbn [mbind res_bind] in E |- *. destruct (keys_loop _ fuel w0 (Some p) pos u) as [[[s1 w1] b]| | | |]; try discriminate E.
  cbn [mbind res_bind] in E. injection E as E1 E2 E3. subst. destruct b, (walk f l u).2; congruence.
Qed.
Print Assumptions C39_STR_ITERATE.

(** ** C84 *)
(** Each of str_find, str_findn, str_copy, str_grow and str_finish is the pool function applied to the global pool; if there
    is none it is created first, new and empty.  The only other outcome is that there is no memory for it. *)
Theorem C84_global : forall w G al, pool_history w G -> palloc_ok al ->
  (exists w1 p G1, glob w1 = Some p /\ later (w, G) (w1, G1) /\ is_Some (G1 !! p) /\
     (glob w = None -> G !! p = None /\ G1 = <[p := fresh_pool]> G) /\
     (forall q, glob w = Some q -> p = q /\ w1 = w /\ G1 = G) /\
     (forall s, str_find al w s = str_pool_find al w1 (Some p) s) /\
     (forall s, str_copy al w s = str_pool_copy al w1 (Some p) s) /\
     (forall s len, str_grow al w s len = str_pool_grow al w1 (Some p) s len) /\
     str_finish al w = str_pool_finish al w1 (Some p)) \/
  (glob w = None /\
   (pa_pool al (pools w) = None \/ m_info (pa_mem al) (minf (pmem w)) = None \/
    m_stk (pa_mem al) (stks (msh (pmem w))) = None \/ can_fail (pa_hash al)) /\
   (forall s, str_find al w s = Fatal) /\ (forall s, str_copy al w s = Fatal) /\
   (forall s len, str_grow al w s len = Fatal) /\ str_finish al w = Fatal).
Proof.
  intros w G al H Hal. destruct (st_inv w G H) as [GM I]. cbn [fst snd] in I. destruct (glob w) as [q|] eqn:Hgl.
  - left. exists w, q, G. split; [assumption|]. split; [apply rtc_refl|]. split; [exact (wi_glob _ _ _ I q Hgl)|]. split; [discriminate|].
    split; [by intros ? [= <-]|]. assert (E : check_global al w = Ret w) by (unfold check_global; by rewrite Hgl).
    unfold str_find, str_copy, str_grow, str_finish. rewrite E. cbn [mbind res_bind]. rewrite Hgl. done.
  - destruct (check_global al w) as [w1| | | |] eqn:E.
    + left. destruct (global_ok al w G GM w1 I Hal Hgl E) as (p & Hp & HG & _ & _). exists w1, p, (<[p := fresh_pool]> G).
      split; [assumption|]. split; [apply rtc_once; by eapply pc_global|]. split; [rewrite lookup_insert; eauto|]. split; [done|]. split; [discriminate|].
      unfold str_find, str_copy, str_grow, str_finish. rewrite E. cbn [mbind res_bind]. rewrite Hp. done.
    + right. split; [reflexivity|]. pose proof (pool_create_ok w G GM al I Hal) as Hc. split.
      * unfold check_global in E. rewrite Hgl in E. destruct (str_pool_create al w) as [[? ?]| | | |]; try discriminate E. exact Hc.
      * unfold str_find, str_copy, str_grow, str_finish. rewrite E. cbn [mbind res_bind]. done.
    + exfalso. pose proof (pool_create_ok w G GM al I Hal) as Hc. unfold check_global in E. rewrite Hgl in E. destruct (str_pool_create al w) as [[? ?]| | | |]; done.
    + exfalso. pose proof (pool_create_ok w G GM al I Hal) as Hc. unfold check_global in E. rewrite Hgl in E. destruct (str_pool_create al w) as [[? ?]| | | |]; done.
    + exfalso. pose proof (pool_create_ok w G GM al I Hal) as Hc. unfold check_global in E. rewrite Hgl in E. destruct (str_pool_create al w) as [[? ?]| | | |]; done.
Qed.
Print Assumptions C84_global.

(** the first [len] bytes of the argument, or fewer if a NUL comes first, are [s] *)
Definition first_bytes (src : list N) (len : Z) (s : list N) : Prop :=
  exists tl, src = s ++ tl /\ (len = Z.of_nat (length s) \/ (Z.of_nat (length s) < len /\ exists tl', tl = 0%N :: tl')).
Lemma strncpy_first src : forall s n, str_ok s -> first_bytes src (Z.of_nat n) s ->
  c_strncpy src n = Ret (s ++ replicate (n - length s) 0%N).
Proof.
  induction src as [|b src IH]; intros s n Hs (tl & E & Hl).
  - destruct s; [|discriminate E]. cbn [app] in E. subst tl. destruct Hl as [Hl|(_ & tl' & [=])]. cbn [length] in Hl.
    assert (n = 0%nat) as -> by lia. reflexivity.
  - destruct s as [|c s]; cbn [app] in E.
    + destruct n as [|n]; [reflexivity|]. destruct Hl as [Hl|(_ & tl' & ->)]; [cbn in Hl; lia|]. injection E as -> ->. reflexivity.
    + injection E as -> ->. apply Forall_cons in Hs as [Hc Hs]. cbn [length] in Hl. destruct n as [|n]; [lia|]. cbn [c_strncpy length].
      assert ((c =? 0)%N = false) as -> by (unfold CStr.str_ok in *; apply N.eqb_neq; lia).
      rewrite (IH s n Hs); [reflexivity|]. exists tl. split; [reflexivity|]. destruct Hl as [Hl|[Hl Ht]]; [left; lia|right; split; [lia|assumption]].
Qed.
(** str_findn is str_find of these bytes; they need not be terminated *)
Theorem C84_findn : forall al w src len s, 0 <= len < 2 ^ 31 - 1 -> str_ok s -> first_bytes src len s ->
  exists pad, str_findn al w src len = str_find al w (s ++ 0%N :: pad).
Proof.
  intros al w src len s Hl Hs Hf. exists (replicate (Z.to_nat len - length s) 0%N). unfold str_findn, str_find.
  rewrite sint_ok by lia. rb. destruct (check_global al w) as [w1| | | |]; try reflexivity. rb.
  destruct (Z.ltb_spec len 0); [lia|]. rewrite (strncpy_first src s); [|assumption|by rewrite Z2Nat.id by lia]. rb. f_equal.
  rewrite <- app_assoc. f_equal. rewrite <- replicate_cons_app || (change [0%N] with (replicate 1 0%N); rewrite <- replicate_plus, Nat.add_comm). reflexivity.
Qed.
Print Assumptions C84_findn.
(** a negative length, or 2^31-1, never gives a string *)
Theorem C84_findn_bad : forall al w src len w' a, - 2 ^ 31 <= len < 2 ^ 31 -> len < 0 \/ len = 2 ^ 31 - 1 -> str_findn al w src len <> Ret (w', a).
Proof.
  intros al w src len w' a Hi [Hl| ->]; unfold str_findn.
  - destruct (sint (len + 1)) as [n| | | |]; try discriminate. rb. destruct (check_global al w); try discriminate. rb. by rewrite (proj2 (Z.ltb_lt len 0)).
  - discriminate.
Qed.
Print Assumptions C84_findn_bad.
(** str_exists and str_copyn do not create the pool: with no global pool they dereference NULL; str_get_stats reports zeros *)
Theorem C84_no_pool : forall al w, glob w = None ->
  (forall s, str_exists w s = UB) /\ (forall s len, str_copyn al w s len = UB) /\ str_get_stats true al w = Ret (0, 0, 0, 0, 0).
Proof.
  intros al w Hgl. unfold str_exists, str_copyn, str_get_stats, str_pool_exists, str_pool_copyn. rewrite Hgl. done.
Qed.
Print Assumptions C84_no_pool.
Theorem C84_with_pool : forall al w p, glob w = Some p ->
  (forall s, str_exists w s = str_pool_exists w (Some p) s) /\ (forall s len, str_copyn al w s len = str_pool_copyn al w (Some p) s len) /\
  str_get_stats true al w = str_pool_get_stats true al w (Some p).
Proof. intros al w p Hgl. unfold str_exists, str_copyn, str_get_stats. rewrite Hgl. done. Qed.
Print Assumptions C84_with_pool.
(** str_pool_copyn: a new block with len + 1 bytes of the argument, not interned; so it is a string of [len] bytes only if the
    byte after the first [len] is NUL, and an argument without that byte is read past its end *)
Theorem C84_copyn : forall w G p g al src len, pool_history w G -> G !! p = Some g -> palloc_ok al ->
  0 <= len < Z.of_nat (length src) -> room (q_mem g) (len + 1) ->
  ok (fun '(w', a) => exists g', keeps p (w, G) (w', <[p := g']> G) /\ q_int g' = q_int g /\
        mblk (pmem w) !! a = None /\ mblk (pmem w') = <[a := take (Z.to_nat len + 1) src]> (mblk (pmem w)))
     (pfail al) (str_pool_copyn al w (Some p) src len).
Proof.
  intros w G p g al src len H Hg Hal Hs Hr. destruct (st_inv w G H) as [GM I].
  pose proof (copyn_ok w G GM I p g Hg al Hal src len Hs Hr) as Hc.
  destruct (str_pool_copyn _ _ _ _ _) as [[w' a]| | | |] eqn:E; cbn [ok] in *; try done. destruct Hc as (_ & Hn & Hm).
  eexists. split; [|split; [|split; [exact Hn|exact Hm]]]; [apply st_step; [by eapply pc_copyn|]; rewrite lookup_insert; eauto|reflexivity].
Qed.
Print Assumptions C84_copyn.
Theorem C84_copyn_overread : forall w G p g al src len, pool_history w G -> G !! p = Some g -> palloc_ok al ->
  0 <= len < 2 ^ 31 - 1 -> Z.of_nat (length src) <= len -> ~ may_fail (pa_mem al) ->
  str_pool_copyn al w (Some p) src len = UB.
Proof.
  intros w G p g al src len H Hg Hal Hl Hs Hnf. destruct (st_inv w G H) as [GM I]. cbn [fst snd] in I.
  destruct (get_pool w G GM I p g Hg) as (x & Hx & Ho & E). unfold str_pool_copyn. rewrite E. rb.
  by rewrite (C27_overread (pmem w) GM (pa_mem al) (pstr x) (q_mem g) src len (wi_mem _ _ _ I) (pal_mem _ Hal) (po_mem _ _ _ Ho) Hl Hs Hnf).
Qed.
Print Assumptions C84_copyn_overread.
(** str_pool_grow adds bytes to the string under construction and does nothing else *)
Theorem C84_grow : forall w G p g al src len, pool_history w G -> G !! p = Some g -> palloc_ok al ->
  0 <= len <= Z.of_nat (length src) -> room (q_mem g) len -> Forall byte_ok (take (Z.to_nat len) src) ->
  ok (fun w' => exists g', keeps p (w, G) (w', <[p := g']> G) /\ q_int g' = q_int g /\ q_ro g' = q_ro g /\
        s_done (q_mem g') = s_done (q_mem g) /\ s_cur (q_mem g') = s_cur (q_mem g) ++ take (Z.to_nat len) src /\
        s_bytes (q_mem g') = s_bytes (q_mem g) + len)
     (pfail al) (str_pool_grow al w (Some p) src len).
Proof.
  intros w G p g al src len H Hg Hal Hs Hr Hb. destruct (st_inv w G H) as [GM I].
  pose proof (grow_ok w G GM I p g Hg al Hal src len Hs Hr Hb) as Hc.
  destruct (str_pool_grow _ _ _ _ _) as [w'| | | |] eqn:E; cbn [ok] in *; try done.
  eexists. split; [apply st_step; [by eapply pc_grow|]; rewrite lookup_insert; eauto|]. done.
Qed.
Print Assumptions C84_grow.

(** ** concrete cases: str_findn of two of three bytes on first use; then the same string by str_find; a copy of n bytes *)
Definition q1 := str_findn ex_pal pempty [97; 98; 99]%N 2.
Definition q2 := str_find ex_pal (wn q1) [97; 98; 0]%N.
Definition q3 := str_copyn ex_pal (wn q2) [120; 121; 122]%N 2.
Definition q4 := str_findn ex_pal (wn q2) [97; 0; 99]%N 3.
Example C84_ex :
  first_bytes [97; 98; 99]%N 2 [97; 98]%N /\ first_bytes [97; 0; 99]%N 3 [97]%N /\
  glob (wn q1) = Some 1%positive /\ pn q2 = pn q1 /\ mblk (pmem (wn q2)) !! pn q1 = Some [97; 98; 0]%N /\
  mblk (pmem (wn q3)) !! pn q3 = Some [120; 121; 122]%N /\
  str_copyn ex_pal (wn q2) [120; 121]%N 2 = UB /\ mblk (pmem (wn q4)) !! pn q4 = Some [97; 0]%N /\
  str_get_stats true ex_pal (wn q4) = Ret (2, 5, 3, 1, 2).
Proof.
  split; [exists [99]%N; split; [reflexivity|left; reflexivity]|]. split; [exists [0; 99]%N; split; [reflexivity|right; split; [reflexivity|by eexists]]|].
  vm_compute. repeat split.
Qed.
(** the pool of StrProps.C36_reachable is a state of a history, so the hypotheses above are met *)
