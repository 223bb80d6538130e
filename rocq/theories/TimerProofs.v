(** Proofs about timer.c. *)
From Verif Require Import Base CStr ListLemmas PrimeModel HashModel HashSpec HashProofs HashOps HashOps2 HashIter HashHist HashFnModel HashFnProofs NameTab HashSim.
From Verif Require Import TimerModel TimerSpec.
Local Open Scope Z_scope.

(** ** arithmetic *)
Lemma slong_ok z : - 2 ^ 63 <= z < 2 ^ 63 -> slong z = Ret z.
Proof. intros H. unfold slong. by rewrite (proj2 (Z.leb_le _ _)), (proj2 (Z.ltb_lt _ _)) by lia. Qed.
Lemma difftime_ok now thn : wf_time now -> wf_time thn -> DIFFTIME now thn = Ret (secs now thn).
Proof.
  intros [H1 H2] [H3 H4]. unfold DIFFTIME, secs. 
  assert (E : Z.quot (tv_usec now - tv_usec thn) 1000000 = 0) by (apply Z.quot_small_iff; lia).
  rewrite !slong_ok by lia. rb. rewrite E. rewrite slong_ok by lia. f_equal. lia.
Qed.

(** ** invariant *)
Definition rep (e : tentry) (t : timer) : Prop :=
  e_mark e = Some (started t) /\ wf_clock (started t) /\ e_real e = wall t /\
  e_self_user e + e_children_user e = user t /\ e_self_system e + e_children_system e = system t.
Definition ptrs (l : list (list N * positive)) : list (list N * ptr) := (fun na => (na.1, Some na.2)) <$> l.
Record tinv (s : tstate) (M : timers) (l : list (list N * positive)) : Prop := {
  v_hash : match thash s with Some t => named None t (ptrs l) | None => l = [] end;
  v_dom : forall a, is_Some (tents s !! a) <-> a ∈ l.*2;
  v_nd1 : NoDup l.*1;
  v_nd2 : NoDup l.*2;
  v_rep : forall n a, (n, a) ∈ l -> exists e t, tents s !! a = Some e /\ M !! n = Some t /\ rep e t;
  v_none : forall n, n ∉ l.*1 -> M !! n = None;
  v_str : forall n, n ∈ l.*1 -> str_ok n }.

Lemma lookup_ptrs n l : lookup_name n (ptrs l) = Some <$> (lookup_name n l).
Proof.
  induction l as [|[m a] l IH]; [done|]. cbn [ptrs fmap list_fmap lookup_name fst snd]. destruct (decide (m = n)); [done|]. exact IH.
Qed.
Lemma lookup_none_in {D} n (l : list (list N * D)) : lookup_name n l = None -> n ∉ l.*1.
Proof.
  induction l as [|[m a] l IH]; intros E Hin; [by apply elem_of_nil in Hin|]. cbn [lookup_name] in E.
  destruct (decide (m = n)); [done|]. rewrite fmap_cons in Hin. apply elem_of_cons in Hin as [?|Hin]; [by subst|]. by apply IH.
Qed.
Lemma tinv_lookup s M l n : tinv s M l ->
  match lookup_name n l with
  | Some a => exists e t, (n, a) ∈ l /\ tents s !! a = Some e /\ M !! n = Some t /\ rep e t
  | None => M !! n = None /\ n ∉ l.*1
  end.
Proof.
  intros Hi. destruct (lookup_name n l) as [a|] eqn:E.
  - apply lookup_in in E. destruct (v_rep _ _ _ Hi n a E) as (e & t & H). exists e, t. done.
  - apply lookup_none_in in E. split; [by apply (v_none _ _ _ Hi)|done].
Qed.
Lemma tinv_start : tinv tstart ∅ [].
Proof.
  constructor; cbn [thash tents tstart]; try done.
  - intros a. rewrite lookup_empty. split; [by intros [? ?]|intros H; by apply elem_of_nil in H].
  - apply NoDup_nil_2.
  - apply NoDup_nil_2.
  - intros n a H. by apply elem_of_nil in H.
  - intros n H. by apply elem_of_nil in H.
Qed.

Lemma nodup_fst {A B} (l : list (A * B)) x y z : NoDup l.*1 -> (x, y) ∈ l -> (x, z) ∈ l -> y = z.
Proof.
  intros Hn H1 H2. apply elem_of_list_lookup in H1 as [i H1]. apply elem_of_list_lookup in H2 as [j H2].
  assert (i = j) as ->. { eapply (NoDup_lookup l.*1 i j x Hn); rewrite list_lookup_fmap; [by rewrite H1|by rewrite H2]. }
  congruence.
Qed.
Lemma nodup_snd {A B} (l : list (A * B)) x y z : NoDup l.*2 -> (x, z) ∈ l -> (y, z) ∈ l -> x = y.
Proof.
  intros Hn H1 H2. apply elem_of_list_lookup in H1 as [i H1]. apply elem_of_list_lookup in H2 as [j H2].
  assert (i = j) as ->. { eapply (NoDup_lookup l.*2 i j z Hn); rewrite list_lookup_fmap; [by rewrite H1|by rewrite H2]. }
  congruence.
Qed.
(** replacing the entry of a timer *)
Lemma tinv_update s M l t' n a e tm : tinv s M l -> (n, a) ∈ l -> named None t' (ptrs l) -> rep e tm ->
  tinv (TS (Some t') (<[a := e]> (tents s))) (<[n := tm]> M) l.
Proof.
  intros [I1 I2 I3 I4 I5 I6 I7] Hin Ht He. constructor; cbn [thash tents]; try done.
  - intros b. destruct (decide (b = a)) as [->|Hne].
    + rewrite lookup_insert. split; [intros _|eauto]. apply elem_of_list_fmap. by exists (n, a).
    + rewrite lookup_insert_ne by done. apply I2.
  - intros m b Hb. destruct (decide (b = a)) as [->|Hne].
    + assert (m = n) as ->.
      { by eapply (nodup_snd l m n a). }
      exists e, tm. split; [apply lookup_insert|split; [apply lookup_insert|done]].
    + destruct (decide (m = n)) as [->|Hm].
      { exfalso. apply Hne. by eapply (nodup_fst l n b a). }
      rewrite !lookup_insert_ne by done. by apply I5.
  - intros m Hm. rewrite lookup_insert_ne; [by apply I6|]. intros <-. apply Hm. apply elem_of_list_fmap. by exists (n, a).
Qed.
Lemma tinv_hash s M l t' : tinv s M l -> named None t' (ptrs l) -> tinv (TS (Some t') (tents s)) M l.
Proof. intros []. by constructor. Qed.

Definition tfail (al : talloc) : Prop := can_fail (t_hash al) \/ exists h, t_ent al h = None.
Lemma check_ok al s M l : tinv s M l -> talloc_ok al -> ok (fun t => named None t (ptrs l)) (tfail al) (tim_check al s).
Proof.
  intros Hi [Hal _]. unfold tim_check. pose proof (v_hash _ _ _ Hi) as Hh. destruct (thash s) as [t|]; [done|]. subst l.
  eapply ok_mono; [apply (nt_create None _ Hal)|done|]. by left.
Qed.
Lemma start_ok al s M l c n rest : tinv s M l -> talloc_ok al -> wf_clock c -> str_ok n ->
  ok (fun s' => exists l', tinv s' (<[n := start c (M !! n)]> M) l') (tfail al) (tim_start al s c (Some (n ++ 0%N :: rest))).
Proof.
  intros Hi Hal Hc Hn. unfold tim_start. apply (ok_bind (fun t => named None t (ptrs l))); [by eapply check_ok|].
  intros t Ht. destruct (name_key_ok n rest Hn) as (k & -> & Hk). rb. destruct (nt_retrieve None t (ptrs l) k Ht) as (t1 & E1 & Ht1).
  unfold tenv. rewrite E1. rb. rewrite Hk, lookup_ptrs. pose proof (tinv_lookup s M l n Hi) as Hl.
  destruct (lookup_name n l) as [a|] eqn:El; cbn [fmap option_fmap option_map].
  - destruct Hl as (e & tm & Hin & He & Hm & Hrep). cbn [id default]. rb. unfold hget, hset. rewrite He. rb. rewrite Hm. cbn [ok]. exists l.
    apply tinv_update; try done. destruct Hrep as (R1 & R2 & R3 & R4 & R5). split; [done|]. split; [done|]. done.
  - destruct Hl as [Hm Hnin]. cbn [default]. destruct (t_ent al (tents s)) as [a|] eqn:Ea; [|right; eauto].
    pose proof (proj2 Hal _ _ Ea) as Hfresh.
    apply (ok_bind (fun '(t2, h, b) => named None t2 (ptrs ((n, a) :: l)) /\ h = <[a := TE 0 0 0 0 0 None]> (tents s) /\ b = a)).
    + apply (ok_bind (fun '(t2, r) => named None t2 (ptrs ((n, a) :: l)))); [|by intros [t2 r] Ht2].
      eapply ok_mono; [apply (nt_insert None _ t1 _ k (Some a) (proj1 Hal) Ht1)| |by left]. intros [t2 r] [H _]. rewrite Hk in H.
      unfold add_name in H. rewrite lookup_ptrs, El in H. exact H.
    + intros [[t2 h] b] (Ht2 & -> & ->). unfold hget, hset. rewrite lookup_insert. rb. cbn [ok e_real e_self_user e_self_system e_children_user e_children_system].
      rewrite insert_insert. exists ((n, a) :: l). rewrite Hm. cbn [start]. destruct Hi as [I1 I2 I3 I4 I5 I6 I7].
      assert (Ha : a ∉ l.*2). { intros Hin. apply I2 in Hin as [? Hin]. congruence. }
      constructor; cbn [thash tents]; try done; rewrite ?fmap_cons; cbn [fst snd].
      * intros b. rewrite elem_of_cons. destruct (decide (b = a)) as [->|Hne]; [rewrite lookup_insert; split; eauto|].
        rewrite lookup_insert_ne by done. rewrite I2. naive_solver.
      * by constructor.
      * by constructor.
      * intros m b Hin. apply elem_of_cons in Hin as [[= -> ->]|Hin].
        -- eexists _, _. rewrite !lookup_insert. split; [done|]. split; [done|]. by repeat split; try apply Hc.
        -- rewrite !lookup_insert_ne; [by apply I5| |].
           ++ intros <-. apply Hnin. apply elem_of_list_fmap. by exists (n, b).
           ++ intros <-. apply Ha. apply elem_of_list_fmap. by exists (m, a).
      * intros m Hin. rewrite lookup_insert_ne; [apply I6|]; intros H; apply Hin; [by right|subst; by left].
      * intros m Hin. apply elem_of_cons in Hin as [->|Hin]; [done|by apply I7].
Qed.
(** the lookup *)
Lemma find_ok al s M l n rest a : tinv s M l -> talloc_ok al -> str_ok n -> lookup_name n l = Some a ->
  exists t1, tim_find al s (Some (n ++ 0%N :: rest)) = Ret (t1, a) /\ named None t1 (ptrs l).
Proof.
  intros Hi Hal Hn El. unfold tim_find, tim_check. pose proof (v_hash _ _ _ Hi) as Hh. destruct (thash s) as [t|]; [|subst l; done].
  rb. destruct (name_key_ok n rest Hn) as (k & -> & Hk). rb. destruct (nt_retrieve None t (ptrs l) k Hh) as (t1 & E1 & Ht1).
  unfold tenv. rewrite E1. rb. rewrite Hk, lookup_ptrs, El. cbn [fmap option_fmap option_map default id]. eauto.
Qed.
Lemma find_unknown al s M l n rest : tinv s M l -> talloc_ok al -> str_ok n -> lookup_name n l = None ->
  tim_find al s (Some (n ++ 0%N :: rest)) = Abort \/ (tim_find al s (Some (n ++ 0%N :: rest)) = Fatal /\ tfail al).
Proof.
  intros Hi Hal Hn El. unfold tim_find. pose proof (check_ok al s M l Hi Hal) as Hc. destruct (tim_check al s) as [t| | | |]; cbn [ok] in Hc; try done; [|by right].
  left. rb. destruct (name_key_ok n rest Hn) as (k & -> & Hk). rb. destruct (nt_retrieve None t (ptrs l) k Hc) as (t1 & E1 & Ht1).
  unfold tenv. rewrite E1. rb. rewrite Hk, lookup_ptrs, El. done.
Qed.
Lemma stop_ok al s M l c n rest tm : tinv s M l -> talloc_ok al -> wf_clock c -> str_ok n -> M !! n = Some tm ->
  exists s', tim_stop al s c (Some (n ++ 0%N :: rest)) = Ret s' /\ tinv s' (<[n := stop c tm]> M) l.
Proof.
  intros Hi Hal Hc Hn Hm. pose proof (tinv_lookup s M l n Hi) as Hl. destruct (lookup_name n l) as [a|] eqn:El; [|destruct Hl; congruence].
  destruct Hl as (e & t' & Hin & He & Hm' & Hrep). rewrite Hm in Hm'. injection Hm' as <-.
  destruct (find_ok al s M l n rest a Hi Hal Hn El) as (t1 & E1 & Ht1). unfold tim_stop. rewrite E1. rb.
  unfold hget, hset. rewrite He. rb. destruct Hrep as (R1 & R2 & R3 & R4 & R5). rewrite R1.
  destruct Hc as (C1 & C2 & C3 & C4 & C5). pose proof R2 as (D1 & D2 & D3 & D4 & D5). rewrite !difftime_ok by done. rb.
  eexists. split; [reflexivity|]. apply tinv_update; try done.
Qed.
Lemma reset_ok al s M l n rest tm : tinv s M l -> talloc_ok al -> str_ok n -> M !! n = Some tm ->
  exists s', tim_reset al s (Some (n ++ 0%N :: rest)) = Ret s' /\ tinv s' (<[n := reset tm]> M) l.
Proof.
  intros Hi Hal Hn Hm. pose proof (tinv_lookup s M l n Hi) as Hl. destruct (lookup_name n l) as [a|] eqn:El; [|destruct Hl; congruence].
  destruct Hl as (e & t' & Hin & He & Hm' & Hrep). rewrite Hm in Hm'. injection Hm' as <-.
  destruct (find_ok al s M l n rest a Hi Hal Hn El) as (t1 & E1 & Ht1). unfold tim_reset. rewrite E1. rb.
  unfold hget, hset. rewrite He. rb. eexists. split; [reflexivity|]. destruct Hrep as (R1 & R2 & R3 & R4 & R5).
  apply tinv_update; try done.
Qed.
Lemma get_ok f al s M l n rest tm : tinv s M l -> talloc_ok al -> str_ok n -> M !! n = Some tm ->
  exists s' e, tim_get f al s (Some (n ++ 0%N :: rest)) = Ret (s', f e) /\ rep e tm /\ tinv s' M l.
Proof.
  intros Hi Hal Hn Hm. pose proof (tinv_lookup s M l n Hi) as Hl. destruct (lookup_name n l) as [a|] eqn:El; [|destruct Hl; congruence].
  destruct Hl as (e & t' & Hin & He & Hm' & Hrep). rewrite Hm in Hm'. injection Hm' as <-.
  destruct (find_ok al s M l n rest a Hi Hal Hn El) as (t1 & E1 & Ht1). unfold tim_get. rewrite E1. rb.
  unfold hget. rewrite He. rb. eexists _, e. split; [reflexivity|]. split; [done|]. by apply tinv_hash.
Qed.

(** ** printing: the lookups are those of an iteration with a script *)
Definition scr3 (seen : list (skey * ptr)) : list (@act skey) :=
  match last seen with Some (k, _) => [ARet k; ARet k; ARet k] | None => [] end.
Lemma scr3_ok : touches_seen tenv scr3.
Proof.
  intros seen x Hx. unfold scr3 in Hx. destruct (last seen) as [[k d]|] eqn:E; [|by apply elem_of_nil in Hx].
  apply last_Some in E as [l ->]. exists (k, d). split; [apply elem_of_app; right; by left|].
  assert (akey x = k) as -> by (repeat (apply elem_of_cons in Hx as [->|Hx]; [done|]); by apply elem_of_nil in Hx).
  cbn [fst]. destruct k as [s Hs]. cbn [tenv string_env cmpf]. by apply scmp_refl.
Qed.
Lemma retrieve_key t (k k' : skey) : proj1_sig k = proj1_sig k' -> hsh_retrieve tenv t k = hsh_retrieve tenv t k'.
Proof.
  intros E. assert (Ef : forall n h q p, find_loop tenv n h q p k = find_loop tenv n h q p k').
  { induction n as [|n IH]; intros h q p; destruct p as [a|]; cbn [find_loop]; try done. destruct (hget h a) as [b| | | |]; try done.
    cbn [mbind res_bind]. unfold tenv at 1 3, string_env at 1 2. cbn [cmpf]. rewrite E. destruct (_ =? 0)%Z; [done|]. apply IH. }
  assert (Eh : hashf tenv k = hashf tenv k') by (unfold tenv, string_env; cbn [hashf]; by rewrite E).
  unfold hsh_retrieve. cbv zeta. rewrite Eh. destruct (umod _ _) as [h| | | |]; try done. cbn [mbind res_bind].
  destruct (hsh_check _); try done. cbn [mbind res_bind]. destruct (aget _ _) as [p| | | |]; try done. cbn [mbind res_bind].
  rewrite Ef. reflexivity.
Qed.

Definition entry_line (h : gmap positive tentry) (kd : skey * ptr) : list N * (Z * Z * Z) :=
  (proj1_sig kd.1,
   match kd.2 with
   | Some a => match h !! a with Some e => (e_real e, e_self_user e + e_children_user e, e_self_system e + e_children_system e) | None => (0, 0, 0) end
   | None => (0, 0, 0)
   end).
Lemma print_ok al s M l t : tinv s M l -> thash s = Some t ->
  exists t' m, tim_print_timers al s = Ret (TS (Some t') (tents s), entry_line (tents s) <$> m) /\ names_of m ≡ₚ ptrs l /\ named None t' (ptrs l).
Proof.
  intros Hi Et. pose proof (v_hash _ _ _ Hi) as Hh. rewrite Et in Hh. unfold tim_print_timers. rewrite Et.
  pose proof Hh as (gh & Hgh & El & Hro). destruct (P_contents tenv t gh (string_env_good _) Hgh) as (m & Hm & He & _).
  assert (Hp : names_of m ≡ₚ ptrs l) by (rewrite <- El; unfold names_of; by rewrite Hm).
  assert (Hlen : (N.to_nat (prime (tab t)) + length m < trounds t)%nat).
  { unfold trounds. rewrite (nt_nodes None t (ptrs l) Hh), <- Hp. unfold names_of. rewrite fmap_length. apply Nat.lt_succ_diag_r. }
  destruct (P_iterate_scr tenv t gh scr3 m (trounds t) (string_env_good _) Hgh Hro He scr3_ok Hlen) as (t' & m' & Ei & _).
  destruct (iterate_follow (fun seen => exists z, m = seen ++ z)
     (fun t seen out => named None t (ptrs l) /\ out = entry_line (tents s) <$> seen)
     (scr_cb tenv scr3) (print_body al (tents s))) with (fuel := trounds t) (t := t) (u1 := @nil (skey * ptr)) (u2 := @nil (list N * (Z * Z * Z)))
     (t' := t') (u1' := m) (r := 0) as (out & Eo & Hn & ->).
  - intros k d t0 u1 t1 u1' r E (z & ->). unfold scr_cb in E. destruct (run_acts _ _ _); try discriminate E. cbn [mbind res_bind] in E.
    injection E as <- <- <-. exists ((k, d) :: z). by rewrite <- app_assoc.
  - intros k d t0 seen out t1 seen' r [Hn ->] E (z & Ez). unfold scr_cb in E.
    assert (Escr : scr3 (seen ++ [(k, d)]) = [ARet k; ARet k; ARet k]) by (unfold scr3; by rewrite last_snoc).
    rewrite Escr in E. cbn [run_acts run_act] in E.
    destruct (nt_retrieve None t0 (ptrs l) k Hn) as (t2 & E2 & Hn2). destruct (nt_retrieve None t2 (ptrs l) k Hn2) as (t3 & E3 & Hn3).
    destruct (nt_retrieve None t3 (ptrs l) k Hn3) as (t4 & E4 & Hn4). unfold tenv in E. rewrite E2 in E. cbn [mbind res_bind] in E. rewrite E3 in E. cbn [mbind res_bind] in E.
    rewrite E4 in E. cbn [mbind res_bind] in E. injection E as <- <- <-.
    assert (Hkd : (proj1_sig k, d) ∈ ptrs l).
    { rewrite <- Hp. unfold names_of. apply elem_of_list_fmap. exists (k, d). split; [done|]. rewrite Ez. apply elem_of_app. left. apply elem_of_app. right. by left. }
    unfold ptrs in Hkd. apply elem_of_list_fmap in Hkd as ([n a] & Ekd & Hin). cbn [fst snd] in Ekd. injection Ekd as Ek ->.
    destruct (v_rep _ _ _ Hi n a Hin) as (e & tm & Hea & Hmn & Hrep).
    assert (Hlk : lookup_name (proj1_sig k) (ptrs l) = Some (Some a)).
    { rewrite lookup_ptrs, Ek. destruct (lookup_name n l) as [b|] eqn:Eb.
      - cbn. do 2 f_equal. apply lookup_in in Eb. exact (nodup_fst l n b a (v_nd1 _ _ _ Hi) Eb Hin).
      - apply lookup_none_in in Eb. exfalso. apply Eb. apply elem_of_list_fmap. by exists (n, a). }
    rewrite Hlk in E2, E3, E4. cbn [default id] in *.
    destruct (name_key_ok (proj1_sig k) [] (proj2_sig k)) as (k' & Ek' & Hk').
    assert (Hget : forall f ta tb, hsh_retrieve tenv ta k = Ret (tb, Some a) ->
      tim_get f al (TS (Some ta) (tents s)) (Some (proj1_sig k ++ [0%N])) = Ret (TS (Some tb) (tents s), f e)).
    { intros f ta tb Er. unfold tim_get, tim_find, tim_check. cbn [thash tents]. rb. rewrite Ek'. rb. rewrite (retrieve_key ta k' k Hk'), Er. rb.
      unfold hget. rewrite Hea. by rb. }
    eexists. split.
    + unfold print_body, tim_print_timer, tim_get_real, tim_get_user, tim_get_system. rewrite (Hget _ _ _ E2). rb. rewrite (Hget _ _ _ E3). rb. rewrite (Hget _ _ _ E4). rb.
      cbn [thash]. reflexivity.
    + split; [done|]. rewrite fmap_app. cbn [fmap list_fmap]. do 3 f_equal. unfold entry_line. cbn [fst snd]. by rewrite Hea.
  - done.
  - exact Ei.
  - exists []. by rewrite app_nil_r.
  - rewrite Eo. rb. exists t', m. done.
Qed.

(** ** shutdown *)
Definition free1 (_ : skey) (d : ptr) (h : gmap positive tentry) : res (gmap positive tentry) :=
  match d with None => Fatal | Some a => hfree h a end.
Lemma free_all (m : list (skey * ptr)) : forall (h : gmap positive tentry) (l : list positive), m.*2 = Some <$> l -> NoDup l ->
  (forall a, is_Some (h !! a) <-> a ∈ l) -> fold_res free1 m h = Ret ∅.
Proof.
  induction m as [|[k d] m IH]; intros h [|a l] Em Hnd Hd; cbn [fmap list_fmap] in Em; try discriminate Em.
  - cbn [fold_res]. f_equal. apply map_eq. intros a. rewrite lookup_empty. destruct (h !! a) eqn:E; [|done].
    assert (Hin : a ∈ @nil positive) by (apply Hd; eauto). by apply elem_of_nil in Hin.
  - cbn [snd] in Em. injection Em as -> Em. apply NoDup_cons in Hnd as [Hn Hnd]. cbn [fold_res free1].
    destruct (proj2 (Hd a)) as [e He]; [by left|]. unfold hfree. rewrite He. rb. eapply IH; [exact Em|done|].
    intros b. destruct (decide (b = a)) as [->|Hne].
    + rewrite lookup_delete. split; [by intros [? ?]|done].
    + rewrite lookup_delete_ne by done. rewrite Hd, elem_of_cons. naive_solver.
Qed.
Lemma shutdown_ok s M l : tinv s M l -> tim_shutdown s = Ret (tstart, ∅).
Proof.
  intros Hi. unfold tim_shutdown. pose proof (v_hash _ _ _ Hi) as Hh. destruct (thash s) as [t|] eqn:Et.
  - destruct (nt_enumerates None t (ptrs l) Hh) as (m & He & Hp).
    assert (Hlen : (N.to_nat (prime (tab t)) + length m < trounds t)%nat).
    { unfold trounds. rewrite (nt_nodes None t (ptrs l) Hh), <- Hp. unfold names_of. rewrite fmap_length. apply Nat.lt_succ_diag_r. }
    assert (Hl : exists l2, m.*2 = Some <$> l2 /\ l2 ≡ₚ l.*2).
    { assert (Hp2 : m.*2 ≡ₚ Some <$> l.*2).
      { assert (Ex : m.*2 = (names_of m).*2) by (unfold names_of; rewrite <- list_fmap_compose; by apply list_fmap_ext). rewrite Ex, Hp.
        unfold ptrs. rewrite <- !list_fmap_compose. apply reflexive_eq. by apply list_fmap_ext. }
      symmetry in Hp2. destruct (Permutation_map_inv _ _ (symmetry Hp2)) as (l2 & E2 & H2). exists l2. split; [exact E2|]. by symmetry. }
    destruct Hl as (l2 & E2 & H2).
    assert (Ef : fold_res free1 m (tents s) = Ret ∅).
    { eapply free_all; [exact E2| |].
      - rewrite H2. apply (v_nd2 _ _ _ Hi).
      - intros a. rewrite H2. apply (v_dom _ _ _ Hi). }
    assert (Eb : hsh_iterate (trounds t) free_body t (tents s) = hsh_iterate (trounds t) (fail_cb free1) t (tents s)).
    { assert (Hx : forall u t', hsh_iterate (trounds t) (fail_cb free1) t (tents s) = Ret (t', u, 0) -> hsh_iterate (trounds t) free_body t (tents s) = Ret (t', u, 0)).
      { intros u t' E. destruct (iterate_follow (fun _ => True) (fun _ (a b : gmap positive tentry) => a = b) (fail_cb free1) free_body) with (fuel := trounds t) (t := t) (u1 := tents s) (u2 := tents s) (t' := t') (u1' := u) (r := 0) as (u2 & E3 & ->); try done.
        intros k d t0 u1 u2 t1 u1' r <- E0 _. exists u1'. split; [|done]. unfold fail_cb, free1, free_body in *. destruct d; [|discriminate E0]. exact E0. }
      rewrite (iterate_fail free1 t m (tents s) ∅ (trounds t) He Hlen Ef). apply Hx. by apply (iterate_fail free1 t m). }
    rewrite Eb, (iterate_fail free1 t m (tents s) ∅ (trounds t) He Hlen Ef). rb. rewrite (nt_destroy None t (ptrs l) Hh). by rb.
  - subst l. unfold tstart. do 3 f_equal. apply map_eq. intros a. rewrite lookup_empty. destruct (tents s !! a) eqn:E; [|done].
    assert (Hin : a ∈ @nil positive) by (apply (v_dom _ _ _ Hi); eauto). by apply elem_of_nil in Hin.
Qed.

(** ** histories *)
Lemma tim_inv s M : tim_history s M -> exists l, tinv s M l.
Proof.
  induction 1 as [|al s M c n rest s' _ [l Hi] Hal Hc Hn E|al s M c n t rest s' _ [l Hi] Hal Hc Hn Hm E|al s M n t rest s' _ [l Hi] Hal Hn Hm E
    |f al s M n rest s' r _ [l Hi] Hal Hn E|al s M s' out _ [l Hi] Hal E|s M s' nodes _ [l Hi] E].
  - exists []. apply tinv_start.
  - pose proof (start_ok al s M l c n rest Hi Hal Hc Hn) as H. rewrite E in H. exact H.
  - destruct (stop_ok al s M l c n rest t Hi Hal Hc Hn Hm) as (s1 & E1 & H1). rewrite E in E1. injection E1 as <-. eauto.
  - destruct (reset_ok al s M l n rest t Hi Hal Hn Hm) as (s1 & E1 & H1). rewrite E in E1. injection E1 as <-. eauto.
  - destruct (lookup_name n l) as [a|] eqn:El.
    + pose proof (tinv_lookup s M l n Hi) as Hl. rewrite El in Hl. destruct Hl as (e & t & _ & _ & Hm & _).
      destruct (get_ok f al s M l n rest t Hi Hal Hn Hm) as (s1 & e1 & E1 & _ & H1). rewrite E in E1. injection E1 as -> _. eauto.
    + unfold tim_get in E. destruct (find_unknown al s M l n rest Hi Hal Hn El) as [E1|[E1 _]]; rewrite E1 in E; discriminate E.
  - destruct (thash s) as [t|] eqn:Et.
    + destruct (print_ok al s M l t Hi Et) as (t' & m & E1 & _ & H1). rewrite E in E1. injection E1 as -> _. exists l. by apply tinv_hash.
    + unfold tim_print_timers in E. rewrite Et in E. injection E as <- _. eauto.
  - rewrite (shutdown_ok s M l Hi) in E. injection E as <- _. exists []. apply tinv_start.
Qed.
