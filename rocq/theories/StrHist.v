(** Histories of string pool calls, iteration, str_unique. *)
From Verif Require Import Base ListLemmas CStr StackModel StackProofs ObjModel ObjProofs MemModel MemProofs MemHist.
From Verif Require Import PrimeModel HashModel HashSpec HashProofs HashOps HashOps2 HashIter HashHist HashFnModel HashFnProofs StrModel StrProofs.
Local Open Scope Z_scope.

Notation pst := (pworld * gmap positive pgh)%type.

(** One call that returned, with what it changes in the pools as the caller can tell.
    A call that does not return (abort, out of memory) ends the history.  [pc_tick] is
    the increment of the static counter of str_unique. *)
Inductive pcall : pst -> pst -> Prop :=
| pc_create al w G w' p : palloc_ok al -> str_pool_create al w = Ret (w', p) ->
    pcall (w, G) (w', <[p := fresh_pool]> G)
| pc_destroy w G w' p g H : G !! p = Some g -> glob w <> Some p -> str_pool_destroy w (Some p) = Ret (w', H) ->
    pcall (w, G) (w', delete p G)
| pc_exists w G w' p g s rest r : G !! p = Some g -> str_ok s ->
    str_pool_exists w (Some p) (s ++ 0%N :: rest) = Ret (w', r) ->
    pcall (w, G) (w', <[p := asked g s]> G)
| pc_find al w G w' p g s rest a : palloc_ok al -> G !! p = Some g -> str_ok s ->
    (assoc s (q_int g) = None -> q_ro g = 0 /\ room (q_mem g) (Z.of_nat (length s) + 1)) ->
    str_pool_find al w (Some p) (s ++ 0%N :: rest) = Ret (w', a) ->
    pcall (w, G) (w', <[p := found g s a]> G)
| pc_copy al w G w' p g s rest a : palloc_ok al -> G !! p = Some g -> str_ok s ->
    room (q_mem g) (Z.of_nat (length s) + 1) ->
    str_pool_copy al w (Some p) (s ++ 0%N :: rest) = Ret (w', a) ->
    pcall (w, G) (w', <[p := set_mem g (stored (q_mem g) a (s ++ [0%N]) (Z.of_nat (length s) + 1))]> G)
| pc_copyn al w G w' p g src len a : palloc_ok al -> G !! p = Some g ->
    0 <= len < Z.of_nat (length src) -> room (q_mem g) (len + 1) ->
    str_pool_copyn al w (Some p) src len = Ret (w', a) ->
    pcall (w, G) (w', <[p := set_mem g (stored (q_mem g) a (take (Z.to_nat len + 1) src) (len + 1))]> G)
| pc_grow al w G w' p g src len : palloc_ok al -> G !! p = Some g ->
    0 <= len <= Z.of_nat (length src) -> room (q_mem g) len -> Forall byte_ok (take (Z.to_nat len) src) ->
    str_pool_grow al w (Some p) src len = Ret w' ->
    pcall (w, G) (w', <[p := set_mem g (MemHist.grown (q_mem g) (take (Z.to_nat len) src) len)]> G)
| pc_finish al w G w' p g a : palloc_ok al -> G !! p = Some g -> room (q_mem g) 2 -> q_ro g = 0 ->
    str_pool_finish al w (Some p) = Ret (w', a) ->
    pcall (w, G) (w', <[p := finished g a]> G)
| pc_init w G w' p g q : G !! p = Some g -> str_pool_init_position w (Some p) = Ret (w', q) ->
    pcall (w, G) (w', <[p := set_ro g (match q with Some _ => 1 | None => q_ro g end)]> G)
| pc_next w G w' p g q r : G !! p = Some g -> str_pool_next_position w (Some p) q = Ret (w', r) ->
    pcall (w, G) (w', <[p := set_ro g (match r with Some _ => q_ro g | None => 0 end)]> G)
| pc_end w G x t o p g : G !! p = Some g -> pools w !! p = Some x -> HSH_ITERATE_END (phash x) = Ret (t, o) ->
    pcall (w, G) (upd_hash w p x t, <[p := set_ro g 0]> G)
| pc_global al w G w' p : palloc_ok al -> glob w = None -> check_global al w = Ret w' -> glob w' = Some p ->
    pcall (w, G) (w', <[p := fresh_pool]> G)
| pc_gdestroy w G w' p H : glob w = Some p -> str_destroy w = Ret (w', H) ->
    pcall (w, G) (w', delete p G)
| pc_tick w G : uniq w + 1 < 2 ^ 31 ->
    pcall (w, G) (PW (pmem w) (pools w) (glob w) (uniq w + 1), G).

(** what follows from a state; the histories from the start of the program *)
Definition later : pst -> pst -> Prop := rtc pcall.
Definition pool_history (w : pworld) (G : gmap positive pgh) : Prop := later (pempty, ∅) (w, G).

Definition sinv (s : pst) : Prop := exists GM, winv s.1 s.2 GM.

Lemma flag_ok GM x g (t : hst key ptr) f : pool_ok GM x g ->
  (forall gh, history penv (phash x) gh -> exists r1 r2 mx, r1 = g_retr gh /\ r2 = g_miss gh /\
     history penv t (Gh (g_map gh) f r1 r2 mx)) ->
  pool_ok GM (Pool (pstr x) t) (set_ro g f).
Proof.
  intros Ho Hf. destruct (po_hash _ _ _ Ho) as (gh & Hh & Hk & Hv & Hr & H1 & H2).
  destruct (Hf gh Hh) as (r1 & r2 & mx & -> & -> & Ht). split; cbn [pstr phash set_ro q_int q_mem]; try apply Ho.
  eexists. split; [exact Ht|]. done.
Qed.

Lemma global_ok al w G GM w' : winv w G GM -> palloc_ok al -> glob w = None -> check_global al w = Ret w' ->
  exists p, glob w' = Some p /\ G !! p = None /\ uniq w' = uniq w /\ exists GM', winv w' (<[p := fresh_pool]> G) GM'.
Proof.
  intros I Hal Hn E. unfold check_global in E. rewrite Hn in E.
  pose proof (pool_create_ok w G GM al I Hal) as Hc.
  destruct (str_pool_create al w) as [[w1 p]| | | |]; try discriminate E. cbn [mbind res_bind] in E.
  injection E as <-. cbn [ok] in Hc. destruct Hc as ((GM' & Hw) & HG & Hgl & Hu & Hp).
  exists p. split; [done|]. split; [done|]. split; [exact Hu|]. exists GM'.
  destruct Hw as [H1 H2 H3 H4 H5 H6 H7]. split; cbn [pmem pools glob uniq]; try done.
  intros q [= <-]. rewrite lookup_insert. eauto.
Qed.

Lemma pcall_inv s s' : pcall s s' -> sinv s -> sinv s'.
Proof.
  intros Hc [GM I]. unfold sinv. destruct Hc as
    [al w G w' p Hal E|w G w' p g H Hg Hgl E|w G w' p g s rest r Hg Hs E|al w G w' p g s rest a Hal Hg Hs Hr E
    |al w G w' p g s rest a Hal Hg Hs Hr E|al w G w' p g src len a Hal Hg Hl Hr E
    |al w G w' p g src len Hal Hg Hl Hr Hb E|al w G w' p g a Hal Hg Hr Hro E
    |w G w' p g q Hg E|w G w' p g q r Hg E|w G x t o p g Hg Hx E|al w G w' p Hal Hn E Hp|w G w' p H Hgl E|w G Hu];
    cbn [fst snd] in *.
  - pose proof (pool_create_ok w G GM al I Hal) as Hc. rewrite E in Hc. cbn [ok] in Hc. apply Hc.
  - pose proof (pool_destroy_ok w G GM p g I Hg) as Hd. destruct (decide (q_ro g = 0)); [|congruence].
    destruct Hd as (w2 & GM' & E2 & _ & Hg2 & _ & _ & Hw). rewrite E in E2. injection E2 as <- ->. exists GM'.
    destruct (decide (glob w = Some p)); [done|]. rewrite <- Hg2 in Hw. by destruct w'.
  - destruct (exists_ok w G GM I p g Hg s rest Hs) as (w2 & E2 & Hw & _). rewrite E in E2. injection E2 as <- _. eauto.
  - pose proof (find_ok w G GM I p g Hg al Hal s rest Hs Hr) as Hc. rewrite E in Hc. cbn [ok] in Hc. apply Hc.
  - pose proof (copy_ok w G GM I p g Hg al Hal s rest Hs Hr) as Hc. rewrite E in Hc. cbn [ok] in Hc. apply Hc.
  - pose proof (copyn_ok w G GM I p g Hg al Hal src len Hl Hr) as Hc. rewrite E in Hc. cbn [ok] in Hc. apply Hc.
  - pose proof (grow_ok w G GM I p g Hg al Hal src len Hl Hr Hb) as Hc. rewrite E in Hc. cbn [ok] in Hc. apply Hc.
  - pose proof (finish_ok w G GM I p g Hg al Hal Hr Hro) as Hc. rewrite E in Hc. cbn [ok] in Hc. apply Hc.
  - destruct (get_pool w G GM I p g Hg) as (x & Hx & Ho & Ep). unfold str_pool_init_position in E.
    rewrite Ep in E. cbn [mbind res_bind] in E.
    destruct (hsh_init_position (phash x)) as [[t q']| | | |] eqn:Ei; try discriminate E. cbn [mbind res_bind] in E.
    injection E as <- <-. exists GM. eapply winv_hash; [done..|]. eapply flag_ok; [done|]. intros gh Hh.
    pose proof (h_init penv _ _ _ _ Hh Ei) as Hi. eexists _, _, _. split; [done|]. split; [done|].
    destruct (po_hash _ _ _ Ho) as (gh2 & Hh2 & _ & _ & Hr & _).
    destruct (history_inv _ _ _ penv_good Hh) as [L1 J1]. destruct (history_inv _ _ _ penv_good Hh2) as [L2 J2].
    assert (Er : q_ro g = g_ro gh) by (rewrite <- Hr, <- (hh_ro _ _ _ _ J1), <- (hh_ro _ _ _ _ J2); done).
    rewrite Er. exact Hi.
  - destruct (get_pool w G GM I p g Hg) as (x & Hx & Ho & Ep). unfold str_pool_next_position in E.
    rewrite Ep in E. cbn [mbind res_bind] in E.
    destruct (hsh_next_position (phash x) q) as [[t q']| | | |] eqn:Ei; try discriminate E. cbn [mbind res_bind] in E.
    injection E as <- <-. exists GM. eapply winv_hash; [done..|]. eapply flag_ok; [done|]. intros gh Hh.
    pose proof (h_next penv _ _ _ _ _ Hh Ei) as Hi. eexists _, _, _. split; [done|]. split; [done|].
    destruct (po_hash _ _ _ Ho) as (gh2 & Hh2 & _ & _ & Hr & _).
    destruct (history_inv _ _ _ penv_good Hh) as [L1 J1]. destruct (history_inv _ _ _ penv_good Hh2) as [L2 J2].
    assert (Er : q_ro g = g_ro gh) by (rewrite <- Hr, <- (hh_ro _ _ _ _ J1), <- (hh_ro _ _ _ _ J2); done).
    rewrite Er. exact Hi.
  - destruct (get_pool w G GM I p g Hg) as (x' & Hx' & Ho & Ep). rewrite Hx in Hx'. injection Hx' as <-.
    exists GM. eapply winv_hash; [done..|]. eapply flag_ok; [done|]. intros gh Hh.
    pose proof (h_readonly penv _ _ _ _ _ Hh E) as Hi. eexists _, _, _. split; [done|]. split; [done|]. exact Hi.
  - destruct (global_ok al w G GM w' I Hal Hn E) as (p' & E1 & _ & _ & Hw). rewrite Hp in E1. injection E1 as <-. exact Hw.
  - destruct (wi_glob _ _ _ I p Hgl) as [g Hg]. unfold str_destroy in E. rewrite Hgl in E.
    pose proof (pool_destroy_ok w G GM p g I Hg) as Hd. destruct (decide (q_ro g = 0)).
    + destruct Hd as (w2 & GM' & E2 & _ & _ & _ & _ & Hw). rewrite E2 in E. cbn [mbind res_bind] in E.
      injection E as <- <-. exists GM'. destruct (decide (glob w = Some p)); [|done]. done.
    + rewrite Hd in E. discriminate E.
  - exists GM. destruct I as [H1 H2 H3 H4 H5 H6 H7]. split; cbn [pmem pools glob uniq]; try done. lia.
Qed.

Lemma winv_start : winv pempty ∅ ∅.
Proof.
  split; cbn [pempty pmem pools glob uniq]; try done; try lia.
  - apply sh_init.
  - intros i [g Hg]. by rewrite lookup_empty in Hg.
Qed.
Lemma later_inv s s' : later s s' -> sinv s -> sinv s'.
Proof. induction 1 as [|s1 s2 s3 H12 H IH]; [done|]. intros Hs. apply IH. by eapply pcall_inv. Qed.
Lemma pool_history_inv w G : pool_history w G -> exists GM, winv w G GM.
Proof. intros H. apply (later_inv _ _ H). exists ∅. apply winv_start. Qed.
Lemma history_step w G w' G' : pool_history w G -> pcall (w, G) (w', G') -> pool_history w' G'.
Proof. intros H1 H2. by eapply rtc_r. Qed.
Lemma history_later w G w' G' : pool_history w G -> later (w, G) (w', G') -> pool_history w' G'.
Proof. intros H1 H2. by eapply rtc_transitive. Qed.

(** ** What stays *)
Definition keeps (p : positive) : pst -> pst -> Prop :=
  rtc (fun s s' => pcall s s' /\ is_Some (s'.2 !! p)).

Lemma pcall_keep p st st' g g' : sinv st -> pcall st st' -> st.2 !! p = Some g -> st'.2 !! p = Some g' ->
  (exists l, q_int g' = l ++ q_int g) /\ (exists l, s_done (q_mem g') = s_done (q_mem g) ++ l).
Proof.
  assert (Hsame : forall q (x : pgh) (G : gmap positive pgh), <[q := x]> G !! p = Some g' -> G !! p = Some g ->
    (p = q -> (exists l, q_int x = l ++ q_int g) /\ (exists l, s_done (q_mem x) = s_done (q_mem g) ++ l)) ->
    (exists l, q_int g' = l ++ q_int g) /\ (exists l, s_done (q_mem g') = s_done (q_mem g) ++ l)).
  { intros q x G H1 H2 H3. destruct (decide (p = q)) as [->|Hne].
    - rewrite lookup_insert in H1. injection H1 as <-. by apply H3.
    - rewrite lookup_insert_ne in H1 by done. rewrite H2 in H1. injection H1 as <-.
      split; [by exists []|exists []; by rewrite app_nil_r]. }
  assert (Hi : forall x s a, (q_int x = q_int g) -> exists l, q_int (entered x s a) = l ++ q_int g).
  { intros x s a E. unfold entered. cbn [q_int]. rewrite E.
    destruct (assoc s (q_int g)); [by exists []|by exists [(s, a)]]. }
  intros [GM I] Hc. destruct Hc as
    [al w G w' q Hal E|w G w' q gq H Hg Hgl E|w G w' q gq s rest r Hg Hs E|al w G w' q gq s rest a Hal Hg Hs Hr E
    |al w G w' q gq s rest a Hal Hg Hs Hr E|al w G w' q gq src len a Hal Hg Hl Hr E
    |al w G w' q gq src len Hal Hg Hl Hr Hb E|al w G w' q gq a Hal Hg Hr Hro E
    |w G w' q gq pos Hg E|w G w' q gq pos r Hg E|w G x t o q gq Hg Hx E|al w G w' q Hal Hn E Hp|w G w' q H Hgl E|w G Hu];
    cbn [fst snd] in *; intros Hgp Hgp'; try (eapply Hsame; [exact Hgp'|exact Hgp|intros ->]).
  - pose proof (pool_create_ok w G GM al I Hal) as Hc. rewrite E in Hc. cbn [ok] in Hc.
    destruct Hc as (_ & HG & _). congruence.
  - apply lookup_delete_Some in Hgp' as [_ Hgp']. rewrite Hgp in Hgp'. injection Hgp' as <-.
    split; [by exists []|exists []; by rewrite app_nil_r].
  - rewrite Hg in Hgp. injection Hgp as ->. split; [by exists []|exists []; by rewrite app_nil_r].
  - rewrite Hg in Hgp. injection Hgp as ->. unfold found. destruct (assoc s (q_int g)) eqn:Ea.
    + split; [by exists []|exists []; by rewrite app_nil_r].
    + split; [by apply Hi|]. cbn [entered set_mem q_mem stored s_done]. by eexists.
  - rewrite Hg in Hgp. injection Hgp as ->. split; [by exists []|]. by eexists.
  - rewrite Hg in Hgp. injection Hgp as ->. split; [by exists []|]. by eexists.
  - rewrite Hg in Hgp. injection Hgp as ->. split; [by exists []|]. exists []. by rewrite app_nil_r.
  - rewrite Hg in Hgp. injection Hgp as ->. unfold finished. split; [by apply Hi|].
    cbn [entered set_mem q_mem stored s_done MemHist.grown]. by eexists.
  - rewrite Hg in Hgp. injection Hgp as ->. split; [by exists []|exists []; by rewrite app_nil_r].
  - rewrite Hg in Hgp. injection Hgp as ->. split; [by exists []|exists []; by rewrite app_nil_r].
  - rewrite Hg in Hgp. injection Hgp as ->. split; [by exists []|exists []; by rewrite app_nil_r].
  - destruct (global_ok al w G GM w' I Hal Hn E) as (p' & E1 & HG & _). rewrite Hp in E1. injection E1 as <-. congruence.
  - apply lookup_delete_Some in Hgp' as [_ Hgp']. rewrite Hgp in Hgp'. injection Hgp' as <-.
    split; [by exists []|exists []; by rewrite app_nil_r].
  - rewrite Hgp in Hgp'. injection Hgp' as <-. split; [by exists []|exists []; by rewrite app_nil_r].
Qed.

Lemma keeps_later p s s' : keeps p s s' -> later s s'.
Proof. induction 1 as [|s1 s2 s3 [H12 _] H IH]; [done|]. by eapply rtc_l. Qed.
Lemma keeps_ghost p s s' : keeps p s s' -> forall g, sinv s -> s.2 !! p = Some g -> exists g', s'.2 !! p = Some g' /\
  (exists l, q_int g' = l ++ q_int g) /\ (exists l, s_done (q_mem g') = s_done (q_mem g) ++ l).
Proof.
  induction 1 as [s|s1 s2 s3 [H12 [g2 Hg2]] H IH]; intros g Hs Hg.
  - exists g. split; [done|]. split; [by exists []|exists []; by rewrite app_nil_r].
  - destruct (pcall_keep p s1 s2 g g2 Hs H12 Hg Hg2) as [[l1 E1] [l2 E2]].
    destruct (IH g2 (pcall_inv _ _ H12 Hs) Hg2) as (g3 & Hg3 & [l3 E3] & [l4 E4]).
    exists g3. split; [done|]. split; [exists (l3 ++ l1); by rewrite E3, E1, app_assoc|].
    exists (l2 ++ l4). by rewrite E4, E2, app_assoc.
Qed.

Lemma assoc_in s a l : assoc s l = Some a -> (s, a) ∈ l.
Proof.
  induction l as [|[s' a'] l IH]; cbn [assoc]; [done|]. destruct (decide (s' = s)) as [->|].
  - intros [= ->]. left.
  - intros H. right. auto.
Qed.
Lemma in_assoc s a l : NoDup l.*1 -> (s, a) ∈ l -> assoc s l = Some a.
Proof.
  induction l as [|[s' a'] l IH]; intros Hnd Hin; [by apply elem_of_nil in Hin|]. rewrite fmap_cons in Hnd.
  apply NoDup_cons in Hnd as [Hn Hnd]. cbn [assoc]. apply elem_of_cons in Hin as [[= -> ->]|Hin].
  - by rewrite decide_True.
  - rewrite decide_False; [auto|]. intros ->. apply Hn. apply elem_of_list_fmap. by exists (s, a).
Qed.

(** ** Iteration *)
(** an iterator that looks strings up in the pool and updates the user's state *)
Fixpoint ask_all (w : pworld) (p : ptr) (ss : list (list N)) : res pworld :=
  match ss with
  | [] => Ret w
  | s :: ss' => '(w1, _) ← str_pool_exists w p (s ++ [0%N]); ask_all w1 p ss'
  end.
Definition lookup_it {X} (p : ptr) (strs : X -> ptr -> list (list N)) (f : ptr -> X -> X * Z)
  : X -> pworld -> ptr -> res (X * pworld * Z) :=
  fun u w k => w' ← ask_all w p (strs u k); let '(u', r) := f k u in Ret (u', w', r).
(** calling [f] on the strings of a list until it asks to stop *)
Fixpoint walk {X} (f : ptr -> X -> X * Z) (l : list positive) (u : X) : X * bool :=
  match l with
  | [] => (u, false)
  | a :: l' => let '(u', r) := f (Some a) u in if r =? 0 then walk f l' u' else (u', true)
  end.

Section iter.
Context (p : positive) (L : list (list (positive * @ent key ptr))).
Notation addrs_of := (fun l : list (key * ptr) => (fun kd : key * ptr => default xH kd.2) <$> l).
Context (Hown : own_keys (pairs L)).

Lemma keeps_step st st1 st2 : pcall st st1 -> is_Some (st1.2 !! p) -> keeps p st1 st2 -> keeps p st st2.
Proof. intros H1 H2 H3. by eapply rtc_l. Qed.

Lemma ask_all_ro ss : Forall str_ok ss -> forall w G GM x g, winv w G GM -> pools w !! p = Some x ->
  G !! p = Some g -> hinv penv (phash x) L -> q_ro g = 1 ->
  exists t g', ask_all w (Some p) ss = Ret (upd_hash w p x t) /\ hinv penv t L /\
    keeps p (w, G) (upd_hash w p x t, <[p := g']> G) /\
    q_int g' = q_int g /\ q_mem g' = q_mem g /\ q_ro g' = 1.
Proof.
  induction 1 as [|s ss Hs Hss IH]; intros w G GM x g I Hx Hg HI Hro.
  - exists (phash x), g. cbn [ask_all]. unfold upd_hash.
    assert (E : Pool (pstr x) (phash x) = x) by (by destruct x). rewrite E, (insert_id _ _ _ Hx), (insert_id _ _ _ Hg).
    split; [by destruct w|]. split; [done|]. split; [|done]. destruct w. apply rtc_refl.
  - cbn [ask_all].
    destruct (get_pool w G GM I p g Hg) as (x' & Hx' & Ho & Ep). rewrite Hx in Hx'. injection Hx' as <-.
    destruct (pool_retrieve_ok w G GM I p g Hg x s [] Hx Ho Hs) as (t & E1 & Ht & Hw).
    assert (Eex : str_pool_exists w (Some p) (s ++ [0%N]) =
      Ret (upd_hash w p x t, match assoc s (q_int g) with Some _ => 1 | None => 0 end)).
    { unfold str_pool_exists. rewrite Ep. rb. rewrite E1. rb. done. }
    rewrite Eex. rb.
    assert (Htl : hinv penv t L).
    { unfold pool_retrieve in E1. rewrite c_string_spec in E1 by done. cbn [mbind res_bind] in E1.
      destruct (mk_key_ok None s Hs) as (k & Ek & _ & Hk). rewrite Ek in E1. cbn [mbind res_bind] in E1.
      destruct (keys_live _ _); [|discriminate E1].
      destruct (hsh_retrieve_spec penv (phash x) L k HI penv_good) as (s1 & L' & E2 & J1 & _ & _ & J & _).
      rewrite E2 in E1. cbn [mbind res_bind] in E1. injection E1 as E1 _.
      assert (Et : s1 = t).
      { assert (Em : <[p := Pool (pstr x) s1]> (pools w) !! p = <[p := Pool (pstr x) t]> (pools w) !! p)
          by (by rewrite E1). rewrite !lookup_insert in Em. by injection Em. }
      subst s1. destruct J as [-> _]; [|done].
      destruct (po_hash _ _ _ Ho) as (gh & Hh & _ & _ & Hr & _).
      destruct (history_inv _ _ _ penv_good Hh) as [L1 J2]. rewrite (hh_ro _ _ _ _ J2), Hr, Hro. done. }
    destruct (IH (upd_hash w p x t) (<[p := asked g s]> G) GM (Pool (pstr x) t) (asked g s) Hw
                (lookup_insert _ _ _) (lookup_insert _ _ _) Htl Hro) as (t2 & g2 & E2 & H2 & Hk & Q1 & Q2 & Q3).
    assert (Eu : upd_hash (upd_hash w p x t) p (Pool (pstr x) t) t2 = upd_hash w p x t2).
    { unfold upd_hash. cbn [pmem pools glob uniq pstr]. by rewrite insert_insert. }
    rewrite Eu in *. exists t2, g2. split; [done|]. split; [done|]. split; [|done].
    rewrite insert_insert in Hk. eapply (keeps_step _ (upd_hash w p x t, <[p := asked g s]> G)); [|cbn [snd]; rewrite lookup_insert; eauto|exact Hk].
    eapply pc_exists; eauto.
Qed.

Lemma keys_loop_ok {X} strs (f : ptr -> X -> X * Z) : (forall u k, Forall str_ok (strs u k)) ->
  forall n i w G GM x g u, (i <= length (pairs L))%nat -> (length (pairs L) - i < n)%nat ->
  winv w G GM -> pools w !! p = Some x -> G !! p = Some g -> hinv penv (phash x) L ->
  ((i < length (pairs L))%nat -> q_ro g = 1) ->
  let W := walk f (drop i (addrs_of (pairs L))) u in
  exists w' g', keys_loop (lookup_it (Some p) strs f) n w (Some p) (pos_at L i) u = Ret (W.1, w', W.2) /\
    keeps p (w, G) (w', <[p := g']> G) /\ q_int g' = q_int g /\ q_mem g' = q_mem g /\
    q_ro g' = (if decide (i < length (pairs L))%nat then if W.2 then 1 else 0 else q_ro g).
Proof.
  intros Hstr n. induction n as [|n IH]; intros i w G GM x g u Hi Hn I Hx Hg HI Hro W; [lia|].
  assert (Hlc : length (pairs L) = length (concat L)) by (unfold pairs, ents; by rewrite !fmap_length).
  destruct (decide (i < length (pairs L))%nat) as [Hlt|Hge].
  - destruct (lookup_lt_is_Some_2 (pairs L) i Hlt) as [[k d] Hkd].
    destruct (Hown (k, d)) as (a & Hka & Hd); [by eapply elem_of_list_lookup_2|]. cbn [fst snd] in Hka, Hd. subst d.
    assert (Hdr : drop i (addrs_of (pairs L)) = a :: drop (S i) (addrs_of (pairs L))).
    { apply drop_S. by rewrite list_lookup_fmap, Hkd. }
    subst W. rewrite Hdr. cbn [walk].
    assert (Hpos : exists b, pos_at L i = Some b).
    { unfold pos_at. destruct (lookup_lt_is_Some_2 (concat L) i) as [y Hy]; [lia|]. rewrite Hy. eauto. }
    destruct Hpos as [b Hpos]. rewrite Hpos. cbn [keys_loop]. rewrite <- Hpos.
    assert (Egp : str_pool_get_position w (Some p) (pos_at L i) = Ret (Some a)).
    { unfold str_pool_get_position, ppool. rewrite (hget_Some _ _ _ Hx). rb.
      rewrite (hsh_get_position_spec penv (phash x) L i HI), Hkd. rb. by rewrite Hka. }
    rewrite Egp. rb.
    destruct (ask_all_ro (strs u (Some a)) (Hstr _ _) w G GM x g I Hx Hg HI (Hro Hlt))
      as (t & g1 & E1 & Ht & Hk1 & Q1 & Q2 & Q3).
    assert (El : lookup_it (Some p) strs f u w (Some a) =
       Ret ((f (Some a) u).1, upd_hash w p x t, (f (Some a) u).2)).
    { unfold lookup_it. rewrite E1. rb. by destruct (f (Some a) u). }
    rewrite El. rb. destruct (f (Some a) u) as [u1 r] eqn:Ef. cbn [fst snd].
    destruct (Z.eqb_spec r 0) as [->|Hr]; cbn [negb].
    + set (w1 := upd_hash w p x t) in *. set (x1 := Pool (pstr x) t).
      assert (Hx1 : pools w1 !! p = Some x1) by apply lookup_insert.
      assert (En : str_pool_next_position w1 (Some p) (pos_at L i) =
         Ret (upd_hash w1 p x1 (match pos_at L (S i) with Some _ => t | None => MkH (heap t) (set_readonly (tab t) 0) end),
              pos_at L (S i))).
      { unfold str_pool_next_position, ppool. rewrite (hget_Some _ _ _ Hx1). rb.
        change (phash x1) with t. rewrite (hsh_next_position_spec penv t L i Ht) by lia. rb. done. }
      rewrite En. rb.
      set (t2 := match pos_at L (S i) with Some _ => t | None => _ end) in *.
      pose proof (pc_next w1 (<[p := g1]> G) _ p g1 _ _ (lookup_insert _ _ _) En) as Hn1.
      rewrite insert_insert in Hn1. set (g2 := set_ro g1 _) in Hn1. set (w2 := upd_hash w1 p x1 t2) in *.
      assert (Hk2 : keeps p (w, G) (w2, <[p := g2]> G)).
      { eapply rtc_r; [exact Hk1|]. split; [done|]. cbn [snd]. rewrite lookup_insert. eauto. }
      destruct (later_inv _ _ (keeps_later _ _ _ Hk2) (ex_intro _ GM I)) as [GM2 I2]. cbn [fst snd] in I2.
      assert (Hro2 : (S i < length (pairs L))%nat -> q_ro g2 = 1).
      { intros Hlt2. subst g2. cbn [set_ro q_ro]. unfold pos_at.
        destruct (lookup_lt_is_Some_2 (concat L) (S i)) as [y Hy]; [lia|]. rewrite Hy. done. }
      assert (Ht2 : hinv penv t2 L) by (subst t2; destruct (pos_at L (S i)); [done|by apply hinv_flag]).
      destruct (IH (S i) w2 (<[p := g2]> G) GM2 (Pool (pstr x1) t2) g2 u1 ltac:(lia) ltac:(lia) I2
          (lookup_insert _ _ _) (lookup_insert _ _ _) Ht2 Hro2) as (w' & g' & E' & Hk' & R1 & R2 & R3).
      exists w', g'. split; [exact E'|]. rewrite insert_insert in Hk'.
      split; [by eapply rtc_transitive|]. split; [by rewrite R1|]. split; [by rewrite R2|].
      rewrite R3. destruct (decide (S i < length (pairs L))%nat) as [Hlt2|Hge2]; [done|].
      rewrite (drop_ge _ (S i)) by (rewrite fmap_length; lia). cbn [walk snd].
      subst g2. cbn [set_ro q_ro]. unfold pos_at. rewrite lookup_ge_None_2 by lia. done.
    + exists (upd_hash w p x t), g1. split; [done|]. done.
  - subst W. rewrite drop_ge by (rewrite fmap_length; lia). cbn [walk fst snd].
    assert (Hend : pos_at L i = None) by (unfold pos_at; rewrite lookup_ge_None_2 by lia; done).
    rewrite Hend. exists w, g. split; [by destruct n|]. rewrite (insert_id _ _ _ Hg).
    split; [apply rtc_refl|]. done.
Qed.
End iter.

Lemma view_addrs (m : list (key * ptr)) :
  (fun kd : key * ptr => default xH kd.2) <$> m = (view m).*2.
Proof. unfold view. rewrite <- list_fmap_compose. by apply list_fmap_ext. Qed.

Definition order_of (w : pworld) (p : positive) (g : pgh) (l : list positive) : Prop :=
  exists x L, pools w !! p = Some x /\ hinv penv (phash x) L /\ own_keys (pairs L) /\
    l = (fun kd : key * ptr => default xH kd.2) <$> pairs L.
Lemma order_ex w G p g : pool_history w G -> G !! p = Some g -> exists l, l ≡ₚ (q_int g).*2 /\ order_of w p g l.
Proof.
  intros H Hg. destruct (pool_history_inv w G H) as [GM I].
  destruct (get_pool w G GM I p g Hg) as (x & Hx & Ho & _).
  destruct (po_hash _ _ _ Ho) as (gh & Hh & Hk & Hv & _). destruct (history_inv _ _ _ penv_good Hh) as [L J].
  exists ((fun kd : key * ptr => default xH kd.2) <$> pairs L). split.
  - rewrite <- Hv, <- view_addrs. apply fmap_Permutation, J.
  - exists x, L. split; [done|]. split; [apply J|]. split; [|done].
    intros kd Hkd. apply Hk. by rewrite <- (hh_map _ _ _ _ J).
Qed.

Lemma iterate_ok {X} w G p g l strs (f : ptr -> X -> X * Z) u fuel :
  pool_history w G -> G !! p = Some g -> order_of w p g l ->
  (forall u k, Forall str_ok (strs u k)) -> (length l < fuel)%nat ->
  (exists w' g', str_pool_iterate (lookup_it (Some p) strs f) fuel w (Some p) u =
       Ret ((walk f l u).1, w', if (walk f l u).2 then 1 else 0) /\
     keeps p (w, G) (w', <[p := g']> G) /\ q_int g' = q_int g /\ q_mem g' = q_mem g /\
     q_ro g' = (if decide (l = []) then q_ro g else if (walk f l u).2 then 1 else 0)) /\
  (exists w' g', str_pool_iterate_arg (lookup_it (Some p) strs f) fuel w (Some p) u =
       Ret ((walk f l u).1, w', if (walk f l u).2 then 1 else 0) /\
     keeps p (w, G) (w', <[p := g']> G) /\ q_int g' = q_int g /\ q_mem g' = q_mem g /\
     q_ro g' = (if decide (l = []) then q_ro g else 0)).
Proof.
  intros H Hg (x & L & Hx & HI & Hown & ->) Hstr Hf. rewrite fmap_length in Hf.
  destruct (pool_history_inv w G H) as [GM I].
  set (l := _ <$> pairs L). set (W := walk f l u).
  assert (Hlc : length (pairs L) = length (concat L)) by (unfold pairs, ents; by rewrite !fmap_length).
  assert (Hl0 : (if decide (0 < length (pairs L))%nat then true else false) = (if decide (l = []) then false else true)).
  { subst l. destruct (decide (0 < _)%nat) as [Hp|Hp], (decide (_ = [])) as [E|E]; try done.
    - apply fmap_nil_inv in E. rewrite E in Hp. cbn in Hp. lia.
    - destruct (pairs L); [done|]. cbn in Hp. lia. }
  assert (Ei : exists w0 g0, str_pool_init_position w (Some p) = Ret (w0, pos_at L 0) /\
     keeps p (w, G) (w0, <[p := g0]> G) /\ q_int g0 = q_int g /\ q_mem g0 = q_mem g /\
     q_ro g0 = (if decide (0 < length (pairs L))%nat then 1 else q_ro g) /\
     exists x0, pools w0 !! p = Some x0 /\ hinv penv (phash x0) L).
  { set (t := match pos_at L 0 with Some _ => MkH (heap (phash x)) (set_readonly (tab (phash x)) 1) | None => phash x end).
    assert (E : str_pool_init_position w (Some p) = Ret (upd_hash w p x t, pos_at L 0)).
    { unfold str_pool_init_position, ppool. rewrite (hget_Some _ _ _ Hx). rb.
      rewrite (hsh_init_position_spec penv (phash x) L HI). rb. done. }
    eexists _, _. split; [exact E|]. split.
    { apply rtc_once. split; [eapply pc_init; [exact Hg|exact E]|]. cbn [snd]. rewrite lookup_insert. eauto. }
    cbn [set_ro q_int q_mem q_ro]. split; [done|]. split; [done|]. split.
    - unfold pos_at. destruct (decide (0 < length (pairs L))%nat) as [Hp|Hp].
      + destruct (lookup_lt_is_Some_2 (concat L) 0) as [y Hy]; [lia|]. by rewrite Hy.
      + rewrite lookup_ge_None_2 by lia. done.
    - exists (Pool (pstr x) t). split; [apply lookup_insert|]. subst t. cbn [phash].
      destruct (pos_at L 0); [by apply hinv_flag|done]. }
  destruct Ei as (w0 & g0 & Ei & Hk0 & A1 & A2 & A3 & x0 & Hx0 & HI0).
  destruct (later_inv _ _ (keeps_later _ _ _ Hk0) (ex_intro _ GM I)) as [GM0 I0]. cbn [fst snd] in I0.
  destruct (keys_loop_ok p L Hown strs f Hstr fuel 0 w0 (<[p := g0]> G) GM0 x0 g0 u ltac:(lia) ltac:(lia) I0 Hx0
     (lookup_insert _ _ _) HI0) as (w1 & g1 & E1 & Hk1 & B1 & B2 & B3).
  { intros Hlt. rewrite A3. by rewrite decide_True. }
  rewrite drop_0 in E1, B3. change (walk f _ u) with W in E1, B3. rewrite insert_insert in Hk1.
  assert (Hk : keeps p (w, G) (w1, <[p := g1]> G)) by (by eapply rtc_transitive).
  assert (Hro1 : q_ro g1 = (if decide (l = []) then q_ro g else if W.2 then 1 else 0)).
  { rewrite B3, A3. destruct (decide (0 < _)%nat), (decide (l = [])); done. }
  split.
  - exists w1, g1. unfold str_pool_iterate. rewrite Ei. rb. rewrite E1. rb.
    split; [done|]. split; [done|]. split; [by rewrite B1|]. split; [by rewrite B2|done].
  - unfold str_pool_iterate_arg. rewrite Ei. rb. rewrite E1. rb.
    assert (Hnil : l = [] -> W.2 = false) by (intros E; subst W; by rewrite E).
    destruct W.2 eqn:EW.
    + destruct (later_inv _ _ (keeps_later _ _ _ Hk) (ex_intro _ GM I)) as [GM1 I1]. cbn [fst snd] in I1.
      destruct (get_pool w1 _ GM1 I1 p g1 (lookup_insert _ _ _)) as (x1 & Hx1 & Ho1 & Ep1). rewrite Ep1. rb.
      destruct (po_hash _ _ _ Ho1) as (gh & Hh & _).
      destruct (P_ITERATE_END penv (phash x1) gh penv_good Hh) as (t & Et & _). rewrite Et. rb.
      exists (upd_hash w1 p x1 t), (set_ro g1 0). split; [done|]. split.
      { eapply rtc_r; [exact Hk|]. split; [|cbn [snd]; rewrite lookup_insert; eauto].
        rewrite <- (insert_insert G p (set_ro g1 0) g1). eapply pc_end; [apply lookup_insert|done..]. }
      cbn [set_ro q_int q_mem q_ro]. split; [by rewrite B1|]. split; [by rewrite B2|].
      destruct (decide (l = [])) as [E|E]; [|done]. by apply Hnil in E.
    + exists w1, g1. split; [done|]. split; [done|]. split; [by rewrite B1|]. split; [by rewrite B2|].
      rewrite Hro1. by destruct (decide (l = [])).
Qed.

(** ** Decimal numbers *)
Definition is_digit (c : N) : Prop := (48 <= c <= 57)%N.
Definition dec_value (s : list N) : N := foldl (fun v c => 10 * v + (c - 48))%N 0%N s.
Lemma digits_spec fuel : forall n, (0 < fuel)%nat -> (n < 10 ^ N.of_nat fuel)%N ->
  Forall is_digit (digits fuel n) /\ dec_value (digits fuel n) = n /\ (0 < length (digits fuel n) <= fuel)%nat.
Proof.
  induction fuel as [|fuel IH]; intros n Hf Hn; [lia|]. cbn [digits].
  destruct (N.ltb_spec n 10) as [Hlt|Hge].
  - split; [repeat constructor; unfold is_digit; lia|]. split; [unfold dec_value; cbn [foldl]; lia|cbn [length]; lia].
  - destruct fuel as [|fuel]; [cbn in Hn; lia|].
    assert (Hq : (n / 10 < 10 ^ N.of_nat (S fuel))%N).
    { apply N.div_lt_upper_bound; [lia|]. rewrite <- N.pow_succ_r' . by replace (N.succ (N.of_nat (S fuel))) with (N.of_nat (S (S fuel))) by lia. }
    destruct (IH (n / 10)%N ltac:(lia) Hq) as (I1 & I2 & I3).
    pose proof (N.mod_lt n 10 ltac:(lia)). split; [|split].
    + apply Forall_app. split; [done|]. repeat constructor; unfold is_digit; lia.
    + unfold dec_value in *. rewrite foldl_app, I2. cbn [foldl]. pose proof (N.div_mod n 10 ltac:(lia)). lia.
    + rewrite app_length. cbn [length]. lia.
Qed.
Lemma itoa_spec z : 0 <= z < 2 ^ 31 ->
  Forall is_digit (c_itoa z) /\ Z.of_N (dec_value (c_itoa z)) = z /\ (0 < length (c_itoa z) <= 10)%nat.
Proof.
  intros Hz. unfold c_itoa. destruct (Z.ltb_spec z 0); [lia|].
  destruct (digits_spec 10 (Z.to_N z) ltac:(lia)) as (H1 & H2 & H3).
  { change (10 ^ N.of_nat 10)%N with 10000000000%N. lia. }
  split; [done|]. split; [rewrite H2; lia|done].
Qed.
Lemma itoa_ok z : 0 <= z < 2 ^ 31 -> str_ok (c_itoa z).
Proof.
  intros Hz. destruct (itoa_spec z Hz) as (H1 & _). eapply Forall_impl; [exact H1|]. unfold is_digit. intros; cbn beta; lia.
Qed.

(** ** str_unique *)
Lemma pigeon {A} `{EqDecision A} (f : nat -> A) (l : list A) : (forall i j, (i <= length l)%nat -> (j <= length l)%nat -> f i = f j -> i = j) ->
  exists j, (j <= length l)%nat /\ f j ∉ l /\ forall i, (i < j)%nat -> f i ∈ l.
Proof.
  intros Hinj.
  assert (Hex : exists j, (j <= length l)%nat /\ f j ∉ l).
  { destruct (decide (Exists (fun j => f j ∉ l) (seq 0 (S (length l))))) as [He|He].
    - apply Exists_exists in He as (j & Hj & Hn). apply elem_of_seq in Hj. exists j. split; [lia|done].
    - exfalso. assert (Hle : (length (f <$> seq 0 (S (length l))) <= length l)%nat).
      { apply submseteq_length, NoDup_submseteq.
        - apply NoDup_fmap_2_strong; [|apply NoDup_seq]. intros i j Hi Hj. rewrite elem_of_seq in Hi, Hj. apply Hinj; lia.
        - intros y Hy. apply elem_of_list_fmap in Hy as (j & -> & Hj). destruct (decide (f j ∈ l)) as [|Hn]; [done|].
          exfalso. apply He, Exists_exists. eauto. }
      rewrite fmap_length, seq_length in Hle. lia. }
  destruct Hex as (j & Hj & Hn). revert Hj Hn. induction (lt_wf j) as [j _ IH]; intros Hj Hn.
  destruct (decide (Exists (fun i => f i ∉ l) (seq 0 j))) as [He|He].
  - apply Exists_exists in He as (i & Hi & Hni). apply elem_of_seq in Hi. eapply (IH i); [lia|lia|done].
  - exists j. split; [done|]. split; [done|]. intros i Hi. destruct (decide (f i ∈ l)) as [|Hni]; [done|].
    exfalso. apply He, Exists_exists. exists i. split; [apply elem_of_seq; lia|done].
Qed.

Lemma unique_loop_ok pre p : str_ok pre -> forall j fuel w G GM g, (j < fuel)%nat -> winv w G GM ->
  glob w = Some p -> G !! p = Some g -> uniq w + Z.of_nat j + 1 < 2 ^ 31 ->
  (forall i, (i < j)%nat -> pre ++ c_itoa (uniq w + Z.of_nat i) ∈ (q_int g).*1) ->
  pre ++ c_itoa (uniq w + Z.of_nat j) ∉ (q_int g).*1 ->
  exists w' g', unique_loop fuel w pre = Ret (w', pre ++ c_itoa (uniq w + Z.of_nat j)) /\
    keeps p (w, G) (w', <[p := g']> G) /\ q_int g' = q_int g /\ q_mem g' = q_mem g /\ q_ro g' = q_ro g /\
    uniq w' = uniq w + Z.of_nat j + 1 /\ glob w' = glob w.
Proof.
  intros Hpre j. induction j as [|j IH]; intros fuel w G GM g Hf I Hgl Hg Hu Hin Hout;
    (destruct fuel as [|fuel]; [lia|]); cbn [unique_loop].
  all: pose proof (wi_uniq _ _ _ I) as Hu1.
  all: destruct (itoa_spec (uniq w) ltac:(lia)) as (_ & _ & Hlen).
  all: rewrite (sint_ok (uniq w + 1)) by lia; rb.
  all: rewrite app_length; rewrite (proj2 (Nat.ltb_ge (length pre + 100) (length pre + length (c_itoa (uniq w)) + 1))) by lia.
  all: set (w1 := PW (pmem w) (pools w) (glob w) (uniq w + 1)).
  all: assert (Ht : pcall (w, G) (w1, G)) by (apply pc_tick; lia).
  all: destruct (pcall_inv _ _ Ht (ex_intro _ GM I)) as [GM1 I1]; cbn [fst snd] in I1.
  all: assert (Hs : str_ok (pre ++ c_itoa (uniq w))) by (apply Forall_app; split; [done|apply itoa_ok; lia]).
  all: destruct (exists_ok w1 G GM1 I1 p g Hg _ [] Hs) as (w2 & E2 & I2 & Hg2 & Hu2 & _).
  all: unfold str_exists; cbn [glob w1]; rewrite Hgl, E2; rb.
  all: assert (Hk : keeps p (w, G) (w2, <[p := asked g (pre ++ c_itoa (uniq w))]> G))
    by (eapply rtc_l; [split; [exact Ht|cbn [snd]; eauto]|]; apply rtc_once; split;
        [eapply pc_exists; [exact Hg|exact Hs|exact E2]|cbn [snd]; rewrite lookup_insert; eauto]).
  - rewrite Z.add_0_r in Hout |- *. rewrite (proj2 (assoc_None _ _) Hout). cbn [negb Z.eqb].
    exists w2, (asked g (pre ++ c_itoa (uniq w))). split; [done|]. split; [done|].
    cbn [asked q_int q_mem q_ro]. split; [done|]. split; [done|]. split; [done|]. split; [rewrite Hu2; cbn [w1 uniq]; lia|rewrite Hg2; exact Hgl].
  - destruct (assoc (pre ++ c_itoa (uniq w)) (q_int g)) as [b|] eqn:Ea.
    2:{ exfalso. apply assoc_None in Ea. apply Ea. specialize (Hin 0%nat ltac:(lia)). by rewrite Z.add_0_r in Hin. }
    cbn [negb Z.eqb]. cbn [w1 uniq] in Hu2.
    assert (Hsh : forall i, uniq w2 + Z.of_nat i = uniq w + Z.of_nat (S i)) by (intros i; rewrite Hu2; lia).
    destruct (IH fuel w2 (<[p := asked g (pre ++ c_itoa (uniq w))]> G) GM1 (asked g (pre ++ c_itoa (uniq w))))
      as (w' & g' & E' & Hk' & Q1 & Q2 & Q3 & Q4 & Q5).
    + lia.
    + done.
    + rewrite Hg2. done.
    + apply lookup_insert.
    + rewrite Hsh. lia.
    + intros i Hi. rewrite Hsh. apply Hin. lia.
    + by rewrite Hsh.
    + rewrite Hsh in *. rewrite insert_insert in Hk'. exists w', g'. split; [done|].
      split; [by eapply rtc_transitive|]. split; [done|]. split; [done|]. split; [done|].
      split; [lia|]. by rewrite Q5, Hg2.
Qed.

Lemma unique_full al w G p g pre rest : pool_history w G -> glob w = Some p -> G !! p = Some g ->
  palloc_ok al -> str_ok pre -> q_ro g = 0 -> room (q_mem g) (Z.of_nat (length pre) + 11) ->
  uniq w + Z.of_nat (length (q_int g)) + 1 < 2 ^ 31 ->
  ok (fun '(w', a) => exists n g',
        uniq w <= n <= uniq w + Z.of_nat (length (q_int g)) /\ uniq w' = n + 1 /\
        pre ++ c_itoa n ∉ (q_int g).*1 /\
        (forall i, uniq w <= i < n -> pre ++ c_itoa i ∈ (q_int g).*1) /\
        a ∉ (q_int g).*2 /\ (mblk (pmem w') !! a = Some (pre ++ c_itoa n ++ [0%N])) /\
        keeps p (w, G) (w', <[p := g']> G) /\ q_int g' = (pre ++ c_itoa n, a) :: q_int g /\
        q_mem g' = stored (q_mem g) a (pre ++ c_itoa n ++ [0%N]) (Z.of_nat (length (pre ++ c_itoa n)) + 1) /\ q_ro g' = q_ro g /\ glob w' = glob w)
     (pfail al) (str_unique al w (pre ++ 0%N :: rest)).
Proof.
  intros H Hgl Hg Hal Hpre Hro Hr Hu. destruct (pool_history_inv w G H) as [GM I].
  destruct (get_pool w G GM I p g Hg) as (x & Hx & Ho & _).
  destruct (po_hash _ _ _ Ho) as (gh & Hh & Hk & Hv & _).
  pose proof (wi_uniq _ _ _ I) as Hu1.
  assert (Hsz : size (heap (phash x)) = length (q_int g)).
  { rewrite (proj1 (P_nodes penv _ _ penv_good Hh)). rewrite <- Hv. unfold view. by rewrite fmap_length. }
  unfold str_unique. rewrite c_string_spec by done. rb. rewrite Hgl, Hx, Hsz.
  destruct (pigeon (fun j => pre ++ c_itoa (uniq w + Z.of_nat j)) (q_int g).*1) as (j & Hj & Hout & Hin).
  { rewrite fmap_length. intros i j Hi Hj E. apply app_inv_head in E.
    destruct (itoa_spec (uniq w + Z.of_nat i) ltac:(lia)) as (_ & V1 & _).
    destruct (itoa_spec (uniq w + Z.of_nat j) ltac:(lia)) as (_ & V2 & _). rewrite E in V1. lia. }
  rewrite fmap_length in Hj.
  destruct (unique_loop_ok pre p Hpre j (S (length (q_int g))) w G GM g ltac:(lia) I Hgl Hg ltac:(lia) Hin Hout)
    as (w1 & g1 & E1 & Hk1 & Q1 & Q2 & Q3 & Q4 & Q5).
  rewrite E1. rb. set (n := uniq w + Z.of_nat j) in *. unfold str_find, check_global. rewrite Q5, Hgl. rb. rewrite Q5, Hgl.
  destruct (later_inv _ _ (keeps_later _ _ _ Hk1) (ex_intro _ GM I)) as [GM1 I1]. cbn [fst snd] in I1.
  assert (Hnb : 0 <= n < 2 ^ 31) by (subst n; lia).
  destruct (itoa_spec n Hnb) as (_ & _ & Hlen).
  assert (Hs : str_ok (pre ++ c_itoa n)) by (apply Forall_app; split; [done|by apply itoa_ok]).
  assert (Hf : assoc (pre ++ c_itoa n) (q_int g1) = None -> q_ro g1 = 0 /\
     room (q_mem g1) (Z.of_nat (length (pre ++ c_itoa n)) + 1)).
  { intros _. rewrite Q3, Q2. split; [done|]. rewrite app_length. destruct Hr. split; lia. }
  pose proof (find_ok w1 _ GM1 I1 p g1 (lookup_insert _ _ _) al Hal _ [] Hs Hf) as Hfind.
  destruct (str_pool_find al w1 (Some p) _) as [[w2 a]| | | |] eqn:E2; cbn [ok] in *; try done.
  destruct Hfind as (_ & Hgl2 & Hu2 & Hc).
  assert (Hno : assoc (pre ++ c_itoa n) (q_int g1) = None) by (rewrite Q1; by apply assoc_None).
  rewrite Hno in Hc. destruct Hc as [Hfr Hbl].
  exists n, (found g1 (pre ++ c_itoa n) a). split; [subst n; lia|]. split; [rewrite Hu2, Q4; subst n; lia|].
  split; [done|]. split.
  { intros i Hi. specialize (Hin (Z.to_nat (i - uniq w)) ltac:(subst n; lia)). cbn beta in Hin.
    by replace (uniq w + Z.of_nat (Z.to_nat (i - uniq w))) with i in Hin by lia. }
  split.
  { intros Hina. rewrite <- Q1 in Hina.
    destruct (wi_pool _ _ _ I1 p g1 (lookup_insert _ _ _)) as (x1 & Hx1 & Ho1).
    pose proof (addr_done _ _ _ _ Ho1 Hina) as Hd. apply elem_of_list_fmap in Hd as ([a' b'] & -> & Hd). cbn [fst] in Hfr.
    rewrite (sh_done _ _ (wi_mem _ _ _ I1) _ _ _ _ (po_mem _ _ _ Ho1) Hd) in Hfr. done. }
  split; [rewrite Hbl, lookup_insert; by rewrite app_assoc|]. split.
  - eapply rtc_r; [exact Hk1|]. split; [|cbn [snd]; rewrite lookup_insert; eauto].
    rewrite <- (insert_insert G p (found g1 (pre ++ c_itoa n) a) g1). eapply pc_find; [exact Hal|apply lookup_insert|exact Hs|exact Hf|exact E2].
  - unfold found. rewrite Hno. unfold entered. cbn [set_mem asked q_int q_mem q_ro]. rewrite Hno, Q1, Q2, Q3, <- app_assoc.
    split; [reflexivity|]. split; [reflexivity|]. split; [reflexivity|]. rewrite Hgl2, Q5. first [reflexivity|exact Hgl].
Qed.
Lemma unique_ok al w G p g pre rest : pool_history w G -> glob w = Some p -> G !! p = Some g ->
  palloc_ok al -> str_ok pre -> q_ro g = 0 -> room (q_mem g) (Z.of_nat (length pre) + 11) ->
  uniq w + Z.of_nat (length (q_int g)) + 1 < 2 ^ 31 ->
  ok (fun '(w', a) => exists n g',
        uniq w <= n <= uniq w + Z.of_nat (length (q_int g)) /\ uniq w' = n + 1 /\
        pre ++ c_itoa n ∉ (q_int g).*1 /\
        (forall i, uniq w <= i < n -> pre ++ c_itoa i ∈ (q_int g).*1) /\
        a ∉ (q_int g).*2 /\ (mblk (pmem w') !! a = Some (pre ++ c_itoa n ++ [0%N])) /\
        keeps p (w, G) (w', <[p := g']> G) /\ q_int g' = (pre ++ c_itoa n, a) :: q_int g)
     (pfail al) (str_unique al w (pre ++ 0%N :: rest)).
Proof.
  intros H Hgl Hg Hal Hpre Hro Hr Hu. eapply ok_mono; [by apply (unique_full al w G p g pre rest)| |tauto].
  intros [w' a] (n & g' & H1 & H2 & H3 & H4 & H5 & H6 & H7 & H8 & _). exists n, g'. tauto.
Qed.

(** ** The remaining facts about any history *)
Section facts.
Context (w : pworld) (G : gmap positive pgh) (H : pool_history w G) (p : positive) (g : pgh) (Hg : G !! p = Some g).

Lemma st_inv : sinv (w, G).
Proof. apply (later_inv _ _ H). exists ∅. apply winv_start. Qed.
Lemma st_step w' G' : pcall (w, G) (w', G') -> is_Some (G' !! p) -> keeps p (w, G) (w', G').
Proof. intros H1 H2. by apply rtc_once. Qed.

Lemma int_nodup : NoDup (q_int g).*1 /\ NoDup (q_int g).*2.
Proof.
  destruct st_inv as [GM I]. destruct (wi_pool _ _ _ I p g Hg) as (x & _ & Ho). split; apply Ho.
Qed.
Lemma int_memory s a : (s, a) ∈ q_int g -> str_ok s /\ exists rest, mblk (pmem w) !! a = Some (s ++ 0%N :: rest).
Proof.
  intros Hin. destruct st_inv as [GM I]. destruct (wi_pool _ _ _ I p g Hg) as (x & _ & Ho).
  split; [by eapply po_str|]. destruct (po_done _ _ _ Ho s a Hin) as [rest Hr]. exists rest.
  exact (sh_done _ _ (wi_mem _ _ _ I) _ _ _ _ (po_mem _ _ _ Ho) Hr).
Qed.
Lemma done_memory a b : (a, b) ∈ s_done (q_mem g) -> mblk (pmem w) !! a = Some b.
Proof.
  intros Hin. destruct st_inv as [GM I]. destruct (wi_pool _ _ _ I p g Hg) as (x & _ & Ho).
  exact (sh_done _ _ (wi_mem _ _ _ I) _ _ _ _ (po_mem _ _ _ Ho) Hin).
Qed.
Lemma int_done a : a ∈ (q_int g).*2 -> a ∈ (s_done (q_mem g)).*1.
Proof.
  destruct st_inv as [GM I]. destruct (wi_pool _ _ _ I p g Hg) as (x & _ & Ho). by apply (addr_done GM x).
Qed.

Lemma hist_find al s rest : palloc_ok al -> str_ok s ->
  (assoc s (q_int g) = None -> q_ro g = 0 /\ room (q_mem g) (Z.of_nat (length s) + 1)) ->
  ok (fun '(w', a) => keeps p (w, G) (w', <[p := found g s a]> G) /\
        mblk (pmem w') !! a <> None /\ assoc s (q_int (found g s a)) = Some a /\
        match assoc s (q_int g) with
        | Some b => a = b /\ pmem w' = pmem w
        | None => mblk (pmem w) !! a = None /\ mblk (pmem w') = <[a := s ++ [0%N]]> (mblk (pmem w)) /\
                  q_int (found g s a) = (s, a) :: q_int g
        end)
     (pfail al) (str_pool_find al w (Some p) (s ++ 0%N :: rest)).
Proof.
  intros Hal Hs Hr. destruct st_inv as [GM I]. cbn [fst snd] in I.
  pose proof (find_ok w G GM I p g Hg al Hal s rest Hs Hr) as Hf.
  destruct (str_pool_find _ _ _ _) as [[w' a]| | | |] eqn:E; cbn [ok] in *; try done.
  destruct Hf as (_ & _ & _ & Hc). split.
  { apply st_step; [by eapply pc_find|]. rewrite lookup_insert. eauto. }
  unfold found. destruct (assoc s (q_int g)) as [b|] eqn:Ea.
  - destruct Hc as [-> Hm]. split; [|split; [exact Ea|done]]. rewrite Hm.
    destruct (int_memory s b (assoc_in _ _ _ Ea)) as [_ [r Hb]]. by rewrite Hb.
  - destruct Hc as [Hn Hm]. split; [by rewrite Hm, lookup_insert|].
    unfold entered. cbn [set_mem asked q_int]. rewrite Ea. cbn [assoc]. by rewrite decide_True.
Qed.

Lemma hist_exists s rest : str_ok s ->
  exists w', str_pool_exists w (Some p) (s ++ 0%N :: rest) =
      Ret (w', if decide (s ∈ (q_int g).*1) then 1 else 0) /\ keeps p (w, G) (w', <[p := asked g s]> G).
Proof.
  intros Hs. destruct st_inv as [GM I]. cbn [fst snd] in I.
  destruct (exists_ok w G GM I p g Hg s rest Hs) as (w' & E & _). exists w'.
  assert (E2 : (match assoc s (q_int g) with Some _ => 1 | None => 0 end) = (if decide (s ∈ (q_int g).*1) then 1 else 0)).
  { destruct (assoc s (q_int g)) as [b|] eqn:Ea.
    - rewrite decide_True; [done|]. apply elem_of_list_fmap. exists (s, b). split; [done|by apply assoc_in].
    - apply assoc_None in Ea. by rewrite decide_False. }
  rewrite <- E2. split; [done|]. apply st_step; [by eapply pc_exists|]. rewrite lookup_insert. eauto.
Qed.

Lemma hist_finish al : palloc_ok al -> room (q_mem g) 2 -> q_ro g = 0 ->
  ok (fun '(w', a) => keeps p (w, G) (w', <[p := finished g a]> G) /\
        a ∉ (s_done (q_mem g)).*1 /\ mblk (pmem w') !! a = Some (s_cur (q_mem g) ++ [0; 0]%N))
     (pfail al) (str_pool_finish al w (Some p)).
Proof.
  intros Hal Hr Hro. destruct st_inv as [GM I]. cbn [fst snd] in I.
  pose proof (finish_ok w G GM I p g Hg al Hal Hr Hro) as Hf.
  destruct (str_pool_finish _ _ _) as [[w' a]| | | |] eqn:E; cbn [ok] in *; try done.
  destruct Hf as [[GM' Hw] Hn].
  split. { apply st_step; [by eapply pc_finish|]. rewrite lookup_insert. eauto. }
  split; [done|]. destruct (wi_pool _ _ _ Hw p _ (lookup_insert _ _ _)) as (x & _ & Ho).
  eapply (sh_done _ _ (wi_mem _ _ _ Hw) _ _ _ _ (po_mem _ _ _ Ho)).
  cbn [finished entered set_mem q_mem stored s_done]. apply elem_of_app. right. left.
Qed.

Lemma hist_stats al : (N.of_nat (length (q_int g)) < 2 ^ 32)%N ->
  ok (fun '(c, b, r, h, m) => c = Z.of_nat (length (s_done (q_mem g))) /\ b = s_bytes (q_mem g) /\
        r = to_int (Z.of_N (u64 (q_retr g))) /\ m = to_int (Z.of_N (u64 (q_miss g))))
     (blk_alloc (pa_hash al) 72 = false) (str_pool_get_stats true al w (Some p)).
Proof.
  intros Hlen. destruct st_inv as [GM I]. cbn [fst snd] in I.
  destruct (wi_pool _ _ _ I p g Hg) as (x & Hx & Ho). unfold str_pool_get_stats.
  rewrite (hget_Some _ _ _ Hx). rb.
  rewrite (sh_stats _ _ (wi_mem _ _ _ I) _ _ (po_mem _ _ _ Ho)). rb.
  destruct (po_hash _ _ _ Ho) as (gh & Hh & _ & Hv & _ & H1 & H2).
  assert (Hl : (N.of_nat (length (g_map gh)) < 2 ^ 32)%N).
  { rewrite <- Hv in Hlen. unfold view in Hlen. by rewrite fmap_length in Hlen. }
  eapply ok_bind; [apply (P_stats penv (phash x) gh (pa_hash al) penv_good Hh Hl)|].
  intros st Hst. cbn [ok]. destruct Hst as (_ & _ & _ & _ & R1 & R2 & _). rewrite R1, R2, H1, H2. done.
Qed.

Lemma hist_destroy : glob w <> Some p ->
  if decide (q_ro g = 0) then
    exists w', str_pool_destroy w (Some p) = Ret (w', ∅) /\ later (w, G) (w', delete p G) /\
      (forall a b, (a, b) ∈ s_done (q_mem g) -> mblk (pmem w') !! a = None) /\ pools w' = delete p (pools w)
  else str_pool_destroy w (Some p) = Abort.
Proof.
  intros Hgl. destruct st_inv as [GM I]. cbn [fst snd] in I.
  pose proof (pool_destroy_ok w G GM p g I Hg) as Hd. destruct (decide (q_ro g = 0)); [|done].
  destruct Hd as (w' & GM' & E & Hp & _ & _ & Hgone & _). exists w'. split; [done|]. split; [|done].
  apply rtc_once. by eapply pc_destroy.
Qed.
End facts.

Fixpoint grow_all (al : palloc) (w : pworld) (p : ptr) (l : list (list N * Z)) : res pworld :=
  match l with
  | [] => Ret w
  | (src, len) :: l' => w1 ← str_pool_grow al w p src len; grow_all al w1 p l'
  end.
Definition pieces (l : list (list N * Z)) : list N := concat ((fun x => take (Z.to_nat x.2) x.1) <$> l).
Definition pieces_ok (l : list (list N * Z)) : Prop :=
  Forall (fun x : list N * Z => 0 <= x.2 <= Z.of_nat (length x.1)) l /\ Forall byte_ok (pieces l).

Lemma hist_grow_all al p l : palloc_ok al -> forall w G g, pool_history w G -> G !! p = Some g -> pieces_ok l ->
  room (q_mem g) (Z.of_nat (length (pieces l))) ->
  ok (fun w' => exists g', keeps p (w, G) (w', <[p := g']> G) /\ q_int g' = q_int g /\ q_ro g' = q_ro g /\
        s_done (q_mem g') = s_done (q_mem g) /\ s_cur (q_mem g') = s_cur (q_mem g) ++ pieces l /\
        s_bytes (q_mem g') = s_bytes (q_mem g) + Z.of_nat (length (pieces l)))
     (pfail al) (grow_all al w (Some p) l).
Proof.
  intros Hal. induction l as [|[src len] l IH]; intros w G g H Hg [Hok Hb] Hr; cbn [grow_all].
  - cbn [ok]. exists g. rewrite (insert_id _ _ _ Hg). split; [apply rtc_refl|]. unfold pieces. cbn [fmap list_fmap concat length].
    rewrite app_nil_r. do 4 (split; [done|]). cbn. lia.
  - apply Forall_cons in Hok as [Hlen Hok]. cbn [fst snd] in Hlen.
    assert (Ep : pieces ((src, len) :: l) = take (Z.to_nat len) src ++ pieces l) by done.
    rewrite Ep in *. apply Forall_app in Hb as [Hb1 Hb2]. rewrite app_length in *.
    assert (Hlt : length (take (Z.to_nat len) src) = Z.to_nat len) by (rewrite take_length; lia).
    destruct (st_inv w G H) as [GM I]. cbn [fst snd] in I.
    assert (Hr1 : room (q_mem g) len) by (destruct Hr; split; lia).
    pose proof (grow_ok w G GM I p g Hg al Hal src len Hlen Hr1 Hb1) as Hgr.
    destruct (str_pool_grow _ _ _ _ _) as [w1| | | |] eqn:E; cbn [ok] in Hgr; try done. rb.
    pose proof (pc_grow al w G w1 p g src len Hal Hg Hlen Hr1 Hb1 E) as Hst. clear Hgr.
    set (g1 := set_mem g _) in Hst.
    assert (Hk : keeps p (w, G) (w1, <[p := g1]> G)).
    { apply rtc_once. split; [done|]. cbn [snd]. rewrite lookup_insert. eauto. }
    eapply ok_mono; [apply (IH w1 _ g1 (history_step _ _ _ _ H Hst) (lookup_insert _ _ _))| |done].
    + split; done.
    + subst g1. cbn [set_mem q_mem]. destruct Hr. split; cbn [MemHist.grown s_done s_bytes]; lia.
    + intros w' (g' & Hk' & Q1 & Q2 & Q3 & Q4 & Q5). exists g'. rewrite insert_insert in Hk'.
      split; [by eapply rtc_transitive|]. split; [by rewrite Q1|]. split; [by rewrite Q2|].
      split; [by rewrite Q3|]. subst g1. cbn [set_mem q_mem MemHist.grown s_cur s_bytes] in Q4, Q5.
      split; [by rewrite Q4, app_assoc|]. rewrite Q5. lia.
Qed.

Lemma hist_no_leak w : pool_history w ∅ ->
  pools w = ∅ /\ glob w = None /\ mblk (pmem w) = ∅ /\ minf (pmem w) = ∅ /\ stks (msh (pmem w)) = ∅ /\ nodes (msh (pmem w)) = ∅.
Proof.
  intros H. destruct (pool_history_inv w ∅ H) as [GM I].
  assert (Hp : pools w = ∅).
  { apply map_empty. intros p. apply eq_None_not_Some. intros [x Hx]. destruct (wi_dom _ _ _ I p x Hx) as [g Hg].
    by rewrite lookup_empty in Hg. }
  assert (HGM : GM = ∅).
  { apply map_empty. intros i. apply eq_None_not_Some. intros Hi. destruct (wi_all _ _ _ I i Hi) as (p & x & Hx & _).
    by rewrite Hp, lookup_empty in Hx. }
  split; [done|]. split.
  - destruct (glob w) as [p|] eqn:E; [|done]. destruct (wi_glob _ _ _ I p E) as [g Hg]. by rewrite lookup_empty in Hg.
  - exact (sh_no_leak _ _ (wi_mem _ _ _ I) HGM).
Qed.
