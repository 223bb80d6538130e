(** Hash tables keyed by C strings (hsh_create(NULL, NULL)), as used by flags.c, debug.c,
    timer.c and parse-concrete.c.  The strings belong to the user (literals): that they stay
    unchanged while registered is assumed. *)
From Verif Require Import Base CStr ListLemmas PrimeModel HashModel HashSpec HashProofs HashOps HashOps2 HashIter HashHist HashFnModel HashFnProofs.
Local Open Scope Z_scope.

(** the key a [const char *] is: the string it points to.  The default hash function
    aborts on NULL (hash.c:484) *)
Definition name_key (p : option (list N)) : res skey :=
  match p with
  | None => Abort
  | Some buf =>
      s ← c_string buf;
      match decide (str_ok s) with left H => Ret (exist _ s H) | right _ => UB end
  end.

Section tab.
Context {D : Type} (null : D).
Notation env := (string_env null).

(** the first pair with the name [s] *)
Fixpoint lookup_name (s : list N) (l : list (list N * D)) : option D :=
  match l with
  | [] => None
  | (s', d) :: l' => if decide (s' = s) then Some d else lookup_name s l'
  end.
Definition names_of (m : list (skey * D)) : list (list N * D) := (fun kd => (proj1_sig kd.1, kd.2)) <$> m.
(** [t] holds the names [l], newest first *)
Definition named (t : hst skey D) (l : list (list N * D)) : Prop :=
  exists gh, history env t gh /\ names_of (g_map gh) = l /\ g_ro gh = 0.
Definition add_name (s : list N) (d : D) (l : list (list N * D)) : list (list N * D) :=
  match lookup_name s l with Some _ => l | None => (s, d) :: l end.

Lemma name_key_ok s rest : str_ok s -> exists k, name_key (Some (s ++ 0%N :: rest)) = Ret k /\ proj1_sig k = s.
Proof.
  intros Hs. unfold name_key. rewrite c_string_spec by done. rb. destruct (decide (str_ok s)); [|done]. eauto.
Qed.
Lemma afind_names k m : afind (cmpf env) k m = lookup_name (proj1_sig k) (names_of m).
Proof.
  induction m as [|[k' d] m IH]; [done|]. cbn [afind names_of fmap list_fmap lookup_name fst snd].
  destruct k as [s Hs], k' as [s' Hs']. cbn [proj1_sig string_env cmpf] in *.
  destruct (decide (s' = s)) as [->|Hne].
  - by rewrite scmp_refl.
  - rewrite (proj2 (Z.eqb_neq _ _)); [done|]. rewrite scmp_eq by done. done.
Qed.
Lemma lookup_in s l d : lookup_name s l = Some d -> (s, d) ∈ l.
Proof.
  induction l as [|[s' b] l IH]; [done|]. cbn [lookup_name]. destruct (decide (s' = s)) as [->|]; [intros [= ->]; left|].
  intros H. right. auto.
Qed.
Lemma lookup_add s d s' l : lookup_name s' (add_name s d l) =
  if decide (s = s') then Some (default d (lookup_name s l)) else lookup_name s' l.
Proof.
  unfold add_name. destruct (lookup_name s l) as [d'|] eqn:E.
  - destruct (decide (s = s')) as [->|]; [by rewrite E|done].
  - cbn [lookup_name]. destruct (decide (s = s')); done.
Qed.

Lemma nt_create al : halloc_ok al -> ok (fun t => named t []) (can_fail al) (hsh_create al).
Proof.
  intros Hal. eapply ok_mono; [apply (P_create env al Hal)| |done]. intros t Ht. eexists. split; [exact Ht|done].
Qed.
Lemma nt_insert al t l k d : halloc_ok al -> named t l ->
  ok (fun '(t', r) => named t' (add_name (proj1_sig k) d l) /\
        r = match lookup_name (proj1_sig k) l with Some _ => 1 | None => 0 end)
     (can_fail al) (hsh_insert env al t k d).
Proof.
  intros Hal (gh & Hh & El & Hro). pose proof (P_insert env t gh al k d (string_env_good _) Hh Hal Hro) as Hc.
  destruct (hsh_insert env al t k d) as [[t' r]| | | |] eqn:E; cbn [ok] in *; try done.
  pose proof (h_insert env al t t' gh k d r Hh Hal E) as Hh'. rewrite afind_names, El in *. split.
  - eexists. split; [exact Hh'|]. cbn [g_map g_ro]. split; [|done]. unfold add_name.
    destruct (lookup_name (proj1_sig k) l); [done|]. cbn. by rewrite <- El.
  - by destruct (lookup_name (proj1_sig k) l).
Qed.
Lemma nt_retrieve t l k : named t l ->
  exists t', hsh_retrieve env t k = Ret (t', default null (lookup_name (proj1_sig k) l)) /\ named t' l.
Proof.
  intros (gh & Hh & El & Hro). destruct (P_retrieve env t gh k (string_env_good _) Hh) as [t' E].
  rewrite afind_names, El in E. exists t'. split; [done|]. eexists. split; [eapply h_retrieve; done|]. done.
Qed.
Lemma nt_destroy t l : named t l -> hsh_destroy t = Ret ∅.
Proof. intros (gh & Hh & El & Hro). by apply (P_nodes env t gh (string_env_good _) Hh). Qed.
(** the order in which an iteration meets the names *)
Lemma nt_enumerates t l : named t l -> exists m, enumerates t m /\ names_of m ≡ₚ l.
Proof.
  intros (gh & Hh & El & Hro). destruct (P_contents env t gh (string_env_good _) Hh) as (m & Hm & He & _).
  exists m. split; [done|]. rewrite <- El. unfold names_of. by rewrite Hm.
Qed.
(** HSH_ITERATE with a body that only looks at the pair *)
Lemma pos_loop_history {U} (f : skey -> D -> U -> U * Z) n : forall p t u t' u' b gh,
  history env t gh -> pos_loop n env (lookup_body env (fun _ _ _ => []) f) p (t, u) = Ret (t', u', b) ->
  exists gh', history env t' gh' /\ g_map gh' = g_map gh.
Proof.
  induction n as [|n IH]; intros p t u t' u' b gh Hh E; destruct p as [a|]; cbn [pos_loop] in E; try discriminate E;
    try (injection E as <- <- <-; eauto; fail).
  cbn [fst snd] in E. destruct (hsh_get_position env t (Some a)) as [[[k|] d]| | | |]; try discriminate E.
  cbn [mbind res_bind] in E. 
  assert (Eb : lookup_body env (fun _ _ _ => []) f k d (t, u) = let '(u1, r) := f k d u in Ret (t, u1, r)) by reflexivity.
  rewrite Eb in E. clear Eb.
  destruct (f k d u) as [u1 r]. cbn [mbind res_bind] in E. destruct (negb (r =? 0)).
  - injection E as <- <- <-. eauto.
  - cbn [fst snd] in E. destruct (hsh_next_position t (Some a)) as [[t2 p']| | | |] eqn:En; try discriminate E.
    cbn [mbind res_bind] in E. destruct (IH _ _ _ _ _ _ _ (h_next env _ _ _ _ _ Hh En) E) as (gh' & H1 & H2).
    exists gh'. done.
Qed.
Lemma nt_iterate {U} (f : skey -> D -> U -> U * Z) t l u fuel : named t l -> (length l < fuel)%nat ->
  exists m t', enumerates t m /\ names_of m ≡ₚ l /\
    HSH_ITERATE fuel env (lookup_body env (fun _ _ _ => []) f) t u = Ret (t', (visit f m u).1, (visit f m u).2) /\
    ((visit f m u).2 = false -> named t' l) /\
    exists t'' o, HSH_ITERATE_END t' = Ret (t'', o) /\ named t'' l.
Proof.
  intros (gh & Hh & El & Hro) Hf. destruct (P_contents env t gh (string_env_good _) Hh) as (m & Hm & He & _).
  assert (Hlen : length m = length l). { rewrite <- El. unfold names_of. by rewrite fmap_length, Hm. }
  destruct (P_HSH_ITERATE env t gh m (fun _ _ _ => []) f u fuel (string_env_good _) Hh He ltac:(lia)) as (t' & E & He' & Hr).
  assert (Hh' : exists gh', history env t' gh' /\ g_map gh' = g_map gh).
  { unfold HSH_ITERATE in E. destruct (hsh_init_position t) as [[t1 p]| | | |] eqn:Ei; try discriminate E.
    cbn [mbind res_bind] in E. destruct (pos_loop_history f fuel _ _ _ _ _ _ _ (h_init env _ _ _ _ Hh Ei) E) as (gh' & H1 & H2).
    exists gh'. done. }
  destruct Hh' as (gh' & Hh' & Em). exists m, t'. split; [done|]. split; [rewrite <- El; unfold names_of; by rewrite Hm|].
  split; [done|]. split.
  - intros Hv. exists gh'. split; [done|]. split; [by rewrite Em|].
    destruct (history_inv env t' gh' (string_env_good _) Hh') as [L I]. rewrite <- (hh_ro _ _ _ _ I), Hr, Hv. by destruct (decide _).
  - destruct (P_ITERATE_END env t' gh' (string_env_good _) Hh') as (t'' & E2 & _). exists t'', (g_ro gh'). split; [done|].
    eexists. split; [eapply (h_readonly env); [exact Hh'|exact E2]|]. cbn [g_map g_ro]. by rewrite Em.
Qed.
Lemma nt_nodes t l : named t l -> size (heap t) = length l.
Proof.
  intros (gh & Hh & El & Hro). destruct (P_nodes env t gh (string_env_good _) Hh) as [E _]. rewrite E, <- El.
  unfold names_of. by rewrite fmap_length.
Qed.
End tab.
