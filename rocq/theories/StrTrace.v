(** C36-C37, C39, C62, whole programs: any sequence of calls on any number of string pools, seen
    through the identity and the contents of the strings handed out. *)
From Verif Require Import Base Trace ListLemmas CStr StackModel StackProofs ObjModel ObjProofs MemModel MemProofs MemHist.
From Verif Require Import HashModel HashSpec HashProofs HashHist HashFnModel HashFnProofs StrModel StrProofs StrHist.
Local Open Scope nat_scope.

(** The calls; a pool is named by its number in the order of creation, a string of a pool by its
    number in the order in which the pool first returned it.  [rest]: what follows the argument
    string in memory. *)
Inductive pop :=
| PCreate (al : palloc)
| PDestroy (i : nat)
| PFind (al : palloc) (i : nat) (s rest : list N)
| PExists (i : nat) (s rest : list N)
| PCopy (al : palloc) (i : nat) (s rest : list N)
| PCopyn (al : palloc) (i : nat) (src : list N) (len : Z)
| PGrow (al : palloc) (i : nat) (src : list N) (len : Z)
| PFinish (al : palloc) (i : nat)
| PRead (i n : nat)                    (* the bytes of the [n]-th string of pool [i] *)
| PAll (i : nat)                       (* str_pool_iterate, collecting the pointers *)
| PStats (al : palloc) (i : nat).      (* str_pool_get_stats: count and bytes *)
Inductive pres := PName (n : nat) | PInt (z : Z) | PBytes (b : list N) | PNames (l : list nat) | PCount (c b : Z) | PDone.

(** ** the model: the program keeps the pointers it was given *)
Fixpoint index (a : positive) (l : list positive) : option nat :=
  match l with [] => None | b :: l' => if decide (b = a) then Some 0 else S <$> index a l' end.
Definition known (l : list positive) (a : positive) : list positive * nat :=
  match index a l with Some n => (l, n) | None => (l ++ [a], length l) end.
Definition collect (s : list ptr) (w : pworld) (k : ptr) : res (list ptr * pworld * Z) := Ret (s ++ [k], w, 0%Z).
Definition pool_fuel (w : pworld) (p : positive) : nat :=
  match pools w !! p with Some x => S (size (heap (phash x))) | None => 0 end.
Definition pstate : Type := list positive * list (list positive) * pworld.
Definition str_var {A} (ns : list (list positive)) (i : nat) (f : list positive -> res A) : res A :=
  match ns !! i with Some l => f l | None => UB end.
Definition pstep (st : pstate) (c : pop) : res (pstate * pres) :=
  let '(vs, ns, w) := st in
  let named_res i (r : pworld * positive) :=
    str_var ns i (fun l => let '(l', n) := known l r.2 in Ret ((vs, <[i := l']> ns, r.1), PName n)) in
  match c with
  | PCreate al => '(w', a) ← str_pool_create al w; Ret ((vs ++ [a], ns ++ [[]], w'), PDone)
  | PDestroy i => var vs i (fun p => '(w', _) ← str_pool_destroy w (Some p); Ret ((vs, ns, w'), PDone))
  | PFind al i s rest => var vs i (fun p => r ← str_pool_find al w (Some p) (s ++ 0%N :: rest); named_res i r)
  | PExists i s rest => var vs i (fun p => '(w', z) ← str_pool_exists w (Some p) (s ++ 0%N :: rest); Ret ((vs, ns, w'), PInt z))
  | PCopy al i s rest => var vs i (fun p => r ← str_pool_copy al w (Some p) (s ++ 0%N :: rest); named_res i r)
  | PCopyn al i src len => var vs i (fun p => r ← str_pool_copyn al w (Some p) src len; named_res i r)
  | PGrow al i src len => var vs i (fun p => w' ← str_pool_grow al w (Some p) src len; Ret ((vs, ns, w'), PDone))
  | PFinish al i => var vs i (fun p => r ← str_pool_finish al w (Some p); named_res i r)
  | PRead i n => str_var ns i (fun l => match l !! n with Some a => b ← hget (mblk (pmem w)) a; Ret ((vs, ns, w), PBytes b) | None => UB end)
  | PAll i => var vs i (fun p => '(ks, w', _) ← str_pool_iterate collect (pool_fuel w p) w (Some p) [];
      str_var ns i (fun l => Ret ((vs, ns, w'), PNames ((fun k => match k with Some a => default 0 (index a l) | None => 0 end) <$> ks))))
  | PStats al i => var vs i (fun p => '(c, b, _, _, _) ← str_pool_get_stats true al w (Some p); Ret ((vs, ns, w), PCount c b))
  end.

(** ** the specification: a pool is the contents of the strings handed out, the numbers of the
    interned ones, the bytes being grown, and the number of bytes *)
Record psp := PSp { objs : list (list N); interned : gmap (list N) nat; growing : list N; nbytes : Z }.
Definition with_new (P : psp) (b : list N) (n : Z) : psp := PSp (objs P ++ [b]) (interned P) [] (nbytes P + n)%Z.
Definition intern (P : psp) (s : list N) (k : nat) : psp := PSp (objs P) (<[s := k]> (interned P)) (growing P) (nbytes P).
Definition pspec (L : list (option psp)) (c : pop) : res (list (option psp) * pres) :=
  let put (i : nat) (P : psp) (r : pres) : res (list (option psp) * pres) := Ret (<[i := Some P]> L, r) in
  match c with
  | PCreate _ => Ret (L ++ [Some (PSp [] ∅ [] 0)], PDone)
  | PDestroy i => Trace.live L i (fun P => Ret (<[i := None]> L, PDone))
  | PFind _ i s _ => Trace.live L i (fun P =>
      match interned P !! s with
      | Some k => put i P (PName k)
      | None => let k := length (objs P) in put i (intern (with_new P (s ++ [0%N]) (Z.of_nat (length s) + 1)) s k) (PName k)
      end)
  | PExists i s _ => Trace.live L i (fun P => put i P (PInt (match interned P !! s with Some _ => 1 | None => 0 end)))
  | PCopy _ i s _ => Trace.live L i (fun P => put i (with_new P (s ++ [0%N]) (Z.of_nat (length s) + 1)) (PName (length (objs P))))
  | PCopyn _ i src len => Trace.live L i (fun P => put i (with_new P (take (Z.to_nat len + 1) src) (len + 1)) (PName (length (objs P))))
  | PGrow _ i src len => Trace.live L i (fun P =>
      put i (PSp (objs P) (interned P) (growing P ++ take (Z.to_nat len) src) (nbytes P + len)%Z) PDone)
  | PFinish _ i => Trace.live L i (fun P =>
      let k := length (objs P) in let s := upto_nul (growing P) in
      let P' := with_new P (growing P ++ [0; 0]%N) 2 in
      put i (match interned P !! s with Some _ => P' | None => intern P' s k end) (PName k))
  | PRead i n => Trace.live L i (fun P => match objs P !! n with Some b => Ret (L, PBytes b) | None => UB end)
  | PAll i => Trace.live L i (fun P => put i P (PNames (map_to_list (interned P)).*2))
  | PStats _ i => Trace.live L i (fun P => Ret (L, PCount (Z.of_nat (length (objs P))) (nbytes P)))
  end.
(** results are equal; the order of an iteration is free *)
Definition peq (r r' : pres) : Prop :=
  match r, r' with PNames l, PNames l' => l ≡ₚ l' | _, _ => r = r' end.
(** malloc returns fresh addresses, and does not fail for the nodes of a pool's stack (stk_push
    does not check it); arguments are strings (for the length-counted calls: readable); the pool
    has not been destroyed; the int counters have room for one more string of [n] bytes *)
Definition proom (L : list (option psp)) (i : nat) (n : Z) : Prop :=
  exists P, L !! i = Some (Some P) /\ (Z.of_nat (length (objs P)) + 1 < 2 ^ 31)%Z /\ (nbytes P + n < 2 ^ 31)%Z.
Definition plegal (L : list (option psp)) (c : pop) : Prop :=
  match c with
  | PCreate al => palloc_ok al
  | PDestroy i | PAll i | PRead i _ => alive L i
  | PFind al i s _ | PCopy al i s _ => palloc_ok al /\ str_ok s /\ proom L i (Z.of_nat (length s) + 1)
  | PExists i s _ => str_ok s /\ alive L i
  | PCopyn al i src len => palloc_ok al /\ (0 <= len < Z.of_nat (length src))%Z /\ proom L i (len + 1)
  | PGrow al i src len => palloc_ok al /\ (0 <= len <= Z.of_nat (length src))%Z /\ Forall byte_ok (take (Z.to_nat len) src) /\ proom L i len
  | PFinish al i => palloc_ok al /\ proom L i 2
  | PStats _ i => exists P, L !! i = Some (Some P) /\ (Z.of_nat (length (objs P)) < 2 ^ 31)%Z
  end.
(** the calls that can run out of memory *)
Definition pcan (c : pop) : Prop :=
  match c with
  | PCreate al => gfail al
  | PFind al _ _ _ | PCopy al _ _ _ | PCopyn al _ _ _ | PGrow al _ _ _ | PFinish al _ => pfail al
  | PStats al _ => blk_alloc (pa_hash al) 72 = false
  | _ => False
  end.

(** ** the relation *)
Definition addrs (g : pgh) : list positive := (s_done (q_mem g)).*1.
Definition num (g : pgh) (a : positive) : nat := default 0 (index a (addrs g)).
Definition imap (g : pgh) : gmap (list N) nat := list_to_map ((fun sa : list N * positive => (sa.1, num g sa.2)) <$> q_int g).
Definition absp (g : pgh) : psp := PSp (s_done (q_mem g)).*2 (imap g) (s_cur (q_mem g)) (s_bytes (q_mem g)).
Record prelG (st : pstate) (L : list (option psp)) (G : gmap positive pgh) : Prop := {
  pr_hist : pool_history st.2 G;
  pr_named : named st.1.1 L (absp <$> G);
  pr_len : length st.1.2 = length st.1.1;
  pr_strs : forall i p g, st.1.1 !! i = Some p -> alive L i -> G !! p = Some g -> st.1.2 !! i = Some (addrs g);
  pr_ro : forall p g, G !! p = Some g -> q_ro g = 0%Z;
  pr_glob : glob st.2 = None }.
Definition prel (st : pstate) (L : list (option psp)) : Prop := exists G, prelG st L G.

Lemma index_Some a l n : index a l = Some n -> l !! n = Some a.
Proof.
  revert n. induction l as [|b l IH]; intros n; cbn [index]; [done|]. destruct (decide (b = a)) as [->|]; [by intros [= <-]|].
  destruct (index a l) as [m|]; [|done]. intros [= <-]. by apply IH.
Qed.
Lemma index_None a l : index a l = None <-> a ∉ l.
Proof.
  induction l as [|b l IH]; cbn [index]; [split; [intros _; apply not_elem_of_nil|done]|]. rewrite not_elem_of_cons.
  destruct (decide (b = a)) as [->|Hne]; [split; [done|by intros [? _]]|]. destruct (index a l); [split; [done|]|].
  - intros [_ H]. by apply IH in H.
  - split; [|done]. intros _. split; [congruence|]. by apply IH.
Qed.
Lemma index_app a l l' : a ∈ l -> index a (l ++ l') = index a l.
Proof.
  induction l as [|b l IH]; cbn [index app]; [by intros H%elem_of_nil|]. destruct (decide (b = a)); [done|].
  intros [?|H]%elem_of_cons; [congruence|]. by rewrite IH.
Qed.
Lemma index_new a l : a ∉ l -> index a (l ++ [a]) = Some (length l).
Proof.
  induction l as [|b l IH]; cbn [index app]; [by rewrite decide_True|]. intros [H1 H2]%not_elem_of_cons.
  rewrite decide_False by congruence. by rewrite IH.
Qed.
Lemma imap_lookup g s : NoDup (q_int g).*1 -> imap g !! s = num g <$> assoc s (q_int g).
Proof.
  intros Hnd. unfold imap. generalize (num g). intros f. induction (q_int g) as [|[s' a] l IH]; [done|].
  cbn [assoc]. rewrite fmap_cons. cbn [list_to_map foldr fst snd]. apply NoDup_cons in Hnd as [_ Hnd].
  destruct (decide (s' = s)) as [->|Hne]; [by rewrite lookup_insert|]. rewrite lookup_insert_ne by done. by apply IH.
Qed.
Lemma imap_all g : NoDup (q_int g).*1 -> (map_to_list (imap g)).*2 ≡ₚ num g <$> (q_int g).*2.
Proof.
  intros Hnd. unfold imap. rewrite map_to_list_to_map.
  - rewrite <- list_fmap_compose, <- list_fmap_compose. done.
  - by rewrite <- list_fmap_compose.
Qed.

(** numbers do not change when a string is added *)
Lemma imap_stored g a b n : (forall c, c ∈ (q_int g).*2 -> c ∈ addrs g) -> imap (set_mem g (stored (q_mem g) a b n)) = imap g.
Proof.
  intros H. unfold imap, num, addrs. cbn [set_mem q_int q_mem stored s_done]. rewrite fmap_app. f_equal.
  apply list_fmap_ext. intros k [s c] Hk. cbn [fst snd]. f_equal. rewrite index_app; [done|]. apply H.
  apply elem_of_list_fmap. exists (s, c). split; [done|]. by eapply elem_of_list_lookup_2.
Qed.
Lemma absp_stored g a b n : (forall c, c ∈ (q_int g).*2 -> c ∈ addrs g) ->
  absp (set_mem g (stored (q_mem g) a b n)) = with_new (absp g) b n.
Proof. intros H. unfold absp, with_new. rewrite imap_stored by done. cbn [set_mem q_mem stored s_done s_cur s_bytes objs interned nbytes]. by rewrite fmap_app. Qed.
(** the calls on pools do not touch the global pool *)
Ltac ib H x E :=
  match type of H with mbind ?f ?m = Ret _ => destruct m as [x| | | |] eqn:E; cbn [mbind res_bind] in H; try discriminate H end.
Lemma insert_glob al w a d w' : pool_insert al w a d = Ret w' -> glob w' = glob w.
Proof.
  unfold pool_insert. intros H. ib H x E. ib H k E1. destruct (keys_live _ _); [|done]. ib H tz E2. destruct tz as [t z].
  injection H as <-. done.
Qed.
Lemma copy_glob al w p s w' a : str_pool_copy al w p s = Ret (w', a) -> glob w' = glob w.
Proof. unfold str_pool_copy. intros H. ib H bx E. destruct bx as [b x]. ib H md E1. destruct md as [m d]. injection H as <- <-. done. Qed.
Lemma copyn_glob al w p s n w' a : str_pool_copyn al w p s n = Ret (w', a) -> glob w' = glob w.
Proof. unfold str_pool_copyn. intros H. ib H bx E. destruct bx as [b x]. ib H md E1. destruct md as [m d]. injection H as <- <-. done. Qed.
Lemma grow_glob al w p s n w' : str_pool_grow al w p s n = Ret w' -> glob w' = glob w.
Proof. unfold str_pool_grow. intros H. ib H bx E. destruct bx as [b x]. ib H m E1. injection H as <-. done. Qed.
Lemma finish_glob al w p w' a : str_pool_finish al w p = Ret (w', a) -> glob w' = glob w.
Proof.
  unfold str_pool_finish. intros H. ib H bx E. destruct bx as [b x]. ib H m1 E1. ib H md E2. destruct md as [m2 [d|]]; [|done].
  ib H w3 E3. injection H as <- <-. apply insert_glob in E3. exact E3.
Qed.
Lemma next_glob w p q w' r : str_pool_next_position w p q = Ret (w', r) -> glob w' = glob w.
Proof. unfold str_pool_next_position. intros H. ib H bx E. destruct bx as [b x]. ib H tq E1. destruct tq. injection H as <- <-. done. Qed.
Lemma keys_glob p fuel : forall w pos s s' w' b, keys_loop collect fuel w p pos s = Ret (s', w', b) -> glob w' = glob w.
Proof.
  induction fuel as [|fuel IH]; intros w [q|] s s' w' b; cbn [keys_loop]; try done; try (by intros [= _ <- _]).
  intros H. ib H k E. ib H r E0. injection E0 as <-. cbv iota beta in H. change (negb (0 =? 0)%Z) with false in H. cbv iota in H. ib H wp E1. destruct wp as [w2 pos']. apply IH in H. rewrite H. by eapply next_glob.
Qed.
Lemma iterate_glob fuel w p s' w' z : str_pool_iterate collect fuel w p [] = Ret (s', w', z) -> glob w' = glob w.
Proof.
  unfold str_pool_iterate. intros H. ib H wp E. destruct wp as [w0 pos]. ib H r E0. destruct r as [[s1 w1] st]. injection H as <- <- _.
  apply keys_glob in E0. rewrite E0. unfold str_pool_init_position in E. ib E bx E1. destruct bx as [b x]. ib E tq E2. destruct tq.
  injection E as <- <-. done.
Qed.
Lemma destroy_glob w p w' H : str_pool_destroy w p = Ret (w', H) -> glob w' = glob w.
Proof. unfold str_pool_destroy. destruct p as [a|]; [|done]. intros E. ib E x E1. ib E m E2. ib E h E3. ib E q E4. injection E as <- <-. done. Qed.

(** [str_pool_iterate] collecting pointers *)
Lemma walk_collect l u : walk (fun k (u : list ptr) => (u ++ [k], 0%Z)) l u = (u ++ (Some <$> l), false).
Proof. revert u. induction l as [|a l IH]; intros u; cbn; [by rewrite app_nil_r|]. rewrite IH, <- app_assoc. done. Qed.
Lemma fuel_ok w G p g : pool_history w G -> G !! p = Some g -> pool_fuel w p = S (length (q_int g)).
Proof.
  intros H Hg. destruct (pool_history_inv w G H) as [GM I]. destruct (wi_pool _ _ _ I p g Hg) as (x & Hx & Ho).
  unfold pool_fuel. rewrite Hx. destruct (po_hash _ _ _ Ho) as (gh & Hh & _ & Hv & _).
  destruct (P_nodes penv (phash x) gh penv_good Hh) as [-> _]. rewrite <- Hv. unfold view. by rewrite fmap_length.
Qed.
Lemma collect_ok w G p g : pool_history w G -> G !! p = Some g ->
  exists w' g' l, str_pool_iterate collect (pool_fuel w p) w (Some p) [] = Ret (Some <$> l, w', 0%Z) /\ l ≡ₚ (q_int g).*2 /\
    keeps p (w, G) (w', <[p := g']> G) /\ q_int g' = q_int g /\ q_mem g' = q_mem g /\ (q_ro g = 0%Z -> q_ro g' = 0%Z).
Proof.
  intros H Hg. destruct (order_ex w G p g H Hg) as (l & Hl & Ho).
  destruct (iterate_ok w G p g l (fun _ _ => []) (fun k (u : list ptr) => (u ++ [k], 0%Z)) [] (pool_fuel w p) H Hg Ho) as [(w' & g' & E & Hk & Q1 & Q2 & Q3) _].
  - intros. constructor.
  - rewrite (fuel_ok w G p g H Hg), Hl, fmap_length. lia.
  - rewrite walk_collect in E, Q3. cbn [fst snd app] in E, Q3. exists w', g', l. split; [exact E|]. split; [done|]. split; [done|].
    split; [done|]. split; [done|]. intros Hro. rewrite Q3, Hro. by destruct (decide (l = [])).
Qed.

(** ** one call *)
Lemma absp_int g : NoDup (q_int g).*1 -> forall s, interned (absp g) !! s = num g <$> assoc s (q_int g).
Proof. intros H s. by apply imap_lookup. Qed.
Lemma num_ok g a : a ∈ addrs g -> index a (addrs g) = Some (num g a).
Proof. intros H. unfold num. destruct (index a (addrs g)) eqn:E; [done|]. by apply index_None in E. Qed.
(** adding a string and interning it *)
Lemma absp_entered g a b n s : NoDup (q_int g).*1 -> (forall c, c ∈ (q_int g).*2 -> c ∈ addrs g) -> a ∉ addrs g -> assoc s (q_int g) = None ->
  absp (entered (set_mem g (stored (q_mem g) a b n)) s a) = intern (with_new (absp g) b n) s (length (objs (absp g))).
Proof.
  intros Hnd Hin Ha Hs.
  assert (E : imap (entered (set_mem g (stored (q_mem g) a b n)) s a) = <[s := length (addrs g)]> (imap (set_mem g (stored (q_mem g) a b n)))).
  { assert (En : num (entered (set_mem g (stored (q_mem g) a b n)) s a) a = length (addrs g)).
    { unfold num, addrs. cbn [entered set_mem q_mem stored s_done]. rewrite fmap_app. cbn [fmap list_fmap fst]. change ((s_done (q_mem g)).*1) with (addrs g). by rewrite (index_new a _ Ha). }
    rewrite <- En. unfold imap. cbn [entered set_mem q_int]. rewrite Hs, fmap_cons. reflexivity. }
  unfold absp at 1. rewrite E, (imap_stored g a b n Hin). unfold intern, with_new, absp, addrs. cbn [entered set_mem q_mem stored s_done s_cur s_bytes objs interned growing nbytes].
  rewrite fmap_app, !fmap_length. reflexivity.
Qed.
Lemma alive_lookup {V} (L : list (option V)) i v : L !! i = Some (Some v) -> alive L i.
Proof. by exists v. Qed.

Lemma pstep_ok st L c : prel st L -> plegal L c -> call_ok peq pcan prel c (pstep st c) (pspec L c).
Proof.
  intros (G & R) Hl. destruct st as [[vs ns] w]. destruct R as [Hh Hn Hlen Hs Hro Hgl]. cbn [fst snd] in *.
  assert (Hv : forall i, alive L i -> exists p g, vs !! i = Some p /\ G !! p = Some g /\ L !! i = Some (Some (absp g)) /\ ns !! i = Some (addrs g)).
  { intros i Hi. pose proof Hi as [P HP]. destruct (nm_get _ _ _ Hn i P HP) as (p & Hp & HG). rewrite lookup_fmap in HG.
    apply fmap_Some in HG as (g & HG & ->). exists p, g. split; [done|]. split; [done|]. split; [done|]. by apply (Hs i p g). }
  assert (Hroom : forall i n, proom L i n -> exists p g, vs !! i = Some p /\ G !! p = Some g /\ L !! i = Some (Some (absp g)) /\ ns !! i = Some (addrs g) /\ room (q_mem g) n).
  { intros i n (P & HP & H1 & H2). destruct (Hv i (alive_lookup _ _ _ HP)) as (p & g & Hp & Hg & HL & Hns). exists p, g.
    split; [done|]. split; [done|]. split; [done|]. split; [done|]. rewrite HP in HL. injection HL as ->. unfold absp in H1, H2. cbn [objs nbytes] in H1, H2.
    rewrite fmap_length in H1. by split. }
  assert (Hint : forall p g, G !! p = Some g -> NoDup (q_int g).*1 /\ forall c, c ∈ (q_int g).*2 -> c ∈ addrs g).
  { intros p g Hg. split; [apply (int_nodup w G Hh p g Hg)|]. intros x. apply (int_done w G Hh p g Hg). }
  (* the pool [p] becomes [g'], its strings [l'] *)
  assert (Hput : forall i p g g' l' w' P, vs !! i = Some p -> G !! p = Some g -> L !! i = Some (Some (absp g)) ->
     later (w, G) (w', <[p := g']> G) -> P = absp g' -> l' = addrs g' -> q_ro g' = 0%Z -> glob w' = None ->
     prel (vs, <[i := l']> ns, w') (<[i := Some P]> L)).
  { intros i p g g' l' w' P Hp Hg HL Hk -> -> Hr' Hg'. exists (<[p := g']> G). split; cbn [fst snd].
    - by eapply history_later.
    - rewrite fmap_insert. by eapply named_set.
    - by rewrite insert_length.
    - intros j q h Hq [P HP] Hh'. destruct (decide (j = i)) as [->|Hne].
      + rewrite Hp in Hq. injection Hq as <-. rewrite lookup_insert in Hh'. injection Hh' as <-.
        apply list_lookup_insert. rewrite Hlen. by eapply lookup_lt_Some.
      + rewrite list_lookup_insert_ne by done. rewrite list_lookup_insert_ne in HP by done.
        assert (q <> p). { intros ->. apply Hne. by eapply (nm_inj _ _ _ Hn). }
        rewrite lookup_insert_ne in Hh' by done. apply (Hs j q h Hq); [by exists P|done].
    - intros q h. destruct (decide (q = p)) as [->|Hne]; [rewrite lookup_insert; by intros [= <-]|]. rewrite lookup_insert_ne by done. apply Hro.
    - done. }
  assert (Hsame : forall i l, ns !! i = Some l -> <[i := l]> ns = ns) by (intros; by apply list_insert_id).
  assert (Hkeep : prel (vs, ns, w) L) by (by exists G).
  (* the pool hands out a new string *)
  assert (Hnew : forall i p g g' w' a b n, vs !! i = Some p -> G !! p = Some g -> L !! i = Some (Some (absp g)) -> ns !! i = Some (addrs g) ->
     later (w, G) (w', <[p := g']> G) -> a ∉ addrs g -> q_mem g' = stored (q_mem g) a b n -> q_ro g' = q_ro g -> glob w' = None ->
     known (addrs g) a = (addrs g', length (objs (absp g))) /\ prel (vs, <[i := addrs g']> ns, w') (<[i := Some (absp g')]> L)).
  { intros i p g g' w' a b n Hp Hg HL Hi Hk Ha Hm Hr Hg'. split.
    - unfold known. rewrite (proj2 (index_None a (addrs g)) Ha). unfold addrs, absp. rewrite Hm. cbn [stored s_done objs]. by rewrite fmap_app, !fmap_length.
    - eapply Hput; try done. rewrite Hr. by apply (Hro p). }
  destruct c as [al|i|al i s rest|i s rest|al i s rest|al i src len|al i src len|al i|i n|i|al i];
    cbn [plegal pcan] in Hl; unfold pstep, pspec, var, str_var, Trace.live.
  - (* create *)
    destruct (pool_history_inv w G Hh) as [GM I]. pose proof (pool_create_ok w G GM al I Hl) as Ho.
    destruct (str_pool_create al w) as [[w' p]| | | |] eqn:E; try done; cbn in Ho |- *; [|by eapply create_gfail].
    destruct Ho as (_ & Hp & Hg' & _). split; [|done]. exists (<[p := fresh_pool]> G). split; cbn [fst snd].
    + eapply history_step; [exact Hh|]. by eapply pc_create.
    + rewrite fmap_insert. change (absp fresh_pool) with (PSp [] ∅ [] 0). apply named_add; [done|]. by rewrite lookup_fmap, Hp.
    + rewrite !app_length. cbn. lia.
    + intros j q h Hq Ha Hh'. apply snoc_lookup in Hq as [[Hlt Hq]|[-> <-]].
      * assert (Ha' : alive L j). { destruct Ha as [P HP]. exists P. rewrite lookup_app_l in HP; [done|]. rewrite <- (nm_len _ _ _ Hn). done. }
        assert (q <> p). { intros ->. destruct (Hv j Ha') as (p' & g & Hp' & Hg & _). rewrite Hq in Hp'. injection Hp' as <-. congruence. }
        rewrite lookup_insert_ne in Hh' by done. rewrite lookup_app_l by lia. by apply (Hs j q h).
      * rewrite lookup_insert in Hh'. injection Hh' as <-. rewrite <- Hlen. rewrite lookup_app_r, Nat.sub_diag by lia. done.
    + intros q h. destruct (decide (q = p)) as [->|Hne]; [rewrite lookup_insert; by intros [= <-]|]. rewrite lookup_insert_ne by done. apply Hro.
    + congruence.
  - (* destroy *)
    destruct (Hv i Hl) as (p & g & Hp & Hg & HL & Hns). rewrite Hp, HL.
    pose proof (hist_destroy w G Hh p g Hg) as Hd. rewrite Hgl in Hd. specialize (Hd ltac:(done)). rewrite decide_True in Hd by (by apply (Hro p)).
    destruct Hd as (w' & E & Hk & _). rewrite E. cbn. split; [|done]. exists (delete p G). split; cbn [fst snd].
    + by eapply history_later.
    + rewrite fmap_delete. by eapply named_del.
    + done.
    + intros j q h Hq [P HP] Hh'. assert (j <> i). { intros ->. rewrite list_lookup_insert in HP by (by eapply lookup_lt_Some). done. }
      rewrite list_lookup_insert_ne in HP by done. apply lookup_delete_Some in Hh' as [_ Hh']. apply (Hs j q h Hq); [by exists P|done].
    + intros q h Hq. apply lookup_delete_Some in Hq as [_ Hq]. by apply (Hro q).
    + apply destroy_glob in E. congruence.
  - (* find *)
    destruct Hl as (Hal & Hok & Hr). destruct (Hroom _ _ Hr) as (p & g & Hp & Hg & HL & Hns & Hrm). rewrite Hp, HL.
    destruct (Hint p g Hg) as [Hnd Hin]. rewrite (absp_int g Hnd).
    destruct (pool_history_inv w G Hh) as [GM I].
    assert (Hpre : assoc s (q_int g) = None -> q_ro g = 0%Z /\ room (q_mem g) (Z.of_nat (length s) + 1)) by (intros _; split; [by apply (Hro p)|done]).
    pose proof (find_ok w G GM I p g Hg al Hal s rest Hok Hpre) as Hf.
    destruct (str_pool_find al w (Some p) (s ++ 0%N :: rest)) as [[w' a]| | | |] eqn:E; cbn [ok] in Hf; try done; [|by destruct (assoc s (q_int g))].
    destruct Hf as ((GM' & I') & Hgl' & _ & Hc). cbn [mbind res_bind fst snd]. rewrite Hns.
    assert (Hk : later (w, G) (w', <[p := found g s a]> G)) by (apply rtc_once; by eapply pc_find).
    unfold found in *. destruct (assoc s (q_int g)) as [b|] eqn:Ea; cbn [fmap option_fmap option_map].
    + destruct Hc as [-> _]. assert (Hb : b ∈ addrs g). { apply Hin. apply elem_of_list_fmap. exists (s, b). split; [done|by apply assoc_in]. }
      unfold known. rewrite (num_ok g b Hb). cbn. split; [|done]. eapply Hput; try done. cbn. by apply (Hro p). congruence.
    + assert (Ha : a ∉ addrs g).
      { destruct (wi_pool _ _ _ I' p _ (lookup_insert _ _ _)) as (x & _ & Ho). pose proof (sh_nodup _ _ (wi_mem _ _ _ I') _ _ (po_mem _ _ _ Ho)) as Hd.
        unfold entered in Hd. cbn [set_mem q_mem stored s_done] in Hd. rewrite fmap_app in Hd. apply NoDup_app in Hd as (_ & Hd & _).
        intros Hx. apply (Hd a Hx). left. }
      destruct (Hnew i p g _ w' a (s ++ [0%N]) (Z.of_nat (length s) + 1)%Z Hp Hg HL Hns Hk Ha eq_refl eq_refl ltac:(congruence)) as [-> Hr'].
      cbn [call_ok peq]. split; [|done].
      replace (intern (with_new (absp g) (s ++ [0%N]) (Z.of_nat (length s) + 1)) s (length (objs (absp g))))
        with (absp (entered (set_mem (asked g s) (stored (q_mem g) a (s ++ [0%N]) (Z.of_nat (length s) + 1))) s a)); [exact Hr'|].
      apply (absp_entered g a _ _ s Hnd Hin Ha Ea).
  - (* exists *)
    destruct Hl as [Hok Hi]. destruct (Hv i Hi) as (p & g & Hp & Hg & HL & Hns). rewrite Hp, HL. destruct (Hint p g Hg) as [Hnd Hin].
    rewrite (absp_int g Hnd). destruct (pool_history_inv w G Hh) as [GM I].
    destruct (exists_ok w G GM I p g Hg s rest Hok) as (w' & E & I' & Hgl' & _). rewrite E. cbn. split.
    + rewrite <- (Hsame i _ Hns). eapply (Hput i p g (asked g s)); try done; [apply rtc_once; by eapply pc_exists|exact (Hro p g Hg)|congruence].
    + f_equal. by destruct (assoc s (q_int g)).
  - (* copy *)
    destruct Hl as (Hal & Hok & Hr). destruct (Hroom _ _ Hr) as (p & g & Hp & Hg & HL & Hns & Hrm). rewrite Hp, HL.
    destruct (Hint p g Hg) as [Hnd Hin]. destruct (pool_history_inv w G Hh) as [GM I].
    pose proof (copy_ok w G GM I p g Hg al Hal s rest Hok Hrm) as Hf.
    destruct (str_pool_copy al w (Some p) (s ++ 0%N :: rest)) as [[w' a]| | | |] eqn:E; cbn [ok] in Hf; try done.
    destruct Hf as ((GM' & I') & Hc & _). cbn [mbind res_bind fst snd]. rewrite Hns.
    assert (Hk : later (w, G) (w', <[p := set_mem g (stored (q_mem g) a (s ++ [0%N]) (Z.of_nat (length s) + 1))]> G)) by (apply rtc_once; by eapply pc_copy).
    assert (Ha : a ∉ addrs g).
    { intros Hx. apply elem_of_list_fmap in Hx as ([a' b] & Ex & Hx). cbn in Ex. subst a'. rewrite (done_memory w G Hh p g Hg _ _ Hx) in Hc. done. }
    destruct (Hnew i p g _ w' a (s ++ [0%N]) (Z.of_nat (length s) + 1)%Z Hp Hg HL Hns Hk Ha eq_refl eq_refl) as [-> Hr'].
    { apply copy_glob in E. congruence. }
    rewrite (absp_stored g a _ _ Hin) in Hr'. cbn. split; [exact Hr'|done].
  - (* copyn *)
    destruct Hl as (Hal & Hok & Hr). destruct (Hroom _ _ Hr) as (p & g & Hp & Hg & HL & Hns & Hrm). rewrite Hp, HL.
    destruct (Hint p g Hg) as [Hnd Hin]. destruct (pool_history_inv w G Hh) as [GM I].
    pose proof (copyn_ok w G GM I p g Hg al Hal src len Hok Hrm) as Hf.
    destruct (str_pool_copyn al w (Some p) src len) as [[w' a]| | | |] eqn:E; cbn [ok] in Hf; try done.
    destruct Hf as ((GM' & I') & Hc & _). cbn [mbind res_bind fst snd]. rewrite Hns.
    assert (Hk : later (w, G) (w', <[p := set_mem g (stored (q_mem g) a (take (Z.to_nat len + 1) src) (len + 1))]> G)) by (apply rtc_once; by eapply pc_copyn).
    assert (Ha : a ∉ addrs g).
    { intros Hx. apply elem_of_list_fmap in Hx as ([a' b] & Ex & Hx). cbn in Ex. subst a'. rewrite (done_memory w G Hh p g Hg _ _ Hx) in Hc. done. }
    destruct (Hnew i p g _ w' a (take (Z.to_nat len + 1) src) (len + 1)%Z Hp Hg HL Hns Hk Ha eq_refl eq_refl) as [-> Hr'].
    { apply copyn_glob in E. congruence. }
    rewrite (absp_stored g a _ _ Hin) in Hr'. cbn. split; [exact Hr'|done].
  - (* grow *)
    destruct Hl as (Hal & Hok & Hb & Hr). destruct (Hroom _ _ Hr) as (p & g & Hp & Hg & HL & Hns & Hrm). rewrite Hp, HL.
    destruct (pool_history_inv w G Hh) as [GM I].
    pose proof (grow_ok w G GM I p g Hg al Hal src len Hok Hrm Hb) as Hf.
    destruct (str_pool_grow al w (Some p) src len) as [w'| | | |] eqn:E; cbn [ok] in Hf; try done.
    cbn. split; [|done]. rewrite <- (Hsame i _ Hns). eapply (Hput i p g (set_mem g (MemHist.grown (q_mem g) (take (Z.to_nat len) src) len))); try done; [apply rtc_once; by eapply pc_grow|exact (Hro p g Hg)|].
    apply grow_glob in E. congruence.
  - (* finish *)
    destruct Hl as (Hal & Hr). destruct (Hroom _ _ Hr) as (p & g & Hp & Hg & HL & Hns & Hrm). rewrite Hp, HL.
    destruct (Hint p g Hg) as [Hnd Hin]. rewrite (absp_int g Hnd).
    pose proof (hist_finish w G Hh p g Hg al Hal Hrm (Hro p g Hg)) as Hf.
    destruct (str_pool_finish al w (Some p)) as [[w' a]| | | |] eqn:E; cbn [ok] in Hf; try done.
    destruct Hf as (Hk & Ha & _). cbn [mbind res_bind fst snd]. rewrite Hns.
    assert (Hm : q_mem (finished g a) = stored (q_mem g) a (s_cur (q_mem g) ++ [0; 0]%N) 2).
    { unfold finished, entered, MemHist.grown, stored. cbn [set_mem q_mem s_done s_cur s_bytes]. f_equal. lia. }
    destruct (Hnew i p g _ w' a (s_cur (q_mem g) ++ [0; 0]%N) 2%Z Hp Hg HL Hns (keeps_later _ _ _ Hk) Ha Hm eq_refl) as [-> Hr'].
    { apply finish_glob in E. congruence. }
    cbn [call_ok peq]. split; [|done].
    assert (Hfin : finished g a = entered (set_mem g (stored (q_mem g) a (s_cur (q_mem g) ++ [0; 0]%N) 2)) (upto_nul (s_cur (q_mem g))) a).
    { unfold finished. f_equal. f_equal. rewrite <- Hm. reflexivity. }
    change (growing (absp g)) with (s_cur (q_mem g)). rewrite Hfin in Hr'.
    destruct (assoc (upto_nul (s_cur (q_mem g))) (q_int g)) as [b|] eqn:Ea; cbn [fmap option_fmap option_map].
    + assert (Ee : entered (set_mem g (stored (q_mem g) a (s_cur (q_mem g) ++ [0; 0]%N) 2)) (upto_nul (s_cur (q_mem g))) a = set_mem g (stored (q_mem g) a (s_cur (q_mem g) ++ [0; 0]%N) 2)).
      { unfold entered. cbn [set_mem q_int]. rewrite Ea. reflexivity. }
      rewrite Hfin. rewrite Ee in *. rewrite (absp_stored g a _ _ Hin) in Hr'. exact Hr'.
    + rewrite Hfin. rewrite (absp_entered g a _ _ _ Hnd Hin Ha Ea) in Hr'. exact Hr'.
  - (* read *)
    destruct (Hv i Hl) as (p & g & Hp & Hg & HL & Hns). rewrite HL, Hns. unfold addrs, absp. cbn [objs]. rewrite !list_lookup_fmap.
    destruct (s_done (q_mem g) !! n) as [[a b]|] eqn:En; [|done]. cbn [fmap option_fmap option_map fst snd].
    rewrite (hget_Some _ _ _ (done_memory w G Hh p g Hg a b (elem_of_list_lookup_2 _ _ _ En))). cbn. done.
  - (* all *)
    destruct (Hv i Hl) as (p & g & Hp & Hg & HL & Hns). rewrite Hp, HL. destruct (Hint p g Hg) as [Hnd Hin].
    destruct (collect_ok w G p g Hh Hg) as (w' & g' & l & E & Hlp & Hk & Q1 & Q2 & Q3). rewrite E. cbn [mbind res_bind]. rewrite Hns.
    assert (Hgg : absp g' = absp g) by (unfold absp, imap, num, addrs; by rewrite Q1, Q2).
    assert (Had : addrs g' = addrs g) by (unfold addrs; by rewrite Q2).
    cbn [call_ok peq]. split.
    + rewrite <- (Hsame i _ Hns). rewrite <- Hgg, <- Had. eapply (Hput i p g g'); try done; [by eapply keeps_later|exact (Q3 (Hro p g Hg))|].
      apply iterate_glob in E. congruence.
    + change (interned (absp g)) with (imap g). rewrite (imap_all g Hnd), <- Hlp. rewrite <- list_fmap_compose. done.
  - (* stats *)
    destruct Hl as (P & HP & Hlt). destruct (Hv i (alive_lookup _ _ _ HP)) as (p & g & Hp & Hg & HL & Hns). rewrite Hp, HL.
    rewrite HP in HL. injection HL as ->. unfold absp in Hlt. cbn [objs] in Hlt. rewrite fmap_length in Hlt.
    assert (Hq : length (q_int g) <= length (s_done (q_mem g))).
    { destruct (int_nodup w G Hh p g Hg) as [_ Hnd2]. rewrite <- (fmap_length snd (q_int g)), <- (fmap_length fst (s_done (q_mem g))).
      apply submseteq_length, NoDup_submseteq; [done|]. apply (Hint p g Hg). }
    pose proof (hist_stats w G Hh p g Hg al ltac:(lia)) as Hf.
    destruct (str_pool_get_stats true al w (Some p)) as [[[[[c b] r] h] m]| | | |]; cbn [ok] in Hf; try done.
    destruct Hf as (-> & -> & _). cbn. split; [done|]. unfold absp. cbn [objs nbytes]. by rewrite fmap_length.
Qed.

Lemma strings_ok cs : lawful pspec plegal [] cs ->
  refines peq pcan (fun st L => (forall i, ~ alive L i) -> pools st.2 = ∅ /\ mblk (pmem st.2) = ∅ /\ minf (pmem st.2) = ∅ /\ stks (msh (pmem st.2)) = ∅ /\ nodes (msh (pmem st.2)) = ∅) cs
    (run pstep ([], [], pempty) cs) (run pspec [] cs).
Proof.
  intros Hl. eapply refines_Q; [|apply (run_refines _ _ _ _ plegal prel); [intros; by apply pstep_ok| |exact Hl]].
  - intros [[vs ns] w] L (G & [Hh Hn _ _ _ _]) Hd. cbn [fst snd] in *. pose proof (named_dead _ _ _ Hn Hd) as He. apply fmap_empty_inv in He as ->.
    pose proof (hist_no_leak w Hh). tauto.
  - exists ∅. split; cbn [fst snd]; try done. apply rtc_refl.
Qed.
