(** C82, C83: what the library prints about its objects.
    [prints items out] (PrintSpec.v): [out] is the text made of [items]; numbers are in decimal without leading zeros.
    [goes_to stream t]: a NULL stream is stdout. *)
From Verif Require Import Base CStr StackModel ObjModel ObjProofs ObjHist ObjProps MemModel MemProofs MemHist MemProps.
From Verif Require Import PrimeModel HashModel HashSpec HashProofs HashOps HashOps2 HashIter HashHist HashProps.
From Verif Require Import SetModel SetSpec SetAlg SetProofs SetWorld SetHist SetProps.
From Verif Require Import HashFnModel HashFnProofs HashFnProps StrModel StrProofs StrHist StrProps SourceSpec PrintModel PrintSpec PrintProofs.
From Verif Require ListModel ListHist ListProps.
From Verif Require Import Alloc.
From Coq Require Import String Ascii.
Notation length := List.length.
Local Open Scope Z_scope.

Lemma goes stream : goes_to stream (target_of stream).
Proof. by destruct stream. Qed.

(** ** C82: statistics *)
(** hash tables: the numbers are those of hsh_get_stats (C03) *)
Theorem C82_hash : forall {K D} (env : henv K D) s g al self stream,
  good env -> history env s g -> (N.of_nat (length (g_map g)) < 2 ^ 32)%N ->
  ok (fun '(t, out) => goes_to stream t /\ exists st, hsh_get_stats al s = Ret st /\
        prints (stats_items "hash table" self st) out /\
        s_entries st = N.of_nat (length (g_map g)) /\
        s_retrievals st = u64 (g_retr g) /\ s_misses st = u64 (g_miss g))
     (blk_alloc al 72 = false) (hsh_print_stats al self s stream).
Proof.
  intros K D env s g al self stream Hg Hh Hl. pose proof (C03_hsh_get_stats env s g al Hg Hh Hl) as H.
  unfold hsh_print_stats. destruct (hsh_get_stats al s) as [st| | | |] eqn:E; cbn [ok] in H |- *; try assumption. rb.
  assert (Hc : hsh_check (tab s) = Ret tt).
  { unfold hsh_get_stats in E. destruct (xmalloc_blk al 72); try discriminate E. cbn [mbind res_bind] in E.
    destruct (hsh_check (tab s)) as [[]| | | |]; try discriminate E. reflexivity. }
  rewrite Hc. rb. split; [apply goes|]. exists st. split; [reflexivity|]. split; [apply stats_prints|].
  destruct H as (H1 & _ & _ & _ & H2 & H3 & _). done.
Qed.
Print Assumptions C82_hash.

Theorem C82_set : forall {K} (F : fns K) w g h y x al self stream,
  whist F w g -> g !! h = Some y -> w !! h = Some x -> (N.of_nat (length (gel y)) < 2 ^ 64)%N ->
  ok (fun '(t, out) => goes_to stream t /\ exists st, set_get_stats al (ws x) = Ret st /\
        prints (stats_items "set" self st) out /\ s_entries st = N.of_nat (length (gel y)))
     (blk_alloc al 72 = false) (set_print_stats al self (ws x) stream).
Proof.
  intros K F w g h y x al self stream Hw Hg Hx Hl. pose proof (C15_set_get_stats F w g h y x al Hw Hg Hx Hl) as H.
  unfold set_print_stats. destruct (set_get_stats al (ws x)) as [st| | | |] eqn:E; cbn [ok] in H |- *; try assumption. rb.
  split; [apply goes|]. exists st. split; [reflexivity|]. split; [apply stats_prints|]. destruct H as (H1 & _). done.
Qed.
Print Assumptions C82_set.

(** string memories: the number of strings stored and of the bytes used *)
Theorem C82_strings : forall w G i g stream, str_history w G -> G !! i = Some g ->
  exists t out, mem_print_string_stats true w (Some i) stream = Ret (t, out) /\ goes_to stream t /\
    prints [T "Statistics for string memory manager at "; At (Some i); T ":"; EOL;
            T "   "; Num (Z.of_nat (length (s_done g))); T " strings, using "; Num (s_bytes g); T " bytes"; EOL] out.
Proof.
  intros w G i g stream H Hg. unfold mem_print_string_stats. rewrite (C25_stats w G i g H Hg). rb. eexists _, _. split; [reflexivity|].
  split; [apply goes|]. pr.
Qed.
Print Assumptions C82_strings.

(** pools of objects: blocks ever allocated, objects now handed out, calls answered with a recycled block *)
Theorem C82_objects : forall w P i g stream, obj_history w P -> P !! i = Some g ->
  let blocks := size (list_to_set (C := gset positive) (p_log g)) in
  exists t out, mem_print_object_stats true w (Some i) stream = Ret (t, out) /\ goes_to stream t /\
    prints [T "Statistics for object memory manager at "; At (Some i); T ":"; EOL;
            T "   "; Num (Z.of_nat blocks); T " objects allocated, of which "; Num (Z.of_nat (size (p_live g))); T " are in use"; EOL;
            T "   "; Num (Z.of_nat (length (p_log g)) - Z.of_nat blocks); T " objects have been reused"; EOL] out.
Proof.
  intros w P i g stream H Hg blocks. unfold mem_print_object_stats. destruct (C23_stats w P i g H Hg) as [-> _]. rb. eexists _, _. split; [reflexivity|].
  split; [apply goes|]. pr.
Qed.
Print Assumptions C82_objects.

(** string pools; the counters are printed as ints *)
Theorem C82_pool : forall w G p g al stream, pool_history w G -> G !! p = Some g -> (N.of_nat (length (q_int g)) < 2 ^ 32)%N ->
  ok (fun '(t, out) => goes_to stream t /\ exists cnt b r hits m, str_pool_get_stats true al w (Some p) = Ret (cnt, b, r, hits, m) /\
        prints ([T "Statistics for "] ++ (if decide (glob w = Some p) then [T "global "] else []) ++ [T "string pool at "; At (Some p); T ":"; EOL;
          T "   "; Num (Z.of_nat (length (s_done (q_mem g)))); T " strings using "; Num (s_bytes (q_mem g)); T " bytes"; EOL;
          T "   "; Num (to_int (Z.of_N (u64 (q_retr g)))); T " retrievals ("; Num hits; T " from top, ";
            Num (to_int (Z.of_N (u64 (q_miss g)))); T " failed)"; EOL]) out)
     (blk_alloc (pa_hash al) 72 = false) (str_pool_print_stats true al w (Some p) stream).
Proof.
  intros w G p g al stream H Hg Hl. pose proof (C61_stats w G p g al H Hg Hl) as S. unfold str_pool_print_stats.
  destruct (str_pool_get_stats true al w (Some p)) as [[[[[c b] r] h] m]| | | |] eqn:E; cbn [ok] in S |- *; try assumption. rb.
  destruct S as (-> & -> & -> & ->). split; [apply goes|]. eexists _, _, _, h, _. split; [reflexivity|]. destruct (decide (glob w = Some p)) as [Eg|Eg].
  - rewrite bool_decide_eq_true_2 by (by symmetry). cbn [app]. pr.
  - rewrite bool_decide_eq_false_2 by (intros E'; by symmetry in E'). cbn [app]. pr.
Qed.
Print Assumptions C82_pool.
(** NULL, or no global pool yet: all zero, and called global exactly if there is no global pool *)
Theorem C82_pool_null : forall al w stream, exists t out, str_pool_print_stats true al w None stream = Ret (t, out) /\ goes_to stream t /\
  prints ([T "Statistics for "] ++ (if decide (glob w = None) then [T "global "] else []) ++ [T "string pool at "; At None; T ":"; EOL;
          T "   "; Num 0; T " strings using "; Num 0; T " bytes"; EOL;
          T "   "; Num 0; T " retrievals ("; Num 0; T " from top, "; Num 0; T " failed)"; EOL]) out.
Proof.
  intros al w stream. unfold str_pool_print_stats. rewrite C61_null. rb. eexists _, _. split; [reflexivity|]. split; [apply goes|].
  destruct (decide (glob w = None)) as [Eg|Eg].
  - rewrite bool_decide_eq_true_2 by (by symmetry). cbn [app]. pr.
  - rewrite bool_decide_eq_false_2 by (intros E'; by symmetry in E'). cbn [app]. pr.
Qed.
Print Assumptions C82_pool_null.
(** str_print_stats is about the global pool *)
Theorem C82_global : forall w G p g al stream, pool_history w G -> glob w = Some p -> G !! p = Some g -> (N.of_nat (length (q_int g)) < 2 ^ 32)%N ->
  ok (fun '(t, out) => goes_to stream t /\ exists cnt b r hits m, str_pool_get_stats true al w (Some p) = Ret (cnt, b, r, hits, m) /\
        prints [T "Statistics for "; T "global "; T "string pool at "; At (Some p); T ":"; EOL;
          T "   "; Num (Z.of_nat (length (s_done (q_mem g)))); T " strings using "; Num (s_bytes (q_mem g)); T " bytes"; EOL;
          T "   "; Num (to_int (Z.of_N (u64 (q_retr g)))); T " retrievals ("; Num hits; T " from top, ";
            Num (to_int (Z.of_N (u64 (q_miss g)))); T " failed)"; EOL] out)
     (blk_alloc (pa_hash al) 72 = false) (str_print_stats true al w stream).
Proof.
  intros w G p g al stream H Hgl Hg Hl. unfold str_print_stats. rewrite Hgl. pose proof (C82_pool w G p g al stream H Hg Hl) as S.
  rewrite decide_True in S by assumption. exact S.
Qed.
Print Assumptions C82_global.
Theorem C82_global_none : forall w al stream, glob w = None ->
  exists t out, str_print_stats true al w stream = Ret (t, out) /\ goes_to stream t /\
  prints [T "Statistics for "; T "global "; T "string pool at "; At None; T ":"; EOL;
          T "   "; Num 0; T " strings using "; Num 0; T " bytes"; EOL;
          T "   "; Num 0; T " retrievals ("; Num 0; T " from top, "; Num 0; T " failed)"; EOL] out.
Proof.
  intros w al stream Hgl. unfold str_print_stats. rewrite Hgl. pose proof (C82_pool_null al w stream) as S.
  rewrite decide_True in S by assumption. exact S.
Qed.
Print Assumptions C82_global_none.
(** a NULL handle is refused *)
Theorem C82_no_null : forall {V} w w2 stream,
  mem_print_string_stats true w None stream = Abort /\ mem_print_object_stats (V := V) true w2 None stream = Abort.
Proof. intros. split; reflexivity. Qed.
Print Assumptions C82_no_null.

(** ** C83: contents *)
(** hsh_key_strings prints every key of a table with string keys once, two blanks after each, in lines that are ended as
    soon as they have 60 columns; the table is unchanged *)
Theorem C83_key_strings : forall {D} (null : D) s g, history (string_env null) s g ->
  Forall (fun kd => Z.of_nat (length (proj1_sig kd.1)) < 2 ^ 31 - 62) (g_map g) ->
  exists ks n, ks ≡ₚ ((fun kd => proj1_sig kd.1) <$> g_map g) /\
    forall fuel, (n <= fuel)%nat -> exists out, hsh_key_strings fuel s = Ret (s, out) /\ in_lines ks out.
Proof.
  intros D null s g Hh Hlen. destruct (C05_hsh_iterate (string_env null) s g (proj1 (C09_defaults_good D null)) Hh) as (m & Hp & He & _).
  exists ((fun kd => proj1_sig kd.1) <$> m), (S (N.to_nat (prime (tab s)) + length m)). split; [by apply fmap_Permutation|].
  intros fuel Hf. unfold hsh_key_strings. rewrite (hsh_iterate_ext _ (pure_cb ks_f) ks_pure). rewrite (He _ ks_f ([], 0) fuel) by lia.
  rewrite <- Hp in Hlen. destruct (visit_columns m Hlen [] []) as (lines & lastl & H1 & H2 & H3 & H4); [constructor|cbn; lia|].
  cbn in H4. change (Z.of_nat 0) with 0 in H4. rewrite H4. rb. eexists. split; [reflexivity|]. exists lines, lastl. split; [exact (eq_sym H1)|]. split; [assumption|]. split; [assumption|].
  by rewrite <- app_assoc.
Qed.
Print Assumptions C83_key_strings.

(** lst_dump prints the data of a list in order, a line each, to stdout *)
Theorem C83_lst_dump : forall w l L fuel, ListHist.has w l L -> (length L < fuel)%nat ->
  exists out, lst_dump fuel w (Some l) = Ret (out, w) /\
    prints (List.concat ((fun d => [T " 0x"; At d; EOL]) <$> L.*2)) out.
Proof.
  intros w l L fuel H Hf. unfold lst_dump.
  rewrite (ListProps.C28_iterate _ dump_node l L); [|intros ? ? ? ? ? ? Hh [= _ <- _]; exact Hh|assumption|assumption].
  assert (V : forall ds o, exists o', ListHist.visit dump_node o w ds = Ret (o ++ o', w, 0) /\ prints (List.concat ((fun d => [T " 0x"; At d; EOL]) <$> ds)) o').
  { induction ds as [|d ds IH]; intros o.
    - exists []. cbn. rewrite app_nil_r. split; [reflexivity|constructor].
    - destruct (IH (o ++ lit " 0x" ++ [Addr d] ++ nl)) as (o' & E & P). exists ((lit " 0x" ++ [Addr d] ++ nl) ++ o'). split.
      + transitivity (ListHist.visit dump_node (o ++ lit " 0x" ++ [Addr d] ++ nl) w ds); [reflexivity|]. rewrite E. by rewrite <- !app_assoc.
      + cbn [fmap list_fmap List.concat]. rewrite <- !app_assoc. cbn [app]. pr. exact P. }
  destruct (V L.*2 []) as (o' & E & P). rewrite E. rb. eexists. split; [reflexivity|exact P].
Qed.
Print Assumptions C83_lst_dump.
Theorem C83_null : forall fuel w, lst_dump fuel w None = Abort.
Proof. reflexivity. Qed.
Print Assumptions C83_null.

(** ** concrete cases *)
(** the ten-key table of HashProps (a reachable one: ex_reachable), as printed *)
Example C82_hash_ex : exists s, ex_table [1; 2; 3; 4; 5; 6; 7; 40; 60; 80]%N = Ret s /\
  hsh_print_stats ex_al (Some 7%positive) s None = Ret (ToStdout,
    lit "Statistics for hash table at " ++ [Addr (Some 7%positive)] ++ lit ":" ++ nl ++
    lit "   3 resizings to 37 total" ++ nl ++
    lit "   10 entries (8 buckets used, 6 without overflow)" ++ nl ++
    lit "   maximum list length is 2 (optimal is " ++ [Ratio 10 8] ++ lit ")" ++ nl ++
    lit "   0 retrievals (0 from top, 0 failed)" ++ nl).
Proof. run. Qed.
(** a table of string keys (its history), and what hsh_key_strings prints *)
Definition ex_sk (s : string) : skey :=
  match decide (str_ok (N_of_ascii <$> list_ascii_of_string s)) with left H => exist _ _ H | right _ => exist _ [] (Forall_nil_2 _) end.
Definition ex_kal : halloc skey unit := HA bump (fun _ => true).
Definition ex_keys : list skey :=
  [ex_sk "alpha"; ex_sk "a rather long key that fills most of a line"; ex_sk "beta"; ex_sk "gamma and delta"; ex_sk ""; ex_sk "omega"].
Fixpoint ex_fill (ks : list skey) (s : hst skey unit) : res (hst skey unit) :=
  match ks with [] => Ret s | k :: ks' => '(s', _) ← hsh_insert (string_env tt) ex_kal s k tt; ex_fill ks' s' end.
Definition ex_ktab : res (hst skey unit) := s ← hsh_create ex_kal; ex_fill ex_keys s.
Lemma ex_kal_ok : halloc_ok ex_kal.
Proof. unfold halloc_ok, ex_kal. cbn [node_alloc]. apply bump_ok. Qed.
Lemma ex_fill_history ks : forall s g s', history (string_env tt) s g -> ex_fill ks s = Ret s' -> exists g', history (string_env tt) s' g'.
Proof.
  induction ks as [|k ks IH]; intros s g s' Hh E; cbn [ex_fill] in E.
  - injection E as <-. by exists g.
  - destruct (hsh_insert (string_env tt) ex_kal s k tt) as [[s1 r]| | | |] eqn:E1; try discriminate E. cbn [mbind res_bind] in E.
    eapply (h_insert (string_env tt) ex_kal) in Hh; [|apply ex_kal_ok|exact E1]. by apply (IH _ _ _ Hh E).
Qed.
Lemma ex_ktab_history s : ex_ktab = Ret s -> exists g, history (string_env tt) s g.
Proof.
  unfold ex_ktab. intros E. destruct (hsh_create ex_kal) as [s0| | | |] eqn:E0; try discriminate E. cbn [mbind res_bind] in E.
  exact (ex_fill_history _ s0 _ s (h_create (string_env tt) ex_kal s0 ex_kal_ok E0) E).
Qed.
Lemma C83_compute : exists s, ex_ktab = Ret s /\ snd <$> hsh_key_strings 100 s = Ret
  (lit "  omega  a rather long key that fills most of a line  gamma and delta  " ++ nl ++ lit "beta  alpha  " ++ nl).
Proof. run. Qed.
Example C83_reachable : exists s g, ex_ktab = Ret s /\ history (string_env tt) s g /\ snd <$> hsh_key_strings 100 s = Ret
  (lit "  omega  a rather long key that fills most of a line  gamma and delta  " ++ nl ++ lit "beta  alpha  " ++ nl).
Proof. destruct C83_compute as (s & E & H). destruct (ex_ktab_history s E) as [g Hg]. exists s, g. exact (conj E (conj Hg H)). Qed.
(** the pool with a recycled object (ObjProps.C23_reachable) and the string memory with three strings (MemProps.C25_reachable)
    as printed: numbers of more than one digit and a negative one *)
Example C82_numbers : lu 1234567890123 = lit "1234567890123" /\ pd (-45) = lit "-45" /\ pd 0 = lit "0" /\ lu 18446744073709551615 = lit "18446744073709551615".
Proof. vm_compute. repeat split. Qed.
Example C82_reachable : exists w P G w2,
  obj_history w P /\ str_history w2 G /\
  snd <$> mem_print_object_stats true w (Some 1%positive) None = Ret
    (lit "Statistics for object memory manager at " ++ [Addr (Some 1%positive)] ++ lit ":" ++ nl ++
     lit "   2 objects allocated, of which 2 are in use" ++ nl ++ lit "   1 objects have been reused" ++ nl) /\
  mem_print_string_stats true w2 (Some 1%positive) (Some 5%nat) = Ret (ToStream 5,
     lit "Statistics for string memory manager at " ++ [Addr (Some 1%positive)] ++ lit ":" ++ nl ++
     lit "   3 strings, using 9 bytes" ++ nl).
Proof.
  destruct C23_reachable as (w & P & g & H1 & _ & _ & _ & E1 & _). destruct C25_reachable as (w2 & G & g2 & H2 & _ & _ & E2 & _).
  exists w, P, G, w2. split; [exact H1|]. split; [exact H2|]. unfold mem_print_object_stats, mem_print_string_stats. rewrite E1, E2. split; reflexivity.
Qed.
