(** C50, whole programs: any sequence of calls of source.c and parse-concrete.c. *)
From Verif Require Import Base Trace ListLemmas CStr StackModel StackProofs ObjModel ObjProofs MemModel MemProofs MemHist PrimeModel HashModel HashFnModel HashFnProofs.
From Verif Require ArgHist.
From Verif Require Import StrModel StrProofs StrHist ArgModel ArgSpec ArgProofs ArgProps PrsModel PrsSpec PrsProofs SourceModel SourceSpec SourceProofs SourceHist SourceMsg SourceProps.
From Coq Require Import String.
Notation length := List.length.
Local Open Scope Z_scope.

(** The calls.  A token is named by its number in the order in which src_get returned it, counted
    from src_create; [None] is NULL.  [rest]: what follows a string in memory. *)
Inductive sop :=
| SCreate (al : salloc)
| SDestroy
| SLine (al : salloc) (s rest : list N) (len : Z)       (* the result is read as a string *)
| SFile (al : salloc) (s rest : list N)
| SNewLine (l : Z)
| SAdvance (n : Z)
(** src_cpp_line(src, n): [s] is the text in these bytes, [ws] its words, [z] the number in the
    second one; [slegal] says so *)
| SCpp (al : salloc) (src : list N) (n : Z) (s : list N) (ws : list (list N)) (z : Z)
| SGet (al : salloc) (n : Z)
| SFilename (k : option nat)                            (* read as a string *)
| SLinenumber (k : option nat)
| SOffset (k : option nat)
| SLength (k : option nat)
| SSourceLine (k : option nat)                          (* read as a string *)
(** src_parse_error: the message [s], and its massaged form ([None]: it runs away) *)
| SParseError (st : option nat) (k : option nat) (s rest : list N) (m : option (list N))
| SPrintLine (k : option nat)
| SPrintError (st : nat) (k : option nat) (formatted : option (list N))
| SPrintMessage (st : nat) (k : option nat) (formatted : option (list N))
| SRegister (first : bool) (al : palloc) (sym r1 con r2 : list N)
| SConcrete (sym rest : list N)                         (* read as a string *)
| SStats.
Inductive sres :=
| SDone
| SInt (z : Z)
| SStr (s : option (list N))
| STok (k : nat)
| SOut (o : stream) (b : list N)
| SNumbers (n : Z * Z * Z * Z * Z * Z).

(** ** the model: the program keeps the pointers it was given *)
Definition sstate : Type := list positive * srcw.
Definition tok {A} (l : list positive) (k : option nat) (f : ptr -> res A) : res A :=
  match k with None => f None | Some k => match l !! k with Some a => f (Some a) | None => UB end end.
(** the pointer returned, read as a string *)
Definition c_read (bl : gmap positive (list N)) (p : unit + ptr) : res sres :=
  match p with
  | inl _ => Ret (SStr (Some []))
  | inr None => Ret (SStr None)
  | inr (Some a) => s ← str_at bl (Some a); Ret (SStr (Some s))
  end.
Definition sstep (st : sstate) (c : sop) : res (sstate * sres) :=
  let '(l, w) := st in
  match c with
  | SCreate al => w' ← src_create al w; Ret ((l, w'), SDone)
  | SDestroy => w' ← src_destroy w; Ret (([], w'), SDone)
  | SLine al s rest len => '(w', a) ← src_line al w (s ++ 0%N :: rest) len; r ← c_read (mblk (w_text w')) (inr (Some a)); Ret ((l, w'), r)
  | SFile al s rest => w' ← src_new_file al w (s ++ 0%N :: rest); Ret ((l, w'), SDone)
  | SNewLine n => Ret ((l, src_new_line w n), SDone)
  | SAdvance n => w' ← src_advance w n; Ret ((l, w'), SDone)
  | SCpp al src n _ _ _ => w' ← src_cpp_line al w src n; Ret ((l, w'), SDone)
  | SGet al n => '(w', a) ← src_get al w n; Ret ((l ++ [a], w'), STok (length l))
  | SFilename k => tok l k (fun p => r ← src_filename w p; s ← c_read (mblk (pmem (rw (w_prs w)))) r; Ret (st, s))
  | SLinenumber k => tok l k (fun p => r ← src_linenumber w p; Ret (st, SInt r))
  | SOffset k => tok l k (fun p => r ← src_offset w p; Ret (st, SInt r))
  | SLength k => tok l k (fun p => r ← src_length w p; Ret (st, SInt r))
  | SSourceLine k => tok l k (fun p => r ← src_source_line w p;
      s ← c_read (mblk (w_text w)) (match r with inl u => inl u | inr a => inr (Some a) end); Ret (st, s))
  | SParseError o k s rest _ => tok l k (fun p => '(w', (o', b)) ← src_parse_error w o p (Some (s ++ 0%N :: rest)); Ret ((l, w'), SOut o' b))
  | SPrintLine k => tok l k (fun p => b ← src_print_line w p; Ret (st, SOut Stdout b))
  | SPrintError o k f => tok l k (fun p => '(o', b) ← src_print_error w (Some o) p f; Ret (st, SOut o' b))
  | SPrintMessage o k f => tok l k (fun p => '(o', b) ← src_print_message w (Some o) p f; Ret (st, SOut o' b))
  | SRegister first al sym r1 con r2 =>
      p' ← prs_register_concrete first al (w_prs w) (sym ++ 0%N :: r1) (con ++ 0%N :: r2); Ret ((l, set_prs w p'), SDone)
  | SConcrete sym rest => '(p', r) ← prs_concrete (w_prs w) (sym ++ 0%N :: rest);
      s ← c_read (mblk (pmem (rw p'))) (inr r); Ret ((l, set_prs w p'), s)
  | SStats => n ← src_get_stats true w; Ret (st, SNumbers n)
  end.

(** ** the specification: the current place; the lines, bytes and tokens since src_create and the
    number of lines before; the registrations; the strings in the global pool *)
Record xsp := XS {
  x_on : bool; x_file : option (list N); x_line : Z; x_offset : Z;
  x_before : nat; x_lines : list (list N); x_bytes : Z; x_toks : list gtok;
  x_reg : list (list N * list N); x_names : list (list N) }.
Definition x_start : xsp := XS false None 0 0 0 [] 0 [] [] [].
Definition x_move (x : xsp) (f : option (list N)) (n o : Z) : xsp :=
  XS (x_on x) f n o (x_before x) (x_lines x) (x_bytes x) (x_toks x) (x_reg x) (x_names x).
Definition x_name (x : xsp) (s : list N) : xsp :=
  XS (x_on x) (x_file x) (x_line x) (x_offset x) (x_before x) (x_lines x) (x_bytes x) (x_toks x) (x_reg x)
    (if decide (s ∈ x_names x) then x_names x else s :: x_names x).
Definition x_file_is (x : xsp) (s : list N) : xsp := x_name (x_move x (Some s) (x_line x) (x_offset x)) s.
Definition x_create (x : xsp) : xsp :=
  if x_on x then x else XS true (x_file x) (x_line x) (x_offset x) (x_before x) [] 0 [] (x_reg x) (x_names x).
Definition x_tok (x : xsp) (k : option nat) (f : option gtok -> res (xsp * sres)) : res (xsp * sres) :=
  match k with None => f None | Some k => match x_toks x !! k with Some t => f (Some t) | None => UB end end.
(** for the functions that want a manager *)
Definition x_field (x : xsp) (k : option nat) (null : sres) (f : gtok -> res sres) : res (xsp * sres) :=
  x_tok x k (fun t => if x_on x then r ← match t with None => Ret null | Some t => f t end; Ret (x, r) else Fatal).
(** "file:line: " *)
Definition x_place (t : option gtok) : res (list N) :=
  match t with
  | None => Ret (text "?:?: ")
  | Some t => match k_file t with Some f => Ret (place f (c_itoa (k_line t))) | None => UB end
  end.
(** the line *)
Definition x_quote (t : option gtok) : res (list N) :=
  h ← x_place t;
  match t with
  | None => Ret (text "?:?: <source line not available>" ++ [10%N])
  | Some t => match k_text t with Some s => Ret (h ++ s) | None => UB end
  end.
(** the line, and below it carets under the token *)
Definition x_carets (t : option gtok) : res (list N) :=
  q ← x_quote t; h ← x_place t;
  Ret (q ++ h ++ match t with
                 | None => []
                 | Some t => replicate (Z.to_nat (k_offset t)) 32%N ++ replicate (Z.to_nat (k_length t)) 94%N
                 end ++ [10%N]).
Definition sspec (x : xsp) (c : sop) : res (xsp * sres) :=
  match c with
  | SCreate _ => if x_on x then Fatal else Ret (x_create x, SDone)
  | SDestroy =>
      Ret (XS false (x_file x) (x_line x) (x_offset x) (x_before x + length (x_lines x)) [] 0 [] (x_reg x) (x_names x), SDone)
  | SLine _ s _ len =>
      let y := x_create x in
      if decide (x_lines x = [] /\ (1000 <= x_before x)%nat) then UB else
      Ret (XS true (x_file y) (x_line y + 1) 0 (x_before y) (x_lines y ++ [tabless s]) (x_bytes y + len + 1) (x_toks y) (x_reg y) (x_names y),
           SStr (Some (tabless s)))
  | SFile _ s _ => Ret (x_file_is x s, SDone)
  | SNewLine n => Ret (x_move x (x_file x) n (x_offset x), SDone)
  | SAdvance n => Ret (x_move x (x_file x) (x_line x) (x_offset x + n), SDone)
  | SCpp _ _ _ _ ws z =>
      match ws with
      | _ :: _ :: vs =>
          if decide (- 2 ^ 31 <= z < 2 ^ 31) then
            let y := x_move x (x_file x) (cpp_number z) (x_offset x) in
            Ret (match vs with [] => y | v2 :: _ => x_file_is y v2 end, SDone)
          else UB
      | _ => Abort
      end
  | SGet _ n =>
      if x_on x then
        Ret (XS true (x_file x) (x_line x) (x_offset x + n) (x_before x) (x_lines x) (x_bytes x)
               (x_toks x ++ [GTok (x_file x) (x_line x) (x_offset x) n (last (x_lines x))]) (x_reg x) (x_names x), STok (length (x_toks x)))
      else Fatal
  | SFilename k => x_field x k (SStr (Some [])) (fun t => Ret (SStr (k_file t)))
  | SLinenumber k => x_field x k (SInt 0) (fun t => Ret (SInt (k_line t)))
  | SOffset k => x_field x k (SInt 0) (fun t => Ret (SInt (k_offset t)))
  | SLength k => x_field x k (SInt 0) (fun t => Ret (SInt (k_length t)))
  | SSourceLine k => x_field x k (SStr (Some [])) (fun t => match k_text t with Some s => Ret (SStr (Some s)) | None => UB end)
  | SParseError o k _ _ m => x_tok x k (fun t =>
      h ← x_place t; m ← match m with Some m => Ret m | None => UB end; e ← x_carets t; Ret (x, SOut (out_of o) (h ++ m ++ [10%N] ++ e)))
  | SPrintLine k => x_tok x k (fun t => q ← x_quote t; Ret (x, SOut Stdout q))
  | SPrintError o k f => x_tok x k (fun t =>
      h ← match f with None => Ret [] | Some f => h ← x_place t; Ret (h ++ f ++ [10%N]) end;
      e ← x_carets t; Ret (x, SOut (Stream o) (h ++ e)))
  | SPrintMessage o k f => x_tok x k (fun t =>
      b ← match f with None => Ret [] | Some f => h ← x_place t; Ret (h ++ f ++ [10%N]) end; Ret (x, SOut (Stream o) b))
  | SRegister first _ sym _ con _ =>
      let y := if first then x_name (x_name x sym) con else x_name (x_name x con) sym in
      Ret (XS (x_on y) (x_file y) (x_line y) (x_offset y) (x_before y) (x_lines y) (x_bytes y) (x_toks y) (x_reg y ++ [(sym, con)]) (x_names y), SDone)
  | SConcrete sym _ => Ret (x, SStr (first_concrete sym (x_reg x)))
  | SStats =>
      let used := Z.of_nat (x_before x + length (x_lines x)) in
      Ret (x, SNumbers (if x_on x then
        (used, (if decide (x_lines x = []) then 1000 else 1000 * (used / 1000 + 1)), x_bytes x, Z.of_nat (length (x_toks x)), 0, 24)
        else (0, 0, 0, 0, 0, 0)))
  end.

(** malloc returns fresh addresses, and does not fail for the nodes of stacks; arguments are
    strings; the int counters have room.  A line must have its NUL among the bytes copied. *)
Definition nbytes (l : list (list N)) : Z := foldr (fun s n => Z.of_nat (length s) + 1 + n) 0 l.
Definition pool_room (x : xsp) (k : Z) (n : Z) : Prop :=
  Z.of_nat (length (x_names x)) + k < 2 ^ 31 /\ nbytes (x_names x) + n < 2 ^ 31.
(** the text of a token is asked for: it has one, or there is no line yet *)
Definition has_text (x : xsp) (k : option nat) : Prop :=
  match k ≫= (fun k => x_toks x !! k) with Some t => k_text t = None -> x_lines x = [] | None => True end.
Definition slegal (x : xsp) (c : sop) : Prop :=
  match c with
  | SCreate al => salloc_ok al
  | SLine al s rest len => salloc_ok al /\ str_ok s /\ Z.of_nat (length s) <= len < Z.of_nat (length (s ++ 0%N :: rest)) /\
      Z.of_nat (x_before x + length (x_lines x)) + 1001 < 2 ^ 31 /\ x_bytes x + len + 1 < 2 ^ 31 /\ x_line x + 1 < 2 ^ 31
  | SFile al s _ => salloc_ok al /\ str_ok s /\ pool_room x 1 (Z.of_nat (length s) + 1)
  | SNewLine n => is_int n
  | SAdvance n => is_int (x_offset x + n)
  | SCpp al src n s ws z => salloc_ok al /\ first_bytes src n s /\ str_ok s /\ Z.of_nat (length s) + 3 < 2 ^ 30 /\ n < 2 ^ 31 - 1 /\
      line true true s ws /\
      match ws with
      | _ :: v1 :: vs => number v1 z /\ match vs with v2 :: _ => pool_room x 1 (Z.of_nat (length v2) + 1) | [] => True end
      | _ => True
      end
  | SGet al n => salloc_ok al /\ is_int n /\ is_int (x_offset x + n) /\ Z.of_nat (length (x_toks x)) < 2 ^ 31 - 1
  | SSourceLine k | SPrintLine k | SPrintError _ k _ => has_text x k
  | SParseError _ k s rest m => has_text x k /\ str_ok s /\
      match m with Some m => massage (x_reg x) s m | None => runaway s /\ rest = [] end
  | SRegister _ al sym _ con _ => palloc_ok al /\ str_ok sym /\ str_ok con /\
      pool_room x 2 (Z.of_nat (length sym) + Z.of_nat (length con) + 2)
  | SConcrete sym _ => str_ok sym
  | SDestroy | SFilename _ | SLinenumber _ | SOffset _ | SLength _ | SPrintMessage _ _ _ | SStats => True
  end.
(** the calls that can run out of memory *)
Definition scan (c : sop) : Prop :=
  match c with
  | SCreate al | SLine al _ _ _ | SGet al _ => src_fail al
  | SFile al _ _ => gfail (sa_str al)
  | SCpp al _ _ _ _ _ => afail (sa_arg al) \/ gfail (sa_str al)
  | SRegister _ al _ _ _ _ => gfail al
  | _ => False
  end.

(** ** the relation *)
Definition tok_map (l : list positive) (ts : list gtok) : gmap positive gtok := list_to_map (zip l ts).
Definition g_of (l : list positive) (x : xsp) (nm : bool) : gsrc :=
  GS (x_on x) (x_file x) (x_line x) (x_offset x) (x_before x) (x_lines x) (x_bytes x) (tok_map l (x_toks x)) nm.
Definition names_of (w : pworld) (G : gmap positive pgh) (names : list (list N)) : Prop :=
  forall q, global_of w G q -> q_ro q = 0 /\ (q_int q).*1 = names /\ length (s_done (q_mem q)) = length names /\ s_bytes (q_mem q) = nbytes names.
Record srel (st : sstate) (x : xsp) (G : gmap positive pgh) (nm : bool) : Prop := {
  sr_hist : src_history st.2 G (x_reg x) (g_of st.1 x nm);
  sr_len : length st.1 = length (x_toks x); sr_nodup : NoDup st.1;
  sr_off : x_on x = false -> x_lines x = [] /\ x_toks x = [] /\ x_bytes x = 0;
  sr_names : names_of (rw (w_prs st.2)) G (x_names x) }.
Definition sR (st : sstate) (x : xsp) : Prop := exists G nm, srel st x G nm.

Lemma sr_start : sR ([], src_start) x_start.
Proof.
  exists ∅, false. constructor; cbn; try done; [apply rtc_refl|apply NoDup_nil_2|]. intros q Hq. cbn in Hq. by subst q.
Qed.
(** ** tokens *)
Lemma tok_map_lookup l ts k a t : NoDup l -> length l = length ts -> l !! k = Some a -> ts !! k = Some t -> tok_map l ts !! a = Some t.
Proof.
  intros Hn Hlen Ha Ht. apply elem_of_list_to_map.
  - rewrite fst_zip by lia. done.
  - apply elem_of_list_lookup. exists k. rewrite lookup_zip_with, Ha, Ht. done.
Qed.
Lemma tok_map_fresh l ts a : length l = length ts -> tok_map l ts !! a = None -> a ∉ l.
Proof. intros Hlen H. apply not_elem_of_list_to_map in H. rewrite fst_zip in H by lia. done. Qed.
Lemma tok_map_add l ts a t : length l = length ts -> tok_map l ts !! a = None -> <[a := t]> (tok_map l ts) = tok_map (l ++ [a]) (ts ++ [t]).
Proof.
  intros Hlen H. unfold tok_map. rewrite zip_with_app by done. cbn [zip_with]. symmetry. apply list_to_map_snoc.
  rewrite fst_zip by lia. by eapply tok_map_fresh.
Qed.
Lemma tok_map_size l ts : NoDup l -> length l = length ts -> size (tok_map l ts) = length ts.
Proof.
  intros Hn Hlen. unfold tok_map. rewrite <- (size_dom (D := gset positive)). rewrite dom_list_to_map_L, fst_zip by lia.
  rewrite size_list_to_set by done. done.
Qed.
Lemma get_tok (l : list positive) (ts : list gtok) (k : nat) t : length l = length ts -> ts !! k = Some t -> exists a, l !! k = Some a.
Proof. intros Hlen H. apply lookup_lt_Some in H. destruct (lookup_lt_is_Some_2 l k) as [a Ha]; [lia|eauto]. Qed.
Lemma no_tok {A} (l : list positive) (ts : list A) (k : nat) : length l = length ts -> ts !! k = None -> l !! k = None.
Proof. intros Hlen H. apply lookup_ge_None in H. apply lookup_ge_None. lia. Qed.
(** ** strings *)
Lemma assoc_none s l : assoc s l = None <-> s ∉ l.*1.
Proof.
  induction l as [|[s' a] l IH]; cbn [assoc fmap list_fmap fst]; [split; [intros _ H; by apply elem_of_nil in H|done]|].
  rewrite not_elem_of_cons. destruct (decide (s' = s)) as [->|Hn]; [split; [done|by intros [? _]]|]. rewrite IH. split; [|tauto]. intros H. split; [congruence|done].
Qed.
Definition add_name (s : list N) (l : list (list N)) : list (list N) := if decide (s ∈ l) then l else s :: l.
Lemma found_names q s a names : q_ro q = 0 -> (q_int q).*1 = names -> length (s_done (q_mem q)) = length names -> s_bytes (q_mem q) = nbytes names ->
  q_ro (found q s a) = 0 /\ (q_int (found q s a)).*1 = add_name s names /\ length (s_done (q_mem (found q s a))) = length (add_name s names) /\
  s_bytes (q_mem (found q s a)) = nbytes (add_name s names).
Proof.
  intros H1 H2 H3 H4. unfold found, add_name. destruct (assoc s (q_int q)) as [b|] eqn:E.
  - rewrite decide_True. { cbn [asked q_ro q_int q_mem]. done. }
    rewrite <- H2. apply assoc_in in E. by apply (elem_of_list_fmap_1 fst) in E.
  - rewrite decide_False. 2: { rewrite <- H2. by apply assoc_none. }
    cbn [asked entered set_mem q_ro q_int q_mem stored s_done s_bytes]. rewrite E. cbn [fmap list_fmap fst]. split; [done|]. split; [by rewrite <- H2|].
    rewrite app_length, H3. cbn [length nbytes foldr]. fold (nbytes names). split; lia.
Qed.
Lemma gfind_names al w G s rest a w' G' names : pool_history w G -> palloc_ok al -> str_ok s -> name_room w G s ->
  gfind al (w, G) (s, rest) a (w', G') -> names_of w G names -> names_of w' G' (add_name s names).
Proof.
  intros H Hal Hs Hr Hf Hn q Hq. destruct (gfind_takes al w G s rest a w' G' q H Hf Hq Hal Hs Hr) as (q0 & Hq0 & ->).
  destruct (Hn q0 Hq0) as (H1 & H2 & H3 & H4). by apply found_names.
Qed.
Lemma room_of w G x s : names_of w G (x_names x) -> pool_room x 1 (Z.of_nat (length s) + 1) -> name_room w G s.
Proof. intros Hn [H1 H2] q Hq _. destruct (Hn q Hq) as (E1 & _ & E3 & E4). split; [done|]. unfold room. lia. Qed.
Lemma roomy_of w G x s1 s2 : names_of w G (x_names x) -> pool_room x 2 (Z.of_nat (length s1) + Z.of_nat (length s2) + 2) -> roomy w G s1 s2.
Proof. intros Hn [H1 H2] q Hq. destruct (Hn q Hq) as (E1 & _ & E3 & E4). split; [done|]. split; lia. Qed.
Lemma new_file_step al w G R g s rest : src_history w G R g -> salloc_ok al -> str_ok s -> name_room (rw (w_prs w)) G s ->
  match src_new_file al w (s ++ 0%N :: rest) with
  | Ret w' => exists G' a, src_history w' G' R (named_file g s) /\ gfind (sa_str al) (rw (w_prs w), G) (s, rest) a (rw (w_prs w'), G')
  | Fatal => gfail (sa_str al)
  | _ => False
  end.
Proof.
  intros H Hal Hs Hr. pose proof (history_inv _ _ _ _ H) as I. destruct (src_new_file al w (s ++ 0%N :: rest)) as [w'| | | |] eqn:E; try done.
  2,3,4,5: unfold src_new_file in E; pose proof (gfind_ok (sa_str al) _ G s rest (lineage _ _ _ _ I) (sal_str _ Hal) Hs Hr) as Hf;
    by destruct (str_find (sa_str al) (rw (w_prs w)) (s ++ 0%N :: rest)) as [[w1 a]| | | |].
  pose proof E as E0. unfold src_new_file in E. pose proof (gfind_ok (sa_str al) _ G s rest (lineage _ _ _ _ I) (sal_str _ Hal) Hs Hr) as Hf.
  destruct (str_find (sa_str al) (rw (w_prs w)) (s ++ 0%N :: rest)) as [[w1 a]| | | |]; try done. cbn [mbind res_bind] in E. injection E as Ew.
  destruct Hf as (p & q & q' & Hf & _).
  assert (Hf' : gfind (sa_str al) (rw (w_prs w), G) (s, rest) a (rw (w_prs w'), match glob (rw (w_prs w)) with Some _ => <[p:=q']> G | None => <[p:=q']> (<[p:=fresh_pool]> G) end)).
  { rewrite <- Ew. cbn [w_prs rw]. exact Hf. }
  eexists _, a. split; [|exact Hf']. eapply src_step; [exact H|]. by eapply (sc_file al w G R g s rest).
Qed.
Lemma cpp_step al w G R g src n s ws : src_history w G R g -> salloc_ok al -> first_bytes src n s -> str_ok s ->
  Z.of_nat (length s) + 3 < 2 ^ 30 -> n < 2 ^ 31 - 1 -> line true true s ws ->
  (forall v0 v1 v2 vs, ws = v0 :: v1 :: v2 :: vs -> name_room (rw (w_prs w)) G v2) ->
  match ws with
  | v0 :: v1 :: vs => forall z, number v1 z ->
      match src_cpp_line al w src n with
      | Ret w' => is_int z /\
          match vs with
          | [] => src_history w' G R (numbered g (cpp_number z)) /\ rw (w_prs w') = rw (w_prs w)
          | v2 :: _ => exists G' a, src_history w' G' R (named_file (numbered g (cpp_number z)) v2) /\ str_ok v2 /\
              gfind (sa_str al) (rw (w_prs w), G) (v2, []) a (rw (w_prs w'), G')
          end
      | Fatal => afail (sa_arg al) \/ gfail (sa_str al)
      | UB => ~ is_int z
      | _ => False
      end
  | _ => src_cpp_line al w src n = Abort \/ src_cpp_line al w src n = Fatal /\ afail (sa_arg al)
  end.
Proof.
  intros H Hal Hfb Hs Hlen Hn Hline Hroom. pose proof (history_inv _ _ _ _ H) as I.
  pose proof (line_chars _ true true s ws Hline Hs) as Hws.
  destruct (cpp_run al w G R g src n s ws I Hal Hfb Hs Hlen Hn Hline) as [[Hfa Ha]|(aw' & Haw & Er)].
  - destruct ws as [|v0 [|v1 vs]]; [by right|by right|]. intros z Hz. rewrite Hfa. by left.
  - destruct ws as [|v0 [|v1 vs]]; [by left|by left|]. intros z Hz.
    apply Forall_cons in Hws as [_ Hws]. apply Forall_cons in Hws as [Hv1 Hws].
    pose proof Er as Er0. rewrite (number_atoi v1 z Hz Hv1) in Er. destruct (decide (is_int z)) as [Hi|Hi].
    2: { unfold sint, int_range, INT_MIN, INT_MAX in Er. unfold is_int in Hi.
         assert (((- 2 ^ 31 <=? z) && (z <=? 2 ^ 31 - 1)) = false) as Hb.
         { destruct (Z.leb_spec (- 2 ^ 31) z), (Z.leb_spec z (2 ^ 31 - 1)); try done. lia. }
         rewrite Hb in Er. cbn [mbind res_bind] in Er. by rewrite Er. }
    rewrite (sint_in z Hi) in Er. cbn [mbind res_bind] in Er. destruct vs as [|v2 vs].
    + cbn [mbind res_bind] in Er. rewrite Er. split; [done|]. split; [|done]. eapply src_step; [exact H|].
      eapply (sc_cpp2 al w G R g src n s v0 v1 z); try done.
    + apply Forall_cons in Hws as [Hv2 _]. pose proof (Hroom v0 v1 v2 vs eq_refl) as Hr.
      pose proof (gfind_ok (sa_str al) (rw (w_prs w)) G v2 [] (lineage _ _ _ _ I) (sal_str _ Hal) Hv2 Hr) as Hf.
      unfold src_new_file in Er. change (rw (w_prs (src_new_line w (cpp_number z)))) with (rw (w_prs w)) in Er.
      destruct (str_find (sa_str al) (rw (w_prs w)) (v2 ++ [0%N])) as [[w1 b]| | | |]; try done; cbn [mbind res_bind] in Er; rewrite Er; [|right; exact Hf].
      destruct Hf as (p & q & q' & Hf & _). split; [done|]. eexists _, b. split; [|split; [done|exact Hf]]. eapply src_step; [exact H|].
      eapply (sc_cpp al w G R g src n s v0 v1 v2 vs z); try done.
Qed.
(** ** what is shown of a token *)
Section token.
Context (w : srcw) (G : gmap positive pgh) (R : list (list N * list N)) (g : gsrc) (I : src_inv w G R g).
Context (a : positive) (t : gtok) (Ha : g_toks g !! a = Some t).
Lemma tok_get : exists y, hget (oblk (w_tok w)) a = Ret y /\ is_Some (v_lines w) /\ tok_ok (rw (w_prs w)) G g y t.
Proof.
  pose proof (n_mem _ _ _ _ I) as Hm. destruct (v_lines w) as [v|] eqn:El; [|by rewrite (d_toks _ _ Hm), lookup_empty in Ha].
  destruct Hm as (i & j & D & L & A). destruct (l_toks _ _ _ _ _ _ _ _ A a t Ha) as (y & Hy & T). exists y. rewrite (hget_Some _ _ _ Hy). eauto.
Qed.
Lemma file_get y : tok_ok (rw (w_prs w)) G g y t ->
  str_at (mblk (pmem (rw (w_prs w)))) (t_file y) = match k_file t with Some f => Ret f | None => UB end.
Proof.
  intros T. pose proof (tk_file _ _ _ _ _ T) as Hf. destruct (k_file t) as [f|].
  - destruct (file_read _ _ _ _ (lineage _ _ _ _ I) Hf) as (b & rest & -> & Hs & Hb). unfold str_at. rewrite (hget_Some _ _ _ Hb). rb. by apply c_string_spec.
  - cbn [file_ok] in Hf. by rewrite Hf.
Qed.
Lemma head_get : SourceModel.head w (Some a) = x_place (Some t).
Proof.
  destruct tok_get as (y & Hy & _ & T). unfold SourceModel.head, x_place, label. rewrite Hy. rb. rewrite (file_get y T).
  destruct (k_file t) as [f|]; [|done]. rb. by rewrite (tk_line _ _ _ _ _ T).
Qed.
Lemma line_get y : tok_ok (rw (w_prs w)) G g y t -> hget (oblk (w_tok w)) a = Ret y -> (k_text t = None -> g_lines g = []) ->
  (p ← line_at w (t_index y); s ← str_at (mblk (w_text w)) (Some p); Ret s) = match k_text t with Some s => Ret s | None => UB end.
Proof.
  intros T Hy Hno. destruct (k_text t) as [s|] eqn:Et.
  - assert (Hx : oblk (w_tok w) !! a = Some y). { unfold hget in Hy. destruct (oblk (w_tok w) !! a); [by injection Hy as ->|done]. }
    destruct (text_read w G R g a t y s I Ha Hx Et) as (p & E1 & E2). rewrite E1. rb. rewrite E2. by rb.
  - specialize (Hno eq_refl). pose proof (n_mem _ _ _ _ I) as Hm. unfold line_at. destruct (v_lines w) as [v|] eqn:El; [|done].
    destruct Hm as (i & j & D & L & A). destruct (t_index y <? 0); [done|]. destruct (l_room _ _ _ _ _ _ _ _ A) as [[Hne _]|(_ & _ & ->)]; [done|].
    unfold aget. destruct (replicate 1000 None !! Z.to_nat (t_index y)) as [e|] eqn:E; [|done]. apply lookup_replicate in E as [-> _]. done.
Qed.
Lemma quote_get : (k_text t = None -> g_lines g = []) -> src_print_line w (Some a) = x_quote (Some t).
Proof.
  intros Hno. destruct tok_get as (y & Hy & _ & T). pose proof (line_get y T Hy Hno) as Hl. unfold src_print_line, x_quote. rewrite <- head_get.
  unfold SourceModel.head. rewrite Hy. rb. unfold label. rewrite (file_get y T). destruct (k_file t) as [f|]; [|done]. rb.
  destruct (line_at w (t_index y)) as [p| | | |]; cbn [mbind res_bind] in Hl |- *; try (destruct (k_text t); done).
  destruct (str_at (mblk (w_text w)) (Some p)) as [s| | | |]; cbn [mbind res_bind] in Hl |- *; try (destruct (k_text t); done).
  destruct (k_text t) as [s'|]; [by injection Hl as ->|done].
Qed.
Lemma carets_get : (k_text t = None -> g_lines g = []) -> print_error w (Some a) = x_carets (Some t).
Proof.
  intros Hno. unfold print_error, x_carets. rewrite (quote_get Hno). destruct tok_get as (y & Hy & _ & T).
  destruct (x_quote (Some t)) as [q| | | |]; try done. rb. rewrite <- head_get. unfold SourceModel.head. rewrite Hy. rb.
  destruct (label w y) as [h| | | |]; try done. rb. rewrite (tk_offset _ _ _ _ _ T), (tk_length _ _ _ _ _ T). by rewrite <- !app_assoc.
Qed.
End token.
(** the same for the program's tokens, NULL included *)
Section shown.
Context (l : list positive) (w : srcw) (x : xsp) (G : gmap positive pgh) (nm : bool) (R : srel (l, w) x G nm).
Let I : src_inv w G (x_reg x) (g_of l x nm) := history_inv _ _ _ _ (sr_hist _ _ _ _ R).
Lemma tok_of k t : x_toks x !! k = Some t -> exists a, l !! k = Some a /\ g_toks (g_of l x nm) !! a = Some t /\ x_on x = true.
Proof.
  intros Ht. destruct (get_tok l (x_toks x) k t (sr_len _ _ _ _ R) Ht) as [a Ha]. exists a. split; [done|].
  split; [eapply tok_map_lookup; [apply (sr_nodup _ _ _ _ R)|apply (sr_len _ _ _ _ R)|done|done]|].
  destruct (x_on x) eqn:E; [done|]. destruct (sr_off _ _ _ _ R E) as (_ & Hx & _). rewrite Hx in Ht. done.
Qed.
Lemma off_lines : x_on x = false -> v_lines w = None.
Proof.
  intros E. pose proof (exists_lines _ _ _ _ I) as H. cbn [g_of g_exists] in H.
  destruct (v_lines w); [|done]. assert (x_on x = true) by (apply H; eauto). congruence.
Qed.
Lemma on_lines : x_on x = true -> exists v, v_lines w = Some v.
Proof. intros E. apply (exists_lines _ _ _ _ I). done. Qed.
(** one lookup serves for all: [f] on the pointer against [f'] on the token *)
Lemma tok_call {A} (P : res A -> res (xsp * sres) -> Prop) k (f : ptr -> res A) f' :
  P UB UB -> P (f None) (f' None) ->
  (forall i a t, k = Some i -> x_toks x !! i = Some t -> g_toks (g_of l x nm) !! a = Some t -> x_on x = true -> P (f (Some a)) (f' (Some t))) ->
  P (tok l k f) (x_tok x k f').
Proof.
  intros H0 H1 H2. destruct k as [k|]; [|done]. cbn [tok x_tok]. destruct (x_toks x !! k) as [t|] eqn:Et.
  - destruct (tok_of k t Et) as (a & Ha & Hm & Hx). rewrite Ha. by eapply H2.
  - by rewrite (no_tok l (x_toks x) k (sr_len _ _ _ _ R) Et).
Qed.
Lemma text_or i t : has_text x (Some i) -> x_toks x !! i = Some t -> k_text t = None -> g_lines (g_of l x nm) = [].
Proof. unfold has_text. cbn [mbind option_bind]. intros H Ht. by rewrite Ht in H. Qed.
End shown.
Lemma created_of l x nm : (x_on x = false -> x_lines x = [] /\ x_toks x = [] /\ x_bytes x = 0) -> length l = length (x_toks x) -> created (g_of l x nm) = g_of l (x_create x) nm.
Proof.
  intros Hoff Hlen. unfold created, x_create, g_of. cbn [g_exists]. destruct (x_on x) eqn:E; [rewrite E; done|].
  cbn [g_file g_line g_offset g_before g_named x_on x_file x_line x_offset x_before x_lines x_bytes x_toks].
  destruct (Hoff eq_refl) as (_ & Ht & _). rewrite Ht in Hlen. destruct l; [done|done].
Qed.
Lemma src_step_ok st x c : sR st x -> slegal x c -> call_ok eq scan sR c (sstep st c) (sspec x c).
Proof.
  destruct st as [l w]. intros (G & nm & R) Hl. pose proof (history_inv _ _ _ _ (sr_hist _ _ _ _ R)) as I.
  pose proof (sr_hist _ _ _ _ R) as H. cbn [fst snd] in I, H.
  assert (Hsame : sR (l, w) x) by (by exists G, nm).
  destruct c; cbn [sstep sspec slegal] in *.
  - (* create *)
    destruct (x_on x) eqn:Ex.
    + destruct (on_lines l w x G nm R Ex) as [v Hv]. unfold src_create. by rewrite Hv.
    + pose proof (off_lines l w x G nm R Ex) as Hv. pose proof (create_inv al w G _ _ I Hl Hv) as Hc.
      destruct (src_create al w) as [w'| | | |] eqn:E; cbn [ok] in Hc; try done. rb. destruct Hc as (_ & _ & _ & _ & Hp). cbn [call_ok].
      split; [|done]. exists G, nm. pose proof (sr_len _ _ _ _ R) as Hlen. cbn [fst] in Hlen.
      assert (Hy : x_reg (x_create x) = x_reg x /\ x_names (x_create x) = x_names x /\ x_toks (x_create x) = [] /\ x_on (x_create x) = true) by (unfold x_create; by rewrite Ex).
      destruct Hy as (Hy1 & Hy2 & Hy3 & Hy4). destruct (sr_off _ _ _ _ R Ex) as (_ & Ht & _).
      constructor; cbn [fst snd].
      * rewrite <- created_of by (try apply R; done). rewrite Hy1. eapply src_step; [exact H|]. by apply (sc_create al).
      * by rewrite Hy3, Hlen, Ht.
      * apply R.
      * by rewrite Hy4.
      * rewrite Hy2. assert (Ep : w_prs w' = w_prs w) by apply Hp. rewrite Ep. apply R.
  - (* destroy *)
    destruct (x_on x) eqn:Ex.
    + destruct (destroy_inv _ _ _ _ I Ex) as (w' & E & I' & _). rewrite E. rb. cbn [call_ok]. split; [|done].
      assert (Ep : w_prs w' = w_prs w).
      { unfold src_destroy in E. destruct (v_lines w); [|by injection E as <-]. destruct (heap_of (v_tokens w)); try done. cbn [mbind res_bind] in E.
        destruct (mem_destroy_objects _ _); try done. cbn [mbind res_bind] in E. destruct (heap_of _); try done. cbn [mbind res_bind] in E.
        destruct (mem_destroy_strings _ _); try done. cbn [mbind res_bind] in E. by injection E as <-. }
      exists G, nm. constructor; cbn [fst snd x_reg x_names x_toks x_on x_lines]; try done; [|apply NoDup_nil_2|rewrite Ep; apply R].
      eapply src_step; [exact H|]. pose proof (sc_destroy w G (x_reg x) (g_of l x nm) w' E Ex) as Hc. exact Hc.
    + pose proof (off_lines l w x G nm R Ex) as Hv. unfold src_destroy. rewrite Hv. rb. cbn [call_ok]. split; [|done].
      destruct (sr_off _ _ _ _ R Ex) as (Hx1 & Hx2 & Hb). pose proof (sr_len _ _ _ _ R) as Hlen. cbn [fst] in Hlen. rewrite Hx2 in Hlen. destruct l; [|done].
      exists G, nm. constructor; cbn [fst snd x_reg x_names x_toks x_on x_lines]; try done; [|apply NoDup_nil_2|apply R].
      unfold g_of in *. cbn [x_on x_file x_line x_offset x_before x_lines x_bytes x_toks]. rewrite Ex, Hx1, Hx2, Hb in H. rewrite Hx1. cbn [length]. rewrite Nat.add_0_r. exact H.
  - (* line *)
    destruct Hl as (Hal & Hs & Hlen & Hr1 & Hr2 & Hr3).
    pose proof (proj1 (history_ints _ _ _ _ H)) as Hint. cbn [g_of g_line] in Hint.
    pose proof (created_of l x nm (sr_off _ _ _ _ R) (sr_len _ _ _ _ R)) as Hcr.
    assert (Hxc : x_before (x_create x) = x_before x /\ x_lines (x_create x) = x_lines x /\ x_bytes (x_create x) = x_bytes x /\ x_line (x_create x) = x_line x /\
      x_toks (x_create x) = x_toks x /\ x_reg (x_create x) = x_reg x /\ x_names (x_create x) = x_names x).
    { unfold x_create. destruct (x_on x) eqn:Ex; [done|]. destruct (sr_off _ _ _ _ R Ex) as (-> & -> & ->). done. }
    destruct Hxc as (K1 & K2 & K3 & K4 & K5 & K6 & K7).
    assert (Hroom : line_room (created (g_of l x nm)) len).
    { rewrite Hcr. unfold line_room, g_of. cbn [g_before g_lines g_bytes g_line]. rewrite K1, K2, K3, K4. unfold is_int in *. lia. }
    pose proof (line_any al w G _ _ s rest len I Hal Hs Hlen Hroom) as Hc. cbn [g_of g_lines g_before] in Hc.
    destruct (src_line al w (s ++ 0%N :: rest) len) as [[w' a]| | | |] eqn:E; try done; cbn [mbind res_bind].
    + destruct Hc as (_ & Hn & [r Hr] & Hp). rewrite decide_False by done. cbn [c_read]. unfold str_at. rewrite (hget_Some _ _ _ Hr). rb.
      rewrite c_string_spec by (by apply tabless_ok). rb. cbn [call_ok]. split; [|done]. exists G, nm.
      constructor; cbn [fst snd x_reg x_names x_toks x_on]; try done; [|rewrite K5; apply R|apply R|rewrite Hp, K7; apply R].
      pose proof (src_step _ _ _ _ _ _ _ _ H (sc_line al w G _ _ s rest len w' a Hal Hs Hlen Hroom E)) as H'.
      unfold lined in H'. rewrite Hcr in H'. rewrite K6. exact H'.
    + destruct (decide _); done.
    + by rewrite decide_True.
  - (* file *)
    destruct Hl as (Hal & Hs & Hr). pose proof (room_of _ _ _ _ (sr_names _ _ _ _ R) Hr) as Hroom. cbn [snd] in Hroom.
    pose proof (new_file_step al w G _ _ s rest H Hal Hs Hroom) as Hc.
    destruct (src_new_file al w (s ++ 0%N :: rest)) as [w'| | | |] eqn:E; try done; cbn [mbind res_bind]. destruct Hc as (G' & a & H' & Hf).
    cbn [call_ok]. split; [|done]. exists G', true. constructor; cbn [fst snd x_file_is x_name x_move x_reg x_toks x_on x_lines x_bytes]; try apply R.
    + exact H'.
    + cbn [x_names]. exact (gfind_names _ _ _ _ _ _ _ _ _ (lineage _ _ _ _ I) (sal_str _ Hal) Hs Hroom Hf (sr_names _ _ _ _ R)).
  - (* new line *)
    cbn [call_ok]. split; [|done]. exists G, nm. constructor; cbn [fst snd x_move x_reg x_toks x_on x_lines x_bytes x_names]; try apply R.
    exact (src_step _ _ _ _ _ _ _ _ H (sc_number w G _ _ l0 Hl)).
  - (* advance *)
    assert (E : exists w', src_advance w n = Ret w' /\ w_prs w' = w_prs w).
    { unfold src_advance. rewrite (n_offset _ _ _ _ I). cbn [g_of g_offset]. rewrite (sint_in (x_offset x + n)) by done. rb. eauto. }
    destruct E as (w' & E & Ep). rewrite E. rb. cbn [call_ok]. split; [|done]. exists G, nm.
    constructor; cbn [fst snd x_move x_reg x_toks x_on x_lines x_bytes x_names]; try apply R; [|rewrite Ep; apply R].
    exact (src_step _ _ _ _ _ _ _ _ H (sc_advance w G _ _ n w' E)).
  - (* cpp line *)
    destruct Hl as (Hal & Hfb & Hs & Hlen & Hn & Hline & Hws).
    assert (Hroom : forall v0 v1 v2 vs, ws = v0 :: v1 :: v2 :: vs -> name_room (rw (w_prs w)) G v2).
    { intros v0 v1 v2 vs ->. destruct Hws as [_ Hr]. exact (room_of _ _ _ _ (sr_names _ _ _ _ R) Hr). }
    pose proof (cpp_step al w G _ _ src n s ws H Hal Hfb Hs Hlen Hn Hline Hroom) as Hc. destruct ws as [|v0 [|v1 vs]].
    + destruct Hc as [->|[-> Ha]]; cbn [mbind res_bind call_ok]; [done|by left].
    + destruct Hc as [->|[-> Ha]]; cbn [mbind res_bind call_ok]; [done|by left].
    + destruct Hws as [Hz Hv]. specialize (Hc z Hz). destruct (src_cpp_line al w src n) as [w'| | | |] eqn:E; try done; cbn [mbind res_bind].
      * destruct Hc as [Hi Hc]. rewrite decide_True by exact Hi. cbn [call_ok]. split; [|done]. destruct vs as [|v2 vs].
        -- destruct Hc as [H' Hp]. exists G, nm. constructor; cbn [fst snd x_move x_reg x_toks x_on x_lines x_bytes x_names]; try apply R; [exact H'|rewrite Hp; apply R].
        -- destruct Hc as (G' & a & H' & Hv2 & Hf). exists G', true.
           constructor; cbn [fst snd x_file_is x_name x_move x_reg x_toks x_on x_lines x_bytes x_file x_line x_offset]; try apply R; [exact H'|].
           cbn [x_names]. exact (gfind_names _ _ _ _ _ _ _ _ _ (lineage _ _ _ _ I) (sal_str _ Hal) Hv2 (Hroom _ _ _ _ eq_refl) Hf (sr_names _ _ _ _ R)).
      * destruct (decide _); done.
      * by rewrite decide_False by exact Hc.
  - (* get *)
    destruct Hl as (Hal & Hn & Ho & Hsz). destruct (x_on x) eqn:Ex.
    2: { unfold src_get. by rewrite (off_lines l w x G nm R Ex). }
    assert (Hr : token_room (g_of l x nm) n).
    { split; [|exact Ho]. cbn [g_of g_toks]. rewrite tok_map_size by apply R. exact Hsz. }
    pose proof (get_inv al w G _ _ n I Hal (proj2 (exists_lines _ _ _ _ I) Ex) Hr) as Hc.
    destruct (src_get al w n) as [[w' a]| | | |] eqn:E; cbn [ok] in Hc; try done; cbn [mbind res_bind]. destruct Hc as (_ & Hna & _ & Hp). cbn [call_ok].
    pose proof (sr_len _ _ _ _ R) as Hlen. cbn [fst] in Hlen. cbn [g_of g_toks] in Hna. split; [|by rewrite Hlen]. exists G, nm.
    constructor; cbn [fst snd x_reg x_toks x_on x_names]; try done.
    + pose proof (src_step _ _ _ _ _ _ _ _ H (sc_get al w G _ _ n w' a Hal Hr Hn E)) as H'. unfold took in H'.
      cbn [g_of g_exists g_file g_line g_offset g_before g_lines g_bytes g_toks g_named] in H'. rewrite tok_map_add in H' by done. rewrite Ex in H'. exact H'.
    + rewrite !app_length. cbn [length]. lia.
    + apply NoDup_app. split; [apply R|]. split; [|apply NoDup_singleton]. intros b Hb ->%elem_of_list_singleton. by eapply tok_map_fresh in Hb.
    + rewrite Hp. apply R.
  - (* filename *)
    apply (tok_call l w x G nm R (call_ok eq scan sR (SFilename k))); [done| |].
    + unfold src_filename, field. destruct (x_on x) eqn:Ex; [destruct (on_lines l w x G nm R Ex) as [v ->]|rewrite (off_lines l w x G nm R Ex)]; rb; done.
    + intros i a t _ _ Ha ->. destruct (tok_get w G _ _ I a t Ha) as (y & Hy & [v Hv] & T). unfold src_filename, field. rewrite Hv, Hy. rb.
      pose proof (file_get w G _ _ I t y T) as Hf. pose proof (tk_file _ _ _ _ _ T) as Hf2. destruct (k_file t) as [f|].
      * destruct Hf2 as (p & q & b & _ & _ & Eb & _). rewrite Eb in Hf |- *. cbn [c_read]. rewrite Hf. by rb.
      * cbn [file_ok] in Hf2. rewrite Hf2. cbn [c_read]. by rb.
  - apply (tok_call l w x G nm R (call_ok eq scan sR (SLinenumber k))); [done| |].
    + unfold src_linenumber, field. destruct (x_on x) eqn:Ex; [destruct (on_lines l w x G nm R Ex) as [v ->]|rewrite (off_lines l w x G nm R Ex)]; rb; done.
    + intros i a t _ _ Ha ->. destruct (tok_get w G _ _ I a t Ha) as (y & Hy & [v Hv] & T). unfold src_linenumber, field. rewrite Hv, Hy. rb.
      by rewrite (tk_line _ _ _ _ _ T).
  - apply (tok_call l w x G nm R (call_ok eq scan sR (SOffset k))); [done| |].
    + unfold src_offset, field. destruct (x_on x) eqn:Ex; [destruct (on_lines l w x G nm R Ex) as [v ->]|rewrite (off_lines l w x G nm R Ex)]; rb; done.
    + intros i a t _ _ Ha ->. destruct (tok_get w G _ _ I a t Ha) as (y & Hy & [v Hv] & T). unfold src_offset, field. rewrite Hv, Hy. rb.
      by rewrite (tk_offset _ _ _ _ _ T).
  - apply (tok_call l w x G nm R (call_ok eq scan sR (SLength k))); [done| |].
    + unfold src_length, field. destruct (x_on x) eqn:Ex; [destruct (on_lines l w x G nm R Ex) as [v ->]|rewrite (off_lines l w x G nm R Ex)]; rb; done.
    + intros i a t _ _ Ha ->. destruct (tok_get w G _ _ I a t Ha) as (y & Hy & [v Hv] & T). unfold src_length, field. rewrite Hv, Hy. rb.
      by rewrite (tk_length _ _ _ _ _ T).
  - (* source line *)
    apply (tok_call l w x G nm R (call_ok eq scan sR (SSourceLine k))); [done| |].
    + unfold src_source_line, field. destruct (x_on x) eqn:Ex; [destruct (on_lines l w x G nm R Ex) as [v ->]|rewrite (off_lines l w x G nm R Ex)]; rb; done.
    + intros i a t -> Hi Ha ->. destruct (tok_get w G _ _ I a t Ha) as (y & Hy & [v Hv] & T). unfold src_source_line, field. rewrite Hv, Hy. rb.
      pose proof (line_get w G _ _ I a t Ha y T Hy (text_or l x nm i t Hl Hi)) as Hc.
      destruct (line_at w (t_index y)) as [p| | | |]; cbn [mbind res_bind] in Hc |- *; try (destruct (k_text t); done). cbn [c_read].
      destruct (str_at (mblk (w_text w)) (Some p)) as [s| | | |]; cbn [mbind res_bind] in Hc |- *; try (destruct (k_text t); done).
      destruct (k_text t) as [s'|]; [by injection Hc as ->|done].
  - (* parse error *)
    destruct Hl as (Hk & Hs & Hm).
    assert (Hyy : match m with
      | Some m => exists p', yy_loop (S (length (s ++ 0%N :: rest))) (w_prs w) (s ++ 0%N :: rest) = Ret (p', m) /\ prs_history p' G (x_reg x) /\ rw p' = rw (w_prs w)
      | None => yy_loop (S (length (s ++ 0%N :: rest))) (w_prs w) (s ++ 0%N :: rest) = UB end).
    { destruct m as [m|].
      - exact (yy_ok _ s m Hm (w_prs w) G (S (length (s ++ 0%N :: rest))) rest (n_prs _ _ _ _ I) Hs ltac:(rewrite app_length; lia)).
      - destruct Hm as [Hm ->]. exact (runaway_ub s Hm (w_prs w) G _ (S (length (s ++ [0%N]))) (n_prs _ _ _ _ I) Hs ltac:(rewrite app_length; cbn [length]; lia)). }
    apply (tok_call l w x G nm R (call_ok eq scan sR (SParseError st k s rest m))); [done| |].
    + unfold src_parse_error, SourceModel.head. cbn [x_place]. rb. unfold print_yyerror. destruct m as [m|]; [|by rewrite Hyy].
      destruct Hyy as (p' & E & Hp' & Hr). rewrite E. rb. cbn [call_ok]. split; [|cbn; by rewrite <- ?app_assoc].
      assert (Eo : src_parse_error w st None (Some (s ++ 0%N :: rest)) = Ret (set_prs w p', (out_of st, text "?:?: " ++ m ++ [10%N] ++ (text "?:?: <source line not available>" ++ [10%N]) ++ text "?:?: " ++ [10%N]))).
      { unfold src_parse_error, SourceModel.head. rb. unfold print_yyerror. rewrite E. by rb. }
      exists G, nm. constructor; cbn [fst snd]; try apply R; [|cbn [set_prs w_prs]; rewrite Hr; apply R].
      eapply src_step; [exact H|]. by eapply sc_error.
    + intros i a t -> Hi Ha Hx. unfold src_parse_error. rewrite (head_get w G _ _ I a t Ha). destruct (x_place (Some t)) as [h| | | |] eqn:Eh; try done; cbn [mbind res_bind].
      2: cbn [x_place] in Eh; destruct (k_file t); done.
      unfold print_yyerror. destruct m as [m|]; [|by rewrite Hyy]. destruct Hyy as (p' & E & Hp' & Hr). rewrite E. cbn [mbind res_bind].
      assert (I' : src_inv (set_prs w p') G (x_reg x) (g_of l x nm)) by (apply (prs_inv_step w G _ _ p' G _ I Hp'); intros fp name _; by rewrite Hr).
      rewrite (carets_get _ G _ _ I' a t Ha (text_or l x nm i t Hk Hi)). destruct (x_carets (Some t)) as [e| | | |] eqn:Ee; cbn [mbind res_bind]; try done.
      * cbn [call_ok]. split; [|done]. exists G, nm. constructor; cbn [fst snd]; try apply R; [|cbn [set_prs w_prs]; rewrite Hr; apply R].
        eapply src_step; [exact H|]. eapply (sc_error w G _ _ st (Some a) s rest (out_of st, h ++ m ++ [10%N] ++ e) m); [done|done|].
        unfold src_parse_error. rewrite (head_get w G _ _ I a t Ha), Eh. cbn [mbind res_bind]. unfold print_yyerror. rewrite E. cbn [mbind res_bind].
        rewrite (carets_get _ G _ _ I' a t Ha (text_or l x nm i t Hk Hi)), Ee. done.
      * unfold x_carets, x_quote in Ee. rewrite Eh in Ee. cbn [mbind res_bind] in Ee. destruct (k_text t); done.
  - (* print line *)
    apply (tok_call l w x G nm R (call_ok eq scan sR (SPrintLine k))); [done| |].
    + cbn. done.
    + intros i a t -> Hi Ha Hx. rewrite (quote_get w G _ _ I a t Ha (text_or l x nm i t Hl Hi)).
      unfold x_quote. cbn [x_place]. destruct (k_file t); [|done]. cbn [mbind res_bind]. destruct (k_text t); done.
  - (* print error *)
    apply (tok_call l w x G nm R (call_ok eq scan sR (SPrintError st k formatted))); [done| |].
    + destruct formatted; cbn; rewrite <- ?app_assoc; done.
    + intros i a t -> Hi Ha Hx. unfold src_print_error. rewrite (head_get w G _ _ I a t Ha), (carets_get w G _ _ I a t Ha (text_or l x nm i t Hl Hi)).
      unfold x_carets, x_quote. cbn [x_place]. destruct formatted; (destruct (k_file t); [|done]); cbn [mbind res_bind]; destruct (k_text t); done.
  - (* print message *)
    apply (tok_call l w x G nm R (call_ok eq scan sR (SPrintMessage st k formatted))); [done| |].
    + destruct formatted; cbn; done.
    + intros i a t -> Hi Ha Hx. unfold src_print_message. rewrite (head_get w G _ _ I a t Ha).
      cbn [x_place]. destruct formatted; (destruct (k_file t); done).
  - (* register *)
    destruct Hl as (Hal & Hsym & Hcon & Hr). pose proof (roomy_of _ _ _ _ _ (sr_names _ _ _ _ R) Hr) as Hroom. cbn [snd] in Hroom.
    destruct (register_ok first al (w_prs w) G _ sym con r1 r2 (prs_history_inv _ _ _ (n_prs _ _ _ _ I)) Hal Hsym Hcon Hroom) as [Hc _].
    destruct (prs_register_concrete first al (w_prs w) (sym ++ 0%N :: r1) (con ++ 0%N :: r2)) as [p'| | | |] eqn:E; try done; cbn [mbind res_bind].
    destruct Hc as (q1 & q2 & a1 & a2 & w1 & G1 & G' & Exy & F1 & F2).
    pose proof (src_step _ _ _ _ _ _ _ _ H (sc_register first al w G _ _ sym con r1 r2 p' q1 q2 a1 a2 w1 G1 G' Hal Hsym Hcon Hroom E Exy F1 F2)) as H'.
    cbn [call_ok]. split; [|done]. exists G', nm.
    assert (Hnames : names_of (rw p') G' (if first then add_name con (add_name sym (x_names x)) else add_name sym (add_name con (x_names x)))).
    { assert (Hgo : forall s1 t1 s2 t2, str_ok s1 -> str_ok s2 -> Z.of_nat (length s1) + Z.of_nat (length s2) = Z.of_nat (length sym) + Z.of_nat (length con) ->
        gfind al (rw (w_prs w), G) (s1, t1) a1 (w1, G1) -> gfind al (w1, G1) (s2, t2) a2 (rw p', G') -> names_of (rw p') G' (add_name s2 (add_name s1 (x_names x)))).
      { intros s1 t1 s2 t2 Hs1 Hs2 Hsum K1 K2. destruct Hr as [Hr1 Hr2].
        assert (Hn1 : name_room (rw (w_prs w)) G s1) by (apply (room_of _ _ x); [apply R|]; unfold pool_room; lia).
        pose proof (gfind_names _ _ _ _ _ _ _ _ _ (lineage _ _ _ _ I) Hal Hs1 Hn1 K1 (sr_names _ _ _ _ R)) as N1.
        assert (E1 : str_find al (rw (w_prs w)) (s1 ++ 0%N :: t1) = Ret (w1, a1)) by (by inversion K1).
        destruct (gfind_inv al _ G s1 t1 a1 w1 G1 (lineage _ _ _ _ I) Hal Hs1 Hn1 E1 K1) as (Hh1 & _).
        assert (Hn2 : name_room w1 G1 s2).
        { intros q Hq _. destruct (N1 q Hq) as (E2 & _ & E3 & E4). split; [done|]. unfold room. rewrite E3, E4. unfold add_name.
          destruct (decide _); [lia|]. cbn [length nbytes foldr]. fold (nbytes (x_names x)). lia. }
        exact (gfind_names _ _ _ _ _ _ _ _ _ Hh1 Hal Hs2 Hn2 K2 N1). }
      destruct first; injection Exy as -> ->; [by apply (Hgo sym r1 con r2)|]. apply (Hgo con r2 sym r1); try done. lia. }
    destruct first; (constructor; cbn [fst snd x_name x_reg x_toks x_on x_lines x_bytes]; try apply R; [exact H'|exact Hnames]).
  - (* concrete *)
    destruct (concrete_ok (w_prs w) G _ sym rest (prs_history_inv _ _ _ (n_prs _ _ _ _ I)) Hl) as (p' & r & E & _ & Hr & Hres).
    rewrite E. cbn [mbind res_bind].
    assert (HR' : sR (l, set_prs w p') x).
    { exists G, nm. constructor; cbn [fst snd]; try apply R; [|cbn [set_prs w_prs]; rewrite Hr; apply R].
      exact (src_step _ _ _ _ _ _ _ _ H (sc_concrete w G _ _ sym rest p' r Hl E)). }
    destruct (first_concrete sym (x_reg x)) as [c|].
    + destruct Hres as (d & pp & q & -> & Hgl & Hq & Hin). cbn [c_read]. rewrite Hr. unfold str_at.
      destruct (int_memory _ _ (lineage _ _ _ _ I) pp q Hq c d Hin) as [Hc [rr Hm]]. rewrite (hget_Some _ _ _ Hm). rb. rewrite c_string_spec by done. by rb.
    + subst r. cbn [c_read]. by rb.
  - (* stats *)
    rewrite (C71_stats _ _ _ _ H). rb. cbn [call_ok]. split; [done|]. cbn [g_of g_exists g_before g_lines g_bytes g_toks].
    rewrite tok_map_size by apply R. done.
Qed.
(** what is left in memory: nothing of the lines and tokens once the manager is destroyed, and no
    argument list *)
Definition released (w : srcw) : Prop :=
  mblk (w_text w) = ∅ /\ minf (w_text w) = ∅ /\ stks (msh (w_text w)) = ∅ /\ nodes (msh (w_text w)) = ∅ /\
  oblk (w_tok w) = ∅ /\ oinf (w_tok w) = ∅ /\ stks (osh (w_tok w)) = ∅ /\ nodes (osh (w_tok w)) = ∅.
Definition no_args (w : srcw) : Prop := args (w_arg w) = ∅ /\ mblk (amem (w_arg w)) = ∅ /\ minf (amem (w_arg w)) = ∅ /\
  stks (msh (amem (w_arg w))) = ∅ /\ nodes (msh (amem (w_arg w))) = ∅.
Lemma off_released l w x : sR (l, w) x -> x_on x = false -> released w.
Proof.
  intros (G & nm & R) Hx. pose proof (history_inv _ _ _ _ (sr_hist _ _ _ _ R)) as I. cbn [snd fst] in I.
  pose proof (n_mem _ _ _ _ I) as Hm. rewrite (off_lines l w x G nm R Hx) in Hm. destruct (d_text _ _ Hm) as [M IM]. destruct (d_tok _ _ Hm) as [Mo IO].
  assert (Hinf : minf (w_text w) = ∅).
  { apply map_empty. intros i. apply eq_None_not_Some. rewrite (mi_dom _ _ _ IM), lookup_empty. by intros [? ?]. }
  assert (HM : forall s, M !! s = None).
  { intros s. apply eq_None_not_Some. intros Hs. destruct (mi_stkall _ _ _ IM s Hs) as (i & y & Hy & _). by rewrite Hinf, lookup_empty in Hy. }
  assert (Hoinf : oinf (w_tok w) = ∅).
  { apply map_empty. intros i. apply eq_None_not_Some. rewrite (oi_dom _ _ _ _ IO), lookup_empty. by intros [? ?]. }
  assert (HMo : forall s, Mo !! s = None).
  { intros s. apply eq_None_not_Some. intros Hs. destruct (oi_stkall _ _ _ _ IO s Hs) as (i & y & Hy & _). by rewrite Hoinf, lookup_empty in Hy. }
  unfold released. split.
  { apply map_empty. intros a. apply eq_None_not_Some. intros Ha. destruct (mi_blkall _ _ _ IM a Ha) as (s & L & HL & _). by rewrite HM in HL. }
  split; [done|]. split.
  { apply map_empty. intros s. apply eq_None_not_Some. rewrite (si_dom _ _ (mi_stk _ _ _ IM)), HM. by intros [? ?]. }
  split. { apply map_empty. intros a. apply eq_None_not_Some. intros Ha. destruct (si_all _ _ (mi_stk _ _ _ IM) a Ha) as (s & L & HL & _). by rewrite HM in HL. }
  split. { apply map_empty. intros a. apply eq_None_not_Some. intros Ha. destruct (oi_blkall _ _ _ _ IO a Ha) as (i & y & Hy & _). by rewrite lookup_empty in Hy. }
  split; [done|]. split.
  { apply map_empty. intros s. apply eq_None_not_Some. rewrite (si_dom _ _ (oi_stk _ _ _ _ IO)), HMo. by intros [? ?]. }
  apply map_empty. intros a. apply eq_None_not_Some. intros Ha. destruct (si_all _ _ (oi_stk _ _ _ _ IO) a Ha) as (s & L & HL & _). by rewrite HMo in HL.
Qed.
Lemma sources_ok cs : lawful sspec slegal x_start cs ->
  refines eq scan (fun st x => no_args st.2 /\ (x_on x = false -> released st.2)) cs (run sstep ([], src_start) cs) (run sspec x_start cs).
Proof.
  intros Hl. eapply refines_Q; [|apply (run_refines sstep sspec eq scan slegal sR src_step_ok cs _ _ sr_start Hl)].
  intros [l w] x HR. split; [|by apply (off_released l w x)].
  destruct HR as (G & nm & R). pose proof (history_inv _ _ _ _ (sr_hist _ _ _ _ R)) as I. exact (C40_no_leak _ (n_arg _ _ _ _ I)).
Qed.
