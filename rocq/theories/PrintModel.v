(** Model of the functions that print: statistics (hash.c, set.c, memory.c, string.c), hsh_key_strings (hash.c) and
    lst_dump (list.c).  fprintf is taken to write what its format says; that a write may fail is not modelled, as the
    code never looks at the result. *)
From Verif Require Import Base CStr StackModel ObjModel MemModel ListModel PrimeModel HashModel SetModel HashFnModel HashFnProofs StrModel.
From Coq Require Import String Ascii.
Notation length := List.length.
Local Open Scope Z_scope.

(** what is written: a byte; %p of a pointer; %.1f of (double)a / (double)b (neither is spelled out) *)
Inductive sym := B (c : N) | Addr (p : ptr) | Ratio (a b : N).
(** a FILE * that is not NULL, or stdout *)
Inductive target := ToStdout | ToStream (n : nat).
Global Instance sym_eq_dec : EqDecision sym.
Proof. solve_decision. Defined.
Global Instance target_eq_dec : EqDecision target.
Proof. solve_decision. Defined.
(** FILE *str = stream ? stream : stdout (hash.c:461, set.c:781, memory.c:228, memory.c:383, string.c:269) *)
Definition target_of (stream : option nat) : target := match stream with None => ToStdout | Some n => ToStream n end.
(** a literal part of a format; "\n" is [nl] *)
Definition lit (s : string) : list sym := (fun c => B (N_of_ascii c)) <$> list_ascii_of_string s.
Definition nl : list sym := [B 10].
(** %lu and %d *)
Definition lu (n : N) : list sym := B <$> digits (S (N.to_nat (N.size n))) n.
Definition pd (z : Z) : list sym := B <$> ((if (z <? 0)%Z then [45%N] else []) ++ digits (S (N.to_nat (N.size (Z.abs_N z)))) (Z.abs_N z)).

(** hsh_print_stats (hash.c:459-481) and set_print_stats (set.c:778-800), which differ in [what]; [self]: the address
    of the table *)
Definition stats_text (what : string) (self : ptr) (s : hstats) : list sym :=
  lit "Statistics for " ++ lit what ++ lit " at " ++ [Addr self] ++ lit ":" ++ nl ++
  lit "   " ++ lu (s_resizings s) ++ lit " resizings to " ++ lu (s_size s) ++ lit " total" ++ nl ++
  lit "   " ++ lu (s_entries s) ++ lit " entries (" ++ lu (s_buckets_used s) ++ lit " buckets used, " ++
    lu (s_singletons s) ++ lit " without overflow)" ++ nl ++
  lit "   maximum list length is " ++ lu (s_maximum_length s) ++
  (if negb (s_buckets_used s =? 0)%N
   then lit " (optimal is " ++ [Ratio (s_entries s) (s_buckets_used s)] ++ lit ")" ++ nl
   else nl) ++
  lit "   " ++ lu (s_retrievals s) ++ lit " retrievals (" ++ lu (s_hits s) ++ lit " from top, " ++
    lu (s_misses s) ++ lit " failed)" ++ nl.
(** hash.c:459-481 *)
Definition hsh_print_stats {K D} (al : halloc K D) (self : ptr) (t : hst K D) (stream : option nat) : res (target * list sym) :=
  s ← hsh_get_stats al t;
  _ ← hsh_check (tab t);
  Ret (target_of stream, stats_text "hash table" self s).
(** set.c:778-800 *)
Definition set_print_stats {K} (al : halloc K unit) (self : ptr) (t : hst K unit) (stream : option nat) : res (target * list sym) :=
  s ← set_get_stats al t; Ret (target_of stream, stats_text "set" self s).

(** mem_print_string_stats (memory.c:226-237) *)
Definition mem_print_string_stats (mem : bool) (w : mworld) (info : ptr) (stream : option nat) : res (target * list sym) :=
  '(c, b) ← mem_get_string_stats mem w info;
  Ret (target_of stream,
    lit "Statistics for string memory manager at " ++ [Addr info] ++ lit ":" ++ nl ++
    lit "   " ++ pd c ++ lit " strings, using " ++ pd b ++ lit " bytes" ++ nl).

(** mem_print_object_stats (memory.c:381-395) *)
Definition mem_print_object_stats {V} (mem : bool) (w : oworld V) (info : ptr) (stream : option nat) : res (target * list sym) :=
  '(t, u, r, _) ← mem_get_object_stats mem w info;
  Ret (target_of stream,
    lit "Statistics for object memory manager at " ++ [Addr info] ++ lit ":" ++ nl ++
    lit "   " ++ pd t ++ lit " objects allocated, of which " ++ pd u ++ lit " are in use" ++ nl ++
    lit "   " ++ pd r ++ lit " objects have been reused" ++ nl).

(** str_pool_print_stats (string.c:267-278) *)
Definition str_pool_print_stats (mem : bool) (al : palloc) (w : pworld) (pool : ptr) (stream : option nat) : res (target * list sym) :=
  '(c, b, r, h, m) ← str_pool_get_stats mem al w pool;
  Ret (target_of stream,
    lit "Statistics for " ++ (if bool_decide (pool = glob w) then lit "global " else []) ++ lit "string pool at " ++
      [Addr pool] ++ lit ":" ++ nl ++
    lit "   " ++ pd c ++ lit " strings using " ++ pd b ++ lit " bytes" ++ nl ++
    lit "   " ++ pd r ++ lit " retrievals (" ++ pd h ++ lit " from top, " ++ pd m ++ lit " failed)" ++ nl).
(** str_print_stats (string.c:405-408) *)
Definition str_print_stats (mem : bool) (al : palloc) (w : pworld) (stream : option nat) : res (target * list sym) :=
  str_pool_print_stats mem al w (glob w) stream.

(** _hsh_key_strings (hash.c:394-405) on a key that is not NULL; the user state is what was printed and the static i;
    i += strlen(s)+2 is done in size_t and stored in an int *)
Definition key_strings_cb {D} : iterator skey D (list sym * Z) :=
  fun k _ '(t, (out, i)) =>
    let s := proj1_sig k in
    let i' := to_int (Z.of_N (u64 (Z.to_N (i mod 2 ^ 64) + N.of_nat (length s) + 2))) in
    let out' := out ++ (B <$> s) ++ lit "  " in
    if (60 <=? i')%Z then Ret (t, (out' ++ nl, 0), 0) else Ret (t, (out', i'), 0).
(** hsh_key_strings (hash.c:407-411), for tables with string keys; _hsh_key_strings(NULL,NULL) sets i = 0 (hash.c:398) *)
Definition hsh_key_strings {D} (fuel : nat) (t : hst skey D) : res (hst skey D * list sym) :=
  '(t', (out, _), _) ← hsh_iterate fuel key_strings_cb t ([], 0);
  Ret (t', out ++ nl).

(** _lst_dump_node (list.c:463-467) *)
Definition dump_node (out : list sym) (w : lworld) (d : ptr) : res (list sym * lworld * Z) :=
  Ret (out ++ lit " 0x" ++ [Addr d] ++ nl, w, 0).
(** lst_dump (list.c:469-472) *)
Definition lst_dump (fuel : nat) (w : lworld) (l : ptr) : res (list sym * lworld) :=
  '(out, w', _) ← lst_iterate dump_node fuel [] w l; Ret (out, w').
