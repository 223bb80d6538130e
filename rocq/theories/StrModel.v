(** Model of maa/string.c: string pools made of a string memory (MemModel) and a
    hash table (HashModel) with the default string functions. *)
From Verif Require Import Base CStr StackModel ObjModel MemModel PrimeModel HashModel HashFnModel HashFnProofs.
Local Open Scope Z_scope.

(** A key of the table is a [const char *]: its address ([None] for the user's own
    string, never stored) and the string found there when the key was handed to
    hsh_*.  [keys_live] below makes every later call undefined unless the string is
    still there, so hashing and comparing by [kstr] is reading the memory. *)
Record key := Key { kaddr : ptr; kstr : skey }.
Definition kval (k : key) : list N := proj1_sig (kstr k).
(** hash.c:127-133 with NULL arguments: hsh_string_hash, hsh_string_compare
    (HashFnProps: string_env is what they compute) *)
Definition penv : henv key ptr :=
  HE (fun k => strhash (kval k)) (fun a b => CStr.scmp (kval a) (kval b)) None.

(** struct poolInfo (string.c:41-44) *)
Record pool := Pool { pstr : positive; phash : hst key ptr }.
(** the heap, the static [global] (string.c:39) and the static [i] of str_unique
    (string.c:370) *)
Record pworld := PW { pmem : mworld; pools : gmap positive pool; glob : ptr; uniq : Z }.
Definition pempty : pworld := PW mempty ∅ None 1.

(** malloc during one call *)
Record palloc := PA {
  pa_pool : gmap positive pool -> option positive;
  pa_mem : malloc;
  pa_hash : halloc key ptr }.

(** the bytes at [a] are a string equal to [s] *)
Definition reads (bl : gmap positive (list N)) (a : positive) (s : list N) : bool :=
  match bl !! a with
  | Some b => match c_string b with Ret s' => bool_decide (s' = s) | _ => false end
  | None => false
  end.
Definition keys_live (bl : gmap positive (list N)) (t : hst key ptr) : bool :=
  forallb (fun b => match kaddr (bkey b) with Some a => reads bl a (kval (bkey b)) | None => false end)
          (map_to_list (heap t)).*2.
(** the key made of a pointer and the string it points to *)
Definition mk_key (a : ptr) (s : list N) : res key :=
  match decide (str_ok s) with left H => Ret (Key a (exist _ s H)) | right _ => UB end.
Definition key_at (bl : gmap positive (list N)) (a : positive) : res key :=
  b ← hget bl a; s ← c_string b; mk_key (Some a) s.

(** p->hash and p->string of a pool pointer; NULL is undefined *)
Definition upd_hash (w : pworld) (p : positive) (x : pool) (t : hst key ptr) : pworld :=
  PW (pmem w) (<[p := Pool (pstr x) t]> (pools w)) (glob w) (uniq w).
Definition upd_mem (w : pworld) (m : mworld) : pworld := PW m (pools w) (glob w) (uniq w).
Definition ppool (w : pworld) (p : ptr) : res (positive * pool) :=
  match p with None => UB | Some a => x ← hget (pools w) a; Ret (a, x) end.

(** str_pool_create (string.c:48-56) *)
Definition str_pool_create (al : palloc) (w : pworld) : res (pworld * positive) :=
  match pa_pool al (pools w) with
  | None => Fatal
  | Some p =>
      '(m, i) ← mem_create_strings (pa_mem al) (pmem w);
      t ← hsh_create (pa_hash al);
      Ret (PW m (<[p := Pool i t]> (pools w)) (glob w) (uniq w), p)
  end.

(** str_pool_destroy (string.c:61-71); the table nodes that would be left over are
    returned *)
Definition str_pool_destroy (w : pworld) (p : ptr) : res (pworld * bheap key ptr) :=
  match p with
  | None => Fatal
  | Some a =>
      x ← hget (pools w) a;
      m ← mem_destroy_strings (pmem w) (pstr x);
      H ← hsh_destroy (phash x);
      ps ← hfree (pools w) a;
      Ret (PW m ps (glob w) (uniq w), H)
  end.

(** hsh_retrieve(p->hash, s) with the user's string [s] *)
Definition pool_retrieve (w : pworld) (a : positive) (x : pool) (s : list N) : res (pworld * ptr) :=
  str ← c_string s;
  k ← mk_key None str;
  if keys_live (mblk (pmem w)) (phash x) then
    '(t, d) ← hsh_retrieve penv (phash x) k; Ret (upd_hash w a x t, d)
  else UB.
(** hsh_insert(p->hash, datum, datum) with a string of the pool; the result is ignored *)
Definition pool_insert (al : palloc) (w : pworld) (a : positive) (datum : positive) : res pworld :=
  x ← hget (pools w) a;
  k ← key_at (mblk (pmem w)) datum;
  if keys_live (mblk (pmem w)) (phash x) then
    '(t, _) ← hsh_insert penv (pa_hash al) (phash x) k (Some datum); Ret (upd_hash w a x t)
  else UB.

(** str_pool_exists (string.c:76-83) *)
Definition str_pool_exists (w : pworld) (p : ptr) (s : list N) : res (pworld * Z) :=
  '(a, x) ← ppool w p;
  '(w1, d) ← pool_retrieve w a x s;
  Ret (w1, match d with Some _ => 1 | None => 0 end).

(** str_pool_find (string.c:91-101) *)
Definition str_pool_find (al : palloc) (w : pworld) (p : ptr) (s : list N) : res (pworld * positive) :=
  '(a, x) ← ppool w p;
  '(w1, d) ← pool_retrieve w a x s;
  match d with
  | Some d => Ret (w1, d)
  | None =>
      '(m, d) ← mem_strcpy (pa_mem al) (pmem w1) (pstr x) s;
      w3 ← pool_insert al (upd_mem w1 m) a d;
      Ret (w3, d)
  end.

(** str_pool_copy (string.c:182-187) *)
Definition str_pool_copy (al : palloc) (w : pworld) (p : ptr) (s : list N) : res (pworld * positive) :=
  '(a, x) ← ppool w p;
  '(m, d) ← mem_strcpy (pa_mem al) (pmem w) (pstr x) s;
  Ret (upd_mem w m, d).
(** str_pool_copyn (string.c:195-200) *)
Definition str_pool_copyn (al : palloc) (w : pworld) (p : ptr) (s : list N) (len : Z) : res (pworld * positive) :=
  '(a, x) ← ppool w p;
  '(m, d) ← mem_strncpy (pa_mem al) (pmem w) (pstr x) s len;
  Ret (upd_mem w m, d).
(** str_pool_grow (string.c:207-212) *)
Definition str_pool_grow (al : palloc) (w : pworld) (p : ptr) (s : list N) (len : Z) : res pworld :=
  '(a, x) ← ppool w p;
  m ← mem_grow (pa_mem al) (pmem w) (pstr x) s len;
  Ret (upd_mem w m).
(** str_pool_finish (string.c:220-230); the literal "\0" is two NUL bytes.  mem_finish
    returns the block just grown, so [None] cannot happen. *)
Definition str_pool_finish (al : palloc) (w : pworld) (p : ptr) : res (pworld * positive) :=
  '(a, x) ← ppool w p;
  m1 ← mem_grow (pa_mem al) (pmem w) (pstr x) [0; 0]%N 1;
  '(m2, d) ← mem_finish (pa_mem al) m1 (pstr x);
  match d with
  | None => UB
  | Some d => w3 ← pool_insert al (upd_mem w m2) a d; Ret (w3, d)
  end.

(** str_pool_init_position, str_pool_next_position, str_pool_get_position
    (string.c:158-175) *)
Definition str_pool_init_position (w : pworld) (p : ptr) : res (pworld * ptr) :=
  '(a, x) ← ppool w p; '(t, q) ← hsh_init_position (phash x); Ret (upd_hash w a x t, q).
Definition str_pool_next_position (w : pworld) (p : ptr) (pos : ptr) : res (pworld * ptr) :=
  '(a, x) ← ppool w p; '(t, q) ← hsh_next_position (phash x) pos; Ret (upd_hash w a x t, q).
(** the position is a node of the table of pool [p] *)
Definition str_pool_get_position (w : pworld) (p : ptr) (pos : ptr) : res ptr :=
  '(a, x) ← ppool w p; '(k, _) ← hsh_get_position penv (phash x) pos;
  Ret (match k with Some k => kaddr k | None => None end).

(** str_pool_iterate (string.c:111-128) and str_pool_iterate_arg (string.c:138-156), the
    loop HSH_ITERATE_KEYS (maa.h:166-169).  The callback gets the address of the string;
    it may call the library ([pworld]) and keep its own state [X]. *)
Section iterate.
Context {X : Type} (it : X -> pworld -> ptr -> res (X * pworld * Z)).
Fixpoint keys_loop (fuel : nat) (w : pworld) (p : ptr) (pos : ptr) (s : X) : res (X * pworld * bool) :=
  match pos with
  | None => Ret (s, w, false)
  | Some _ =>
      match fuel with
      | O => Diverge
      | S fuel' =>
          k ← str_pool_get_position w p pos;
          '(s1, w1, r) ← it s w k;
          if negb (r =? 0) then Ret (s1, w1, true) else
          '(w2, pos') ← str_pool_next_position w1 p pos;
          keys_loop fuel' w2 p pos' s1
      end
  end.
Definition str_pool_iterate (fuel : nat) (w : pworld) (p : ptr) (s : X) : res (X * pworld * Z) :=
  '(w0, pos) ← str_pool_init_position w p;
  '(s1, w1, stopped) ← keys_loop fuel w0 p pos s;
  Ret (s1, w1, if (stopped : bool) then 1 else 0).
Definition str_pool_iterate_arg (fuel : nat) (w : pworld) (p : ptr) (s : X) : res (X * pworld * Z) :=
  '(w0, pos) ← str_pool_init_position w p;
  '(s1, w1, stopped) ← keys_loop fuel w0 p pos s;
  if (stopped : bool) then
    '(a, x) ← ppool w1 p;
    '(t, _) ← HSH_ITERATE_END (phash x);
    Ret (s1, upd_hash w1 a x t, 1)
  else Ret (s1, w1, 0).
(** STR_ITERATE (maa.h:403-411) with body [it] (its result: non-zero is a break): the user's state, the heap and
    whether the loop was left early *)
Definition STR_ITERATE (fuel : nat) (w : pworld) (p : ptr) (s : X) : res (X * pworld * bool) :=
  '(w0, pos) ← str_pool_init_position w p; keys_loop fuel w0 p pos s.
End iterate.

(** str_pool_get_stats (string.c:235-263): count, bytes, retrievals, hits, misses, all int;
    [mem]: did the two small xmallocs succeed *)
Definition str_pool_get_stats (mem : bool) (al : palloc) (w : pworld) (p : ptr) : res (Z * Z * Z * Z * Z) :=
  if mem then
    match p with
    | None => Ret (0, 0, 0, 0, 0)
    | Some a =>
        x ← hget (pools w) a;
        '(c, b) ← mem_get_string_stats true (pmem w) (Some (pstr x));
        h ← hsh_get_stats (pa_hash al) (phash x);
        Ret (c, b, to_int (Z.of_N (s_retrievals h)), to_int (Z.of_N (s_hits h)), to_int (Z.of_N (s_misses h)))
    end
  else Fatal.

(** str_get_stats (string.c:396-399) *)
Definition str_get_stats (mem : bool) (al : palloc) (w : pworld) : res (Z * Z * Z * Z * Z) := str_pool_get_stats mem al w (glob w).

(** _str_check_global (string.c:280-283) *)
Definition check_global (al : palloc) (w : pworld) : res pworld :=
  match glob w with
  | Some _ => Ret w
  | None => '(w1, p) ← str_pool_create al w; Ret (PW (pmem w1) (pools w1) (Some p) (uniq w1))
  end.
(** string.c:288-291 *)
Definition str_exists (w : pworld) (s : list N) : res (pworld * Z) := str_pool_exists w (glob w) s.
(** string.c:299-303 *)
Definition str_find (al : palloc) (w : pworld) (s : list N) : res (pworld * positive) :=
  w1 ← check_global al w; str_pool_find al w1 (glob w1) s.
(** strncpy(tmp, s, n) into [n] bytes: up to n bytes of the string, NUL-padded; undefined if
    the object ends before a NUL and before n bytes *)
Fixpoint c_strncpy (s : list N) (n : nat) : res (list N) :=
  match n with
  | O => Ret []
  | S n' => match s with
            | [] => UB
            | b :: s' => if (b =? 0)%N then Ret (replicate n 0%N) else r ← c_strncpy s' n'; Ret (b :: r)
            end
  end.
(** str_findn (string.c:309-318); a negative length makes strncpy write out of bounds *)
Definition str_findn (al : palloc) (w : pworld) (s : list N) (len : Z) : res (pworld * positive) :=
  n ← sint (len + 1);
  w1 ← check_global al w;
  if len <? 0 then UB else
  tmp ← c_strncpy s (Z.to_nat len);
  str_pool_find al w1 (glob w1) (tmp ++ [0%N]).
(** string.c:326-330 *)
Definition str_copy (al : palloc) (w : pworld) (s : list N) : res (pworld * positive) :=
  w1 ← check_global al w; str_pool_copy al w1 (glob w1) s.
(** string.c:336-339 *)
Definition str_copyn (al : palloc) (w : pworld) (s : list N) (len : Z) : res (pworld * positive) :=
  str_pool_copyn al w (glob w) s len.
(** string.c:345-349 *)
Definition str_grow (al : palloc) (w : pworld) (s : list N) (len : Z) : res pworld :=
  w1 ← check_global al w; str_pool_grow al w1 (glob w1) s len.
(** string.c:357-361 *)
Definition str_finish (al : palloc) (w : pworld) : res (pworld * positive) :=
  w1 ← check_global al w; str_pool_finish al w1 (glob w1).
(** str_destroy (string.c:387-391) *)
Definition str_destroy (w : pworld) : res (pworld * bheap key ptr) :=
  match glob w with
  | None => Ret (w, ∅)
  | Some _ => '(w1, H) ← str_pool_destroy w (glob w); Ret (PW (pmem w1) (pools w1) None (uniq w1), H)
  end.

(** %d of sprintf for an int: at most ten digits *)
Fixpoint digits (fuel : nat) (n : N) : list N :=
  match fuel with
  | O => []
  | S f => if (n <? 10)%N then [48 + n]%N else digits f (n / 10) ++ [48 + n mod 10]%N
  end.
Definition c_itoa (z : Z) : list N :=
  if z <? 0 then 45%N :: digits 10 (Z.to_N (- z)) else digits 10 (Z.to_N z).
(** str_unique (string.c:368-377): the do loop, then str_find of the string.  It ends after at
    most one round per stored string, plus one. *)
Fixpoint unique_loop (fuel : nat) (w : pworld) (prefix : list N) : res (pworld * list N) :=
  match fuel with
  | O => Diverge
  | S fuel' =>
      let buf := prefix ++ c_itoa (uniq w) in
      i ← sint (uniq w + 1);
      if (length prefix + 100 <? length buf + 1)%nat then UB else   (* sprintf past the buffer *)
      '(w2, r) ← str_exists (PW (pmem w) (pools w) (glob w) i) (buf ++ [0%N]);
      if negb (r =? 0) then unique_loop fuel' w2 prefix else Ret (w2, buf)
  end.
Definition str_unique (al : palloc) (w : pworld) (prefix : list N) : res (pworld * positive) :=
  s ← c_string prefix;
  let fuel := S (match glob w with
                 | Some a => match pools w !! a with Some x => size (heap (phash x)) | None => 0%nat end
                 | None => 0%nat
                 end) in
  '(w1, buf) ← unique_loop fuel w s;
  str_find al w1 (buf ++ [0%N]).
