(** Model of maa/parse-concrete.c: a table from symbols to concrete names, both interned
    in the global string pool (StrModel). *)
From Verif Require Import Base CStr StackModel ObjModel MemModel PrimeModel HashModel HashFnModel HashFnProofs StrModel.
Local Open Scope Z_scope.

(** static _prs_hash (parse-concrete.c:27): NULL, a table, or the address of one already
    destroyed.  [rw]: the string pools *)
Inductive prs_hash := PNull | PTable (t : hst key ptr) | PFreed.
Record prsw := PRS { rw : pworld; rtab : prs_hash }.
Definition prs_start : prsw := PRS pempty PNull.

(** prs_register_concrete (parse-concrete.c:29-34).  C does not say which of the two
    str_find calls is made first: [symbol_first].  As in StrModel, the stored keys must
    still be in memory ([keys_live]); the result of hsh_insert is ignored. *)
Definition find_both (symbol_first : bool) (al : palloc) (w : pworld) (symbol concrete : list N)
  : res (pworld * positive * positive) :=
  if symbol_first then
    '(w1, k) ← str_find al w symbol; '(w2, d) ← str_find al w1 concrete; Ret (w2, k, d)
  else
    '(w1, d) ← str_find al w concrete; '(w2, k) ← str_find al w1 symbol; Ret (w2, k, d).
Definition prs_register_concrete (symbol_first : bool) (al : palloc) (s : prsw) (symbol concrete : list N) : res prsw :=
  t ← match rtab s with PNull => hsh_create (pa_hash al) | PTable t => Ret t | PFreed => UB end;
  '(w, a, d) ← find_both symbol_first al (rw s) symbol concrete;
  k ← key_at (mblk (pmem w)) a;
  if keys_live (mblk (pmem w)) t then
    '(t1, _) ← hsh_insert penv (pa_hash al) t k (Some d); Ret (PRS w (PTable t1))
  else UB.
(** prs_concrete (parse-concrete.c:36-40) *)
Definition prs_concrete (s : prsw) (symbol : list N) : res (prsw * ptr) :=
  match rtab s with
  | PNull => Ret (s, None)
  | PFreed => UB
  | PTable t =>
      str ← c_string symbol;
      k ← mk_key None str;
      if keys_live (mblk (pmem (rw s))) t then
        '(t1, d) ← hsh_retrieve penv t k; Ret (PRS (rw s) (PTable t1), d)
      else UB
  end.
(** _prs_shutdown (parse-concrete.c:42-45); also given: the nodes left *)
Definition prs_shutdown (s : prsw) : res (prsw * bheap key ptr) :=
  match rtab s with
  | PNull => Ret (s, ∅)
  | PFreed => UB
  | PTable t => nodes ← hsh_destroy t; Ret (PRS (rw s) PFreed, nodes)
  end.
