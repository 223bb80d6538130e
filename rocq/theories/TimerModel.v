(** Model of maa/timer.c.  The times recorded are the values assigned to the doubles,
    as integers (exact up to 2^53 seconds).  Timer names belong to the user; that they stay
    unchanged is assumed (the table keeps the pointers). *)
From Verif Require Import Base CStr PrimeModel HashModel HashFnModel HashFnProofs NameTab.
Local Open Scope Z_scope.

(** struct timeval; what gettimeofday and getrusage answer *)
Record timeval := TV { tv_sec : Z; tv_usec : Z }.
Record clock := CK { c_real : timeval; c_utime : timeval; c_stime : timeval; c_cutime : timeval; c_cstime : timeval }.
(** struct tim_Entry (timer.c:36-45): the times, and the marks *)
Record tentry := TE { e_real : Z; e_self_user : Z; e_self_system : Z; e_children_user : Z; e_children_system : Z; e_mark : option clock }.
(** _tim_Hash (timer.c:34) and the entries allocated *)
Record tstate := TS { thash : option (hst skey ptr); tents : gmap positive tentry }.
Definition tstart : tstate := TS None ∅.
Definition tenv : henv skey ptr := string_env None.
Record talloc := TA { t_hash : halloc skey ptr; t_ent : gmap positive tentry -> ptr }.

(** result of a long operation: overflow is undefined *)
Definition slong (z : Z) : res Z := if (- 2 ^ 63 <=? z) && (z <? 2 ^ 63) then Ret z else UB.
(** DIFFTIME (timer.c:83-85); / truncates *)
Definition DIFFTIME (now thn : timeval) : res Z :=
  ds ← slong (tv_sec now - tv_sec thn);
  du ← slong (tv_usec now - tv_usec thn);
  slong (ds + Z.quot du 1000000).

(** _tim_check (timer.c:47-50) *)
Definition tim_check (al : talloc) (s : tstate) : res (hst skey ptr) :=
  match thash s with Some t => Ret t | None => hsh_create (t_hash al) end.
(** tim_start (timer.c:54-73); xmalloc exits when out of memory *)
Definition tim_start (al : talloc) (s : tstate) (c : clock) (name : option (list N)) : res tstate :=
  t ← tim_check al s;
  k ← name_key name;
  '(t1, entry) ← hsh_retrieve tenv t k;
  '(t2, h, a) ←
    match entry with
    | Some a => Ret (t1, tents s, a)
    | None =>
        match t_ent al (tents s) with
        | None => Fatal
        | Some a =>
            '(t2, _) ← hsh_insert tenv (t_hash al) t1 k (Some a);
            Ret (t2, <[a := TE 0 0 0 0 0 None]> (tents s), a)
        end
    end;
  e ← hget h a;
  h' ← hset h a (TE (e_real e) (e_self_user e) (e_self_system e) (e_children_user e) (e_children_system e) (Some c));
  Ret (TS (Some t2) h').
(** the lookup of the other calls; without a timer of the name err_internal aborts *)
Definition tim_find (al : talloc) (s : tstate) (name : option (list N)) : res (hst skey ptr * positive) :=
  t ← tim_check al s;
  k ← name_key name;
  '(t1, entry) ← hsh_retrieve tenv t k;
  match entry with Some a => Ret (t1, a) | None => Abort end.
(** tim_stop (timer.c:77-106) *)
Definition tim_stop (al : talloc) (s : tstate) (c : clock) (name : option (list N)) : res tstate :=
  '(t1, a) ← tim_find al s name;
  e ← hget (tents s) a;
  match e_mark e with
  | None => UB                                  (* the mark is indeterminate *)
  | Some m =>
      r ← DIFFTIME (c_real c) (c_real m);
      su ← DIFFTIME (c_utime c) (c_utime m);
      ss ← DIFFTIME (c_stime c) (c_stime m);
      cu ← DIFFTIME (c_cutime c) (c_cutime m);
      cs ← DIFFTIME (c_cstime c) (c_cstime m);
      h ← hset (tents s) a (TE r su ss cu cs (Some m));
      Ret (TS (Some t1) h)
  end.
(** tim_reset (timer.c:111-125) *)
Definition tim_reset (al : talloc) (s : tstate) (name : option (list N)) : res tstate :=
  '(t1, a) ← tim_find al s name;
  e ← hget (tents s) a;
  h ← hset (tents s) a (TE 0 0 0 0 0 (e_mark e));
  Ret (TS (Some t1) h).
(** tim_get_real (timer.c:131-141), tim_get_user (145-191), tim_get_system (195-205) *)
Definition tim_get (f : tentry -> Z) (al : talloc) (s : tstate) (name : option (list N)) : res (tstate * Z) :=
  '(t1, a) ← tim_find al s name;
  e ← hget (tents s) a;
  Ret (TS (Some t1) (tents s), f e).
Definition tim_get_real := tim_get e_real.
Definition tim_get_user := tim_get (fun e => e_self_user e + e_children_user e).
Definition tim_get_system := tim_get (fun e => e_self_system e + e_children_system e).
(** tim_print_timer (timer.c:210-217): the name and the three values printed.  (The calls
    are arguments of fprintf: their order does not matter, the values are the same.) *)
Definition tim_print_timer (al : talloc) (s : tstate) (name : option (list N)) : res (tstate * (Z * Z * Z)) :=
  '(s1, r) ← tim_get_real al s name;
  '(s2, u) ← tim_get_user al s1 name;
  '(s3, y) ← tim_get_system al s2 name;
  Ret (s3, (r, u, y)).
(** tim_print_timers (timer.c:229-232) with _tim_iterator (219-225): the iterator looks the
    names up in the table being iterated.  [key] points to the stored name. *)
Definition print_body (al : talloc) (h : gmap positive tentry) : iterator skey ptr (list (list N * (Z * Z * Z))) :=
  fun k _ '(t, out) =>
    '(s', v) ← tim_print_timer al (TS (Some t) h) (Some (proj1_sig k ++ [0%N]));
    match thash s' with
    | Some t' => Ret (t', out ++ [(proj1_sig k, v)], 0)
    | None => UB
    end.
Definition trounds (t : hst skey ptr) : nat := S (N.to_nat (prime (tab t)) + size (heap t)).
Definition tim_print_timers (al : talloc) (s : tstate) : res (tstate * list (list N * (Z * Z * Z))) :=
  match thash s with
  | None => Ret (s, [])
  | Some t =>
      '(t', out, _) ← hsh_iterate (trounds t) (print_body al (tents s)) t [];
      Ret (TS (Some t') (tents s), out)
  end.
(** _tim_shutdown (timer.c:244-251) with _tim_freer (234-238): frees every entry, then the
    table.  Also given: the table nodes left, for the leak theorem *)
Definition free_body : iterator skey ptr (gmap positive tentry) :=
  fun _ d '(t, h) => match d with None => Fatal | Some a => h' ← hfree h a; Ret (t, h', 0) end.
Definition tim_shutdown (s : tstate) : res (tstate * bheap skey ptr) :=
  match thash s with
  | None => Ret (TS None (tents s), ∅)
  | Some t =>
      '(t', h, _) ← hsh_iterate (trounds t) free_body t (tents s);
      nodes ← hsh_destroy t';
      Ret (TS None h, nodes)
  end.
