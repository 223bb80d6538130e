(** Model of maa/hash.c.  Keys [K] and data [D] are abstract; the user's hash
    and compare functions are pure (they read the keys, hash.c never writes
    through them).  A table owns its bucket nodes: [heap] holds exactly the nodes
    obtained from malloc and not yet freed. *)
From Verif Require Import Base PrimeModel.
Local Open Scope N_scope.

Section Hash.
Context {K D : Type}.

(** hash.c:37-42 (struct bucket) *)
Record bucket := Bk { bkey : K; bhash : N; bdatum : D; bnext : ptr }.
Local Notation bheap := (gmap positive bucket).

(** hash.c:44-58 (struct table).  [buckets] is the array of list heads; the NULL
    array (only between _hsh_destroy_buckets and the assignment that follows) is
    the empty list.  The magic number is not modelled (see DESIGN.md). *)
Record table := Tab {
  prime : N; entries : N; buckets : list ptr; resizings : N;
  retrievals : N; hits : N; misses : N; readonly : Z }.

Record hst := MkH { heap : bheap; tab : table }.

(** The functions given to hsh_create, and the NULL datum. *)
Record henv := HE { hashf : K -> N; cmpf : K -> K -> Z; dnull : D }.

(** The allocator during one API call: nodes, and other blocks by size. *)
Record halloc := HA { node_alloc : bheap -> option positive; blk_alloc : N -> bool }.

Definition halloc_ok (al : halloc) : Prop := malloc_ok (node_alloc al).

Definition set_next (b : bucket) (p : ptr) : bucket := Bk (bkey b) (bhash b) (bdatum b) p.
Definition set_entries (t : table) (n : N) : table :=
  Tab (prime t) n (buckets t) (resizings t) (retrievals t) (hits t) (misses t) (readonly t).
Definition set_buckets (t : table) (bs : list ptr) : table :=
  Tab (prime t) (entries t) bs (resizings t) (retrievals t) (hits t) (misses t) (readonly t).
Definition set_readonly (t : table) (f : Z) : table :=
  Tab (prime t) (entries t) (buckets t) (resizings t) (retrievals t) (hits t) (misses t) f.
Definition set_counts (t : table) (r h m : N) : table :=
  Tab (prime t) (entries t) (buckets t) (resizings t) r h m (readonly t).

(** xmalloc of a block that is not a bucket node (xmalloc.c:31-42) *)
Definition xmalloc_blk (al : halloc) (n : N) : res unit :=
  if blk_alloc al n then Ret tt else Fatal.

(** hash.c:60-72 (_hsh_check) on a non-NULL handle with the right magic *)
Definition hsh_check (t : table) : res unit :=
  match buckets t with [] => Abort | _ => Ret tt end.

(** hash.c:74-102 (_hsh_create).  88 and 32 are sizeof(struct table) and
    sizeof(struct bucket).  prm_next_prime takes an unsigned int. *)
Definition hsh_create_ (al : halloc) (seed : N) : res table :=
  p ← prm_next_prime (u32 seed);
  _ ← xmalloc_blk al 88;
  _ ← xmalloc_blk al (u64 (p * 32));
  Ret (Tab p 0 (replicate (N.to_nat p) None) 0 0 0 0 0).

(** hash.c:127-133 *)
Definition hsh_create (al : halloc) : res hst :=
  t ← hsh_create_ al 0; Ret (MkH ∅ t).

(** hash.c:144-149: while (b) { next = b->next; xfree(b); b = next; } *)
Fixpoint free_chain (n : nat) (H : bheap) (p : ptr) : res bheap :=
  match p with
  | None => Ret H
  | Some a =>
      match n with
      | O => Diverge
      | S n' => b ← hget H a; H' ← hfree H a; free_chain n' H' (bnext b)
      end
  end.

(** hash.c:135-154 (_hsh_destroy_buckets) *)
Definition destroy_buckets (H : bheap) (t : table) : res (bheap * table) :=
  _ ← hsh_check t;
  H' ← for_up (N.to_nat (prime t)) 0
         (fun i H => p ← aget (buckets t) i; free_chain (S (size H)) H p) H;
  Ret (H', set_buckets t []).

(** hash.c:174-181.  Returns the remaining node heap. *)
Definition hsh_destroy (s : hst) : res bheap :=
  _ ← hsh_check (tab s);
  if negb (readonly (tab s) =? 0)%Z then Abort else
  '(H', _) ← destroy_buckets (heap s) (tab s); Ret H'.

(** hash.c:183-204 (_hsh_insert) *)
Definition hsh_insert_ (al : halloc) (H : bheap) (t : table) (hash : N) (key : K) (datum : D)
  : res (bheap * table) :=
  h ← umod hash (prime t);
  _ ← hsh_check t;
  match node_alloc al H with
  | None => Fatal                                    (* xmalloc *)
  | Some a =>
      let b := Bk key hash datum None in
      p ← aget (buckets t) (N.to_nat h);
      let b' := match p with Some _ => set_next b p | None => b end in
      bs ← aset (buckets t) (N.to_nat h) (Some a);
      Ret (<[a := b']> H, set_entries (set_buckets t bs) (u64 (entries t + 1)))
  end.

(** hash.c:238-239: for (pt = ...; pt; pt = pt->next) _hsh_insert(new, ...) *)
Fixpoint copy_chain (al : halloc) (n : nat) (H : bheap) (new : table) (p : ptr)
  : res (bheap * table) :=
  match p with
  | None => Ret (H, new)
  | Some a =>
      match n with
      | O => Diverge
      | S n' =>
          b ← hget H a;
          '(H', new') ← hsh_insert_ al H new (bhash b) (bkey b) (bdatum b);
          b' ← hget H' a;                            (* pt = pt->next *)
          copy_chain al n' H' new' (bnext b')
      end
  end.

(** hash.c:230-249: the growth of hsh_insert *)
Definition hsh_grow (al : halloc) (H : bheap) (t : table) : res (bheap * table) :=
  new ← hsh_create_ al (u64 (prime t * 3));
  '(H1, new1) ← for_up (N.to_nat (prime t)) 0
      (fun i '(H, new) => p ← aget (buckets t) i; copy_chain al (S (size H)) H new p) (H, new);
  '(H2, _) ← destroy_buckets H1 t;
  Ret (H2, Tab (prime new1) (entries t) (buckets new1) (u64 (resizings t + 1))
               (retrievals t) (hits t) (misses t) (readonly t)).

(** The search loop shared by hash.c:256-257, 281-282 and 313-314:
    for (prev = NULL, pt = buckets[h]; pt; prev = pt, pt = pt->next)
      if (!compare(pt->key, key)) ...   Result: (prev, pt) at the first match. *)
Fixpoint find_loop (env : henv) (n : nat) (H : bheap) (prev pt : ptr) (key : K)
  : res (option (ptr * positive)) :=
  match pt with
  | None => Ret None
  | Some a =>
      match n with
      | O => Diverge
      | S n' =>
          b ← hget H a;
          if (cmpf env (bkey b) key =? 0)%Z then Ret (Some (prev, a))
          else find_loop env n' H (Some a) (bnext b) key
      end
  end.

(** hash.c:216-262 *)
Definition hsh_insert (env : henv) (al : halloc) (s : hst) (key : K) (datum : D)
  : res (hst * Z) :=
  let hashValue := hashf env key in
  _ ← hsh_check (tab s);
  if negb (readonly (tab s) =? 0)%Z then Abort else
  '(H, t) ← (if prime (tab s) <? u64 (entries (tab s) * 2)
             then hsh_grow al (heap s) (tab s)
             else Ret (heap s, tab s));
  h ← umod hashValue (prime t);
  p ← aget (buckets t) (N.to_nat h);
  r ← find_loop env (S (size H)) H None p key;
  match r with
  | Some _ => Ret (MkH H t, 1%Z)
  | None =>
      '(H', t') ← hsh_insert_ al H t hashValue key datum;
      Ret (MkH H' t', 0%Z)
  end.

(** hash.c:268-294 *)
Definition hsh_delete (env : henv) (s : hst) (key : K) : res (hst * Z) :=
  let H := heap s in let t := tab s in
  h ← umod (hashf env key) (prime t);
  _ ← hsh_check t;
  if negb (readonly t =? 0)%Z then Abort else
  p ← aget (buckets t) (N.to_nat h);
  r ← find_loop env (S (size H)) H None p key;
  match r with
  | Some (prev, a) =>
      let t1 := set_entries t (u64_dec (entries t)) in
      b ← hget H a;
      '(H1, t2) ← match prev with
                  | None => bs ← aset (buckets t1) (N.to_nat h) (bnext b);
                            Ret (H, set_buckets t1 bs)
                  | Some q => bq ← hget H q;
                              H' ← hset H q (set_next bq (bnext b));
                              Ret (H', t1)
                  end;
      H2 ← hfree H1 a;
      Ret (MkH H2 t2, 0%Z)
  | None => Ret (s, 1%Z)
  end.

(** hash.c:300-329 *)
Definition hsh_retrieve (env : henv) (s : hst) (key : K) : res (hst * D) :=
  let H := heap s in let t := tab s in
  h ← umod (hashf env key) (prime t);
  _ ← hsh_check t;
  let t1 := set_counts t (u64 (retrievals t + 1)) (hits t) (misses t) in
  p ← aget (buckets t1) (N.to_nat h);
  r ← find_loop env (S (size H)) H None p key;
  match r with
  | Some (prev, a) =>
      match prev with
      | None =>
          b ← hget H a;
          Ret (MkH H (set_counts t1 (retrievals t1) (u64 (hits t1 + 1)) (misses t1)), bdatum b)
      | Some q =>
          if (readonly t1 =? 0)%Z then
            b ← hget H a; bq ← hget H q;
            H1 ← hset H q (set_next bq (bnext b));       (* prev->next = pt->next *)
            b1 ← hget H1 a;
            H2 ← hset H1 a (set_next b1 p);              (* pt->next = buckets[h] *)
            bs ← aset (buckets t1) (N.to_nat h) (Some a);(* buckets[h] = pt *)
            b2 ← hget H2 a;
            Ret (MkH H2 (set_buckets t1 bs), bdatum b2)
          else b ← hget H a; Ret (MkH H t1, bdatum b)
      end
  | None =>
      Ret (MkH H (set_counts t1 (retrievals t1) (hits t1) (u64 (misses t1 + 1))), dnull env)
  end.

(** An iterator given to hsh_iterate: it may act on the table itself and on
    whatever other state [U] the user keeps; it returns an int. *)
Definition iterator (U : Type) := K -> D -> hst * U -> res (hst * U * Z).

(** hash.c:351-355.  [next] is saved before the iterator runs. *)
Fixpoint iter_chain {U} (n : nat) (cb : iterator U) (pt : ptr) (su : hst * U)
  : res (hst * U * bool) :=
  match pt with
  | None => Ret (su, false)
  | Some a =>
      match n with
      | O => Diverge
      | S n' =>
          b ← hget (heap su.1) a;
          let next := bnext b in
          '(su', r) ← cb (bkey b) (bdatum b) su;
          if negb (r =? 0)%Z then Ret (su', true)
          else iter_chain n' cb next su'
      end
  end.

(** hash.c:349-357: the outer loop.  [prime] and [buckets] are read afresh in
    every round because the iterator may have changed them. *)
Fixpoint iter_rows {U} (n fuel : nat) (cb : iterator U) (i : N) (su : hst * U)
  : res (hst * U * Z) :=
  match n with
  | O => Diverge
  | S n' =>
      if i <? prime (tab su.1) then
        p ← aget (buckets (tab su.1)) (N.to_nat i);
        '(su', stopped) ← iter_chain fuel cb p su;
        if (stopped : bool) then Ret (su', 1%Z)
        else iter_rows n' fuel cb (i + 1) su'
      else Ret (su, 0%Z)
  end.

(** hash.c:338-359 (hsh_iterate) and 368-391 (hsh_iterate_arg, where [arg] is
    part of the closure).  The iterator can make the loops run for ever, so the
    number of rounds is an argument. *)
Definition hsh_iterate {U} (fuel : nat) (cb : iterator U) (s : hst) (u : U)
  : res (hst * U * Z) :=
  _ ← hsh_check (tab s); iter_rows fuel fuel cb 0 (s, u).

(** hash.c:440 and set.c:758: for (count = 0, pt = ...; pt; ++count, pt = pt->next);
    count is unsigned and wraps at [w]: 2^32 (unsigned int) in hash.c, 2^64 in set.c *)
Fixpoint count_chain (w : N) (n : nat) (H : bheap) (p : ptr) (count : N) : res N :=
  match p with
  | None => Ret count
  | Some a =>
      match n with
      | O => Diverge
      | S n' => b ← hget H a; count_chain w n' H (bnext b) ((count + 1) mod w)
      end
  end.

(** maa.h:111-122 (struct hsh_Stats) *)
Record hstats := HS {
  s_size : N; s_resizings : N; s_entries : N; s_buckets_used : N; s_singletons : N;
  s_maximum_length : N; s_retrievals : N; s_hits : N; s_misses : N }.

(** hash.c:416-453 *)
Definition hsh_get_stats (al : halloc) (s : hst) : res hstats :=
  let t := tab s in
  _ ← xmalloc_blk al 72;
  _ ← hsh_check t;
  st ← for_up (N.to_nat (prime t)) 0
    (fun i st =>
       p ← aget (buckets t) i;
       match p with
       | None => Ret st
       | Some _ =>
           count ← count_chain (2 ^ 32) (S (size (heap s))) (heap s) p 0;
           Ret (HS (s_size st) (s_resizings st)
                   (u64 (s_entries st + count))
                   (u64 (s_buckets_used st + 1))
                   (if count =? 1 then u64 (s_singletons st + 1) else s_singletons st)
                   (N.max (s_maximum_length st) count)
                   (s_retrievals st) (s_hits st) (s_misses st))
       end)
    (HS (prime t) (resizings t) 0 0 0 0 (retrievals t) (hits t) (misses t));
  if negb (entries t =? s_entries st) then Abort else Ret st.

(** hash.c:562-566 / 589-590: the next non-empty bucket at or after [i] *)
Fixpoint first_used (bs : list ptr) (n i : nat) : res ptr :=
  match n with
  | O => Ret None
  | S n' => p ← aget bs i;
            match p with Some _ => Ret p | None => first_used bs n' (S i) end
  end.

(** hash.c:556-567 *)
Definition hsh_init_position (s : hst) : res (hst * ptr) :=
  let t := tab s in
  _ ← hsh_check t;
  p ← first_used (buckets t) (N.to_nat (prime t)) 0;
  match p with
  | Some _ => Ret (MkH (heap s) (set_readonly t 1), p)
  | None => Ret (s, None)
  end.

(** hash.c:573-594 *)
Definition hsh_next_position (s : hst) (position : ptr) : res (hst * ptr) :=
  let t := tab s in
  _ ← hsh_check t;
  match position with
  | None => Ret (MkH (heap s) (set_readonly t 0), None)
  | Some a =>
      b ← hget (heap s) a;
      match bnext b with
      | Some q => Ret (s, Some q)
      | None =>
          h ← umod (bhash b) (prime t);
          let i := N.to_nat h + 1 in
          p ← first_used (buckets t) (N.to_nat (prime t) - i) i;
          match p with
          | Some _ => Ret (s, p)
          | None => Ret (MkH (heap s) (set_readonly t 0), None)
          end
      end
  end%nat.

(** hash.c:600-609: ( *key, datum ); the NULL key is [None] *)
Definition hsh_get_position (env : henv) (s : hst) (position : ptr) : res (option K * D) :=
  match position with
  | None => Ret (None, dnull env)
  | Some a => b ← hget (heap s) a; Ret (Some (bkey b), bdatum b)
  end.

(** hash.c:617-627 *)
Definition hsh_readonly (s : hst) (flag : Z) : res (hst * Z) :=
  _ ← hsh_check (tab s);
  Ret (MkH (heap s) (set_readonly (tab s) flag), readonly (tab s)).

(** maa.h:160-163 (HSH_ITERATE with HSH_POSITION_INIT/OK/GET/NEXT, maa.h:148-158):
    the body runs on the pair at each position and may break out of the loop
    (non-zero result). *)
Fixpoint pos_loop {U} (n : nat) (env : henv) (body : iterator U) (p : ptr) (su : hst * U)
  : res (hst * U * bool) :=
  match p with
  | None => Ret (su, false)
  | Some _ =>
      match n with
      | O => Diverge
      | S n' =>
          '(k, d) ← hsh_get_position env su.1 p;
          match k with
          | None => UB
          | Some k =>
              '(su', r) ← body k d su;
              if negb (r =? 0)%Z then Ret (su', true) else
              '(s2, p') ← hsh_next_position su'.1 p;
              pos_loop n' env body p' (s2, su'.2)
          end
      end
  end.
Definition HSH_ITERATE {U} (fuel : nat) (env : henv) (body : iterator U) (s : hst) (u : U)
  : res (hst * U * bool) :=
  '(s1, p) ← hsh_init_position s; pos_loop fuel env body p (s1, u).

(** maa.h:174 *)
Definition HSH_ITERATE_END (s : hst) : res (hst * Z) := hsh_readonly s 0.

End Hash.
Arguments bucket : clear implicits.
Notation bheap K D := (gmap positive (bucket K D)).
Arguments hst : clear implicits.
Arguments henv : clear implicits.
Arguments halloc : clear implicits.
Arguments iterator : clear implicits.
