(** Model of maa/set.c.  set.c is a near-copy of hash.c; the node and table
    records of HashModel are reused with no datum ([unit]), and three loops whose
    text is the same in both files (free_chain, find_loop, first_used).  All else
    is modelled from set.c itself; note that _set_check does not look at
    t->buckets. *)
From Verif Require Import Base PrimeModel HashModel.
Local Open Scope N_scope.

Section SetM.
Context {K : Type}.
Notation hst := (hst K unit).
Notation halloc := (halloc K unit).
Notation bheap := (bheap K unit).
Notation henv := (henv K unit).

(** set.c:64-74 (_set_check) on a non-NULL handle with the right magic does
    nothing. *)

(** set.c:76-103 (_set_create): 88 and 24 are sizeof(struct set) and
    sizeof(struct bucket) *)
Definition set_create_ (al : halloc) (seed : N) : res table :=
  p ← prm_next_prime (u32 seed);
  _ ← xmalloc_blk al 88;
  _ ← xmalloc_blk al (u64 (p * 24));
  Ret (Tab p 0 (replicate (N.to_nat p) None) 0 0 0 0 0).

(** set.c:126-129 *)
Definition set_create (al : halloc) : res hst :=
  t ← set_create_ al 0; Ret (MkH ∅ t).

(** set.c:147-166 (_set_destroy_buckets); t->buckets[i] through the NULL array
    left by an earlier call is undefined *)
Definition set_destroy_buckets (H : bheap) (t : table) : res (bheap * table) :=
  H' ← for_up (N.to_nat (prime t)) 0
         (fun i H => p ← aget (buckets t) i; free_chain (S (size H)) H p) H;
  Ret (H', set_buckets t []).

(** set.c:188-197 *)
Definition set_destroy (s : hst) : res bheap :=
  if negb (readonly (tab s) =? 0)%Z then Abort else
  '(H', _) ← set_destroy_buckets (heap s) (tab s); Ret H'.

(** set.c:199-215 (_set_insert) *)
Definition set_insert_ (al : halloc) (H : bheap) (t : table) (hash : N) (elem : K)
  : res (bheap * table) :=
  h ← umod hash (prime t);
  match node_alloc al H with
  | None => Fatal
  | Some a =>
      let b := Bk elem hash tt None in
      p ← aget (buckets t) (N.to_nat h);
      let b' := match p with Some _ => set_next b p | None => b end in
      bs ← aset (buckets t) (N.to_nat h) (Some a);
      Ret (<[a := b']> H, set_entries (set_buckets t bs) (u64 (entries t + 1)))
  end.

(** set.c:245-246 *)
Fixpoint set_copy_chain (al : halloc) (n : nat) (H : bheap) (new : table) (p : ptr)
  : res (bheap * table) :=
  match p with
  | None => Ret (H, new)
  | Some a =>
      match n with
      | O => Diverge
      | S n' =>
          b ← hget H a;
          '(H', new') ← set_insert_ al H new (bhash b) (bkey b);
          b' ← hget H' a;
          set_copy_chain al n' H' new' (bnext b')
      end
  end.

(** set.c:237-256 *)
Definition set_grow (al : halloc) (H : bheap) (t : table) : res (bheap * table) :=
  new ← set_create_ al (u64 (prime t * 3));
  '(H1, new1) ← for_up (N.to_nat (prime t)) 0
      (fun i '(H, new) => p ← aget (buckets t) i; set_copy_chain al (S (size H)) H new p) (H, new);
  '(H2, _) ← set_destroy_buckets H1 t;
  Ret (H2, Tab (prime new1) (entries t) (buckets new1) (u64 (resizings t + 1))
               (retrievals t) (hits t) (misses t) (readonly t)).

(** set.c:226-269 *)
Definition set_insert (env : henv) (al : halloc) (s : hst) (elem : K) : res (hst * Z) :=
  let hashValue := hashf env elem in
  if negb (readonly (tab s) =? 0)%Z then Abort else
  '(H, t) ← (if prime (tab s) <? u64 (entries (tab s) * 2)
             then set_grow al (heap s) (tab s)
             else Ret (heap s, tab s));
  h ← umod hashValue (prime t);
  p ← aget (buckets t) (N.to_nat h);
  r ← find_loop env (S (size H)) H None p elem;
  match r with
  | Some _ => Ret (MkH H t, 1%Z)
  | None =>
      '(H', t') ← set_insert_ al H t hashValue elem;
      Ret (MkH H' t', 0%Z)
  end.

(** set.c:274-300 *)
Definition set_delete (env : henv) (s : hst) (elem : K) : res (hst * Z) :=
  let H := heap s in let t := tab s in
  h ← umod (hashf env elem) (prime t);
  if negb (readonly t =? 0)%Z then Abort else
  p ← aget (buckets t) (N.to_nat h);
  r ← find_loop env (S (size H)) H None p elem;
  match r with
  | Some (prev, a) =>
      let t1 := set_entries t (u64_dec (entries t)) in
      b ← hget H a;
      '(H1, t2) ← match prev with
                  | None => bs ← aset (buckets t1) (N.to_nat h) (bnext b);
                            Ret (H, set_buckets t1 bs)
                  | Some q => bq ← hget H q;
                              H' ← hset H q (set_next bq (bnext b));
                              Ret (H', t1)
                  end;
      H2 ← hfree H1 a;
      Ret (MkH H2 t2, 0%Z)
  | None => Ret (s, 1%Z)
  end.

(** set.c:305-333 *)
Definition set_member (env : henv) (s : hst) (elem : K) : res (hst * Z) :=
  let H := heap s in let t := tab s in
  h ← umod (hashf env elem) (prime t);
  let t1 := set_counts t (u64 (retrievals t + 1)) (hits t) (misses t) in
  p ← aget (buckets t1) (N.to_nat h);
  r ← find_loop env (S (size H)) H None p elem;
  match r with
  | Some (prev, a) =>
      match prev with
      | None =>
          Ret (MkH H (set_counts t1 (retrievals t1) (u64 (hits t1 + 1)) (misses t1)), 1%Z)
      | Some q =>
          if (readonly t1 =? 0)%Z then
            b ← hget H a; bq ← hget H q;
            H1 ← hset H q (set_next bq (bnext b));       (* prev->next = pt->next *)
            b1 ← hget H1 a;
            H2 ← hset H1 a (set_next b1 p);              (* pt->next = buckets[h] *)
            bs ← aset (buckets t1) (N.to_nat h) (Some a);(* buckets[h] = pt *)
            Ret (MkH H2 (set_buckets t1 bs), 1%Z)
          else Ret (MkH H t1, 1%Z)
      end
  | None =>
      Ret (MkH H (set_counts t1 (retrievals t1) (hits t1) (u64 (misses t1 + 1))), 0%Z)
  end.

(** ** The double loop
      for (i = 0; i < t->prime; i++)
        if (t->buckets[i])
          for (pt = t->buckets[i]; pt; pt = pt->next) BODY(pt->elem)
    of set_iterate (set.c:353-363), set_add (500-507), set_del (535-542),
    set_union (573-580 and 582-589), set_inter (621-629), set_diff (664-672) and
    set_equal (704-714).  [T] is the whole state the body acts on, [get] finds the
    walked set in it, the body says whether to leave the loop.  pt->elem is read
    before and pt->next after the body. *)
Section Walk.
Context {T : Type} (get : T -> res hst) (body : K -> T -> res (T * bool)).
Fixpoint walk_chain (n : nat) (pt : ptr) (w : T) : res (T * bool) :=
  match pt with
  | None => Ret (w, false)
  | Some a =>
      match n with
      | O => Diverge
      | S n' =>
          s ← get w; b ← hget (heap s) a;
          '(w', stop) ← body (bkey b) w;
          if (stop : bool) then Ret (w', true) else
          s' ← get w'; b' ← hget (heap s') a;
          walk_chain n' (bnext b') w'
      end
  end.
Fixpoint walk_rows (n fuel : nat) (i : N) (w : T) : res (T * bool) :=
  match n with
  | O => Diverge
  | S n' =>
      s ← get w;
      if i <? prime (tab s) then
        p ← aget (buckets (tab s)) (N.to_nat i);
        '(w', stop) ← walk_chain fuel p w;
        if (stop : bool) then Ret (w', true) else walk_rows n' fuel (i + 1) w'
      else Ret (w, false)
  end.
Definition walk (fuel : nat) (w : T) : res (T * bool) := walk_rows fuel fuel 0 w.
End Walk.

Definition with_ro (s : hst) (f : Z) : hst := MkH (heap s) (set_readonly (tab s) f).

(** An iterator for set_iterate. *)
Definition siterator (U : Type) := K -> hst * U -> res (hst * U * Z).

(** set.c:342-368 (set_iterate), 377-405 (set_iterate_arg) *)
Definition set_iterate {U} (fuel : nat) (cb : siterator U) (s : hst) (u : U) : res (hst * U * Z) :=
  let savedReadonly := readonly (tab s) in
  '(su, stopped) ← walk (fun su => Ret su.1)
      (fun k su => '(su', r) ← cb k su; Ret (su', negb (r =? 0)%Z))
      fuel (with_ro s 1, u);
  Ret (with_ro su.1 savedReadonly, su.2, if (stopped : bool) then 1%Z else 0%Z).

(** set.c:410-421 *)
Definition set_init_position (s : hst) : res (hst * ptr) :=
  let t := tab s in
  p ← first_used (buckets t) (N.to_nat (prime t)) 0;
  match p with
  | Some _ => Ret (MkH (heap s) (set_readonly t 1), p)
  | None => Ret (s, None)
  end.

(** set.c:427-448 *)
Definition set_next_position (s : hst) (position : ptr) : res (hst * ptr) :=
  let t := tab s in
  match position with
  | None => Ret (MkH (heap s) (set_readonly t 0), None)
  | Some a =>
      b ← hget (heap s) a;
      match bnext b with
      | Some q => Ret (s, Some q)
      | None =>
          h ← umod (bhash b) (prime t);
          let i := N.to_nat h + 1 in
          p ← first_used (buckets t) (N.to_nat (prime t) - i) i;
          match p with
          | Some _ => Ret (s, p)
          | None => Ret (MkH (heap s) (set_readonly t 0), None)
          end
      end
  end%nat.

(** set.c:453-459; NULL is [None] *)
Definition set_get_position (s : hst) (position : ptr) : res (option K) :=
  match position with
  | None => Ret None
  | Some a => b ← hget (heap s) a; Ret (Some (bkey b))
  end.

(** set.c:467-477 *)
Definition set_readonly_ (s : hst) (flag : Z) : res (hst * Z) :=
  Ret (MkH (heap s) (set_readonly (tab s) flag), readonly (tab s)).

(** maa.h:233-236 (SET_ITERATE); a non-zero result of the body is a break *)
Fixpoint set_pos_loop {U} (n : nat) (body : siterator U) (p : ptr) (su : hst * U)
  : res (hst * U * bool) :=
  match p with
  | None => Ret (su, false)
  | Some _ =>
      match n with
      | O => Diverge
      | S n' =>
          k ← set_get_position su.1 p;
          match k with
          | None => UB
          | Some k =>
              '(su', r) ← body k su;
              if negb (r =? 0)%Z then Ret (su', true) else
              '(s2, p') ← set_next_position su'.1 p;
              set_pos_loop n' body p' (s2, su'.2)
          end
      end
  end.
Definition SET_ITERATE {U} (fuel : nat) (body : siterator U) (s : hst) (u : U)
  : res (hst * U * bool) :=
  '(s1, p) ← set_init_position s; set_pos_loop fuel body p (s1, u).

(** maa.h:241 *)
Definition SET_ITERATE_END (s : hst) : res (hst * Z) := set_readonly_ s 0.

(** set.c:721-727: unsigned long converted to int *)
Definition set_count (s : hst) : Z := to_int (Z.of_N (entries (tab s))).

(** set.c:732-774 *)
Definition set_get_stats (al : halloc) (s : hst) : res hstats :=
  let t := tab s in
  _ ← xmalloc_blk al 72;
  st ← for_up (N.to_nat (prime t)) 0
    (fun i st =>
       p ← aget (buckets t) i;
       match p with
       | None => Ret st
       | Some _ =>
           count ← count_chain (2 ^ 64) (S (size (heap s))) (heap s) p 0;
           Ret (HS (s_size st) (s_resizings st)
                   (u64 (s_entries st + count))
                   (u64 (s_buckets_used st + 1))
                   (if count =? 1 then u64 (s_singletons st + 1) else s_singletons st)
                   (N.max (s_maximum_length st) count)
                   (s_retrievals st) (s_hits st) (s_misses st))
       end)
    (HS (prime t) (resizings t) 0 0 0 0 (retrievals t) (hits t) (misses t));
  if negb (entries t =? s_entries st) then Abort else Ret st.

(** ** Several sets.  A set handle is an address; the functions stored in a set
    are identified by the addresses [whid], [wcid] of the user's functions. *)
Record wset := WS { ws : hst; whid : positive; wcid : positive }.
Local Notation world := (gmap positive wset).

(** the functions behind the addresses *)
Record fns := FN { fhash : positive -> K -> N; fcmp : positive -> K -> K -> Z }.
Definition wenv (F : fns) (x : wset) : henv := HE (fhash F (whid x)) (fcmp F (wcid x)) tt.

Definition upd (w : world) (h : positive) (s : hst) : res world :=
  x ← hget w h; Ret (<[h := WS s (whid x) (wcid x)]> w).
Definition getset (h : positive) (w : world) : res hst := x ← hget w h; Ret (ws x).

(** a call of set_insert / set_delete / set_member / ... through a handle *)
Definition w_insert F al (w : world) h k : res (world * Z) :=
  x ← hget w h; '(s, r) ← set_insert (wenv F x) al (ws x) k; w' ← upd w h s; Ret (w', r).
Definition w_delete F (w : world) h k : res (world * Z) :=
  x ← hget w h; '(s, r) ← set_delete (wenv F x) (ws x) k; w' ← upd w h s; Ret (w', r).
Definition w_member F (w : world) h k : res (world * Z) :=
  x ← hget w h; '(s, r) ← set_member (wenv F x) (ws x) k; w' ← upd w h s; Ret (w', r).
Definition w_readonly (w : world) h f : res (world * Z) :=
  x ← hget w h; '(s, r) ← set_readonly_ (ws x) f; w' ← upd w h s; Ret (w', r).
Definition w_set_ro (w : world) h f : res world :=
  x ← hget w h; upd w h (with_ro (ws x) f).

Definition w_init_position (w : world) h : res (world * ptr) :=
  x ← hget w h; '(s, p) ← set_init_position (ws x); w' ← upd w h s; Ret (w', p).
Definition w_next_position (w : world) h p : res (world * ptr) :=
  x ← hget w h; '(s, q) ← set_next_position (ws x) p; w' ← upd w h s; Ret (w', q).

(** set_create; [h] is the address malloc returns for the new set, so it is not
    one of a live set *)
Definition w_create al (w : world) (h hid cid : positive) : res world :=
  s ← set_create al;
  match w !! h with Some _ => UB | None => Ret (<[h := WS s hid cid]> w) end.

(** set_destroy: all nodes are freed (what would remain is returned), then the set *)
Definition w_destroy (w : world) h : res (world * bheap) :=
  x ← hget w h; H ← set_destroy (ws x); Ret (delete h w, H).

(** set.c:139-145, 131-137 *)
Definition set_get_compare (w : world) h : res positive := x ← hget w h; Ret (wcid x).
Definition set_get_hash (w : world) h : res positive := x ← hget w h; Ret (whid x).

(** set.c:494-500 and its copies *)
Definition same_fns (w : world) h1 h2 : res unit :=
  x1 ← hget w h1; x2 ← hget w h2;
  if negb (bool_decide (whid x1 = whid x2)) then Fatal
  else if negb (bool_decide (wcid x1 = wcid x2)) then Fatal else Ret tt.

(** set.c:485-512 *)
Definition set_add F al (fuel : nat) (w : world) h1 h2 : res world :=
  _ ← same_fns w h1 h2;
  '(w', _) ← walk (getset h2)
     (fun k w => '(w', _) ← w_insert F al w h1 k; Ret (w', false)) fuel w;
  Ret w'.

(** set.c:520-547 *)
Definition set_del F (fuel : nat) (w : world) h1 h2 : res world :=
  _ ← same_fns w h1 h2;
  '(w', _) ← walk (getset h2)
     (fun k w => '(w', _) ← w_delete F w h1 k; Ret (w', false)) fuel w;
  Ret w'.

(** set.c:554-593; [h] is the new set's address *)
Definition set_union F al (fuel : nat) (w : world) h h1 h2 : res world :=
  _ ← same_fns w h1 h2;
  x1 ← hget w h1;
  w0 ← w_create al w h (whid x1) (wcid x1);
  '(w1, _) ← walk (getset h1)
     (fun k w => '(w', _) ← w_insert F al w h k; Ret (w', false)) fuel w0;
  '(w2, _) ← walk (getset h2)
     (fun k w => '(w', _) ← w_insert F al w h k; Ret (w', false)) fuel w1;
  Ret w2.

(** set.c:600-636 (set_inter, keep = true) and 643-679 (set_diff, keep = false):
    if (set_member(t2, pt->elem)) resp. if (!set_member(...)) set_insert(set, ...) *)
Definition set_inter_diff (keep : bool) F al (fuel : nat) (w : world) h h1 h2 : res world :=
  _ ← same_fns w h1 h2;
  x1 ← hget w h1; x2 ← hget w h2;
  w0 ← w_create al w h (whid x1) (wcid x1);
  let savedReadonly := readonly (tab (ws x2)) in
  w1 ← w_set_ro w0 h2 1;
  '(w2, _) ← walk (getset h1)
     (fun k w =>
        '(w', m) ← w_member F w h2 k;
        if Bool.eqb (negb (m =? 0)%Z) keep
        then '(w'', _) ← w_insert F al w' h k; Ret (w'', false)
        else Ret (w', false)) fuel w1;
  w_set_ro w2 h2 savedReadonly.
Definition set_inter := set_inter_diff true.
Definition set_diff := set_inter_diff false.

(** set.c:685-719 *)
Definition set_equal F (fuel : nat) (w : world) h1 h2 : res (world * Z) :=
  _ ← same_fns w h1 h2;
  x1 ← hget w h1; x2 ← hget w h2;
  if negb (entries (tab (ws x1)) =? entries (tab (ws x2))) then Ret (w, 0%Z) else
  let savedReadonly := readonly (tab (ws x2)) in
  w1 ← w_set_ro w h2 1;
  '(w2, stopped) ← walk (getset h1)
     (fun k w => '(w', m) ← w_member F w h2 k; Ret (w', (m =? 0)%Z)) fuel w1;
  w3 ← w_set_ro w2 h2 savedReadonly;
  Ret (w3, if (stopped : bool) then 0%Z else 1%Z).

End SetM.
Arguments wset : clear implicits.
Notation world K := (gmap positive (wset K)).
Arguments fns : clear implicits.
Arguments siterator : clear implicits.
