(** Model of maa/sl.c.  A datum is a pointer that only the user's functions
    interpret; [K] is the type of keys.  The compare and key functions are total
    functions of their arguments; print is used in error messages and dumps only and is left out.
    SL_DEBUG is 0, so _sl_check and _sl_check_entry are empty; SkipCheckModel.v has the other build. *)
From Verif Require Import Base StackModel ObjModel.
Local Open Scope Z_scope.

(** struct _sl_Entry (sl.c:49-58).  A slot of [forward] is [None] until it is
    written; reading such a slot is undefined. *)
Record entry := Entry { edatum : ptr; forward : list (option ptr) }.
Global Instance entry_eq_dec : EqDecision entry.
Proof. solve_decision. Defined.

(** struct _sl_List (sl.c:60-70) without magic and print.  [slevel] is an int that is
    only compared with, incremented below and decremented above the constants 16 and 0. *)
Record slist K := SL { slevel : nat; scount : Z; shead : positive; scmp : K -> K -> Z; skey : ptr -> K }.
Arguments SL {K}. Arguments slevel {K}. Arguments scount {K}. Arguments shead {K}.
Arguments scmp {K}. Arguments skey {K}.

(** the static _sl_Memory (sl.c:72), the pool holding the lists, and the entries *)
Record sworld K := SW { smem : ptr; sobj : oworld (slist K); sent : gmap positive entry }.
Arguments SW {K}. Arguments smem {K}. Arguments sobj {K}. Arguments sent {K}.
Definition sempty_world {K} : sworld K := SW None oempty ∅.

(** malloc during one call *)
Record salloc K := SA { sa_entry : gmap positive entry -> option positive; sa_obj : oalloc (slist K) }.
Arguments SA {K}. Arguments sa_entry {K}. Arguments sa_obj {K}.

(** _sl_MaxLevel (sl.c:74) *)
Definition MaxLevel : nat := 16.
(** sizeof (struct _sl_List) under LP64: 4+4+4+(4)+8+8+8+8 *)
Definition sizeof_sl : Z := 48.

Section Skip.
Context {K : Type}.
Implicit Types (w : sworld K) (al : salloc K) (x : slist K) (h : gmap positive entry).

(** pt->forward[i] *)
Definition fget h (a : positive) (i : nat) : res ptr :=
  e ← hget h a; s ← aget (forward e) i; match s with Some p => Ret p | None => UB end.
(** pt->forward[i] = p *)
Definition fset h (a : positive) (i : nat) (p : ptr) : res (gmap positive entry) :=
  e ← hget h a; f ← aset (forward e) i (Some p); hset h a (Entry (edatum e) f).
(** reading an element of the local array update (sl.c:292); unset: undefined *)
Definition uget (u : list ptr) (i : nat) : res positive :=
  p ← aget u i; match p with Some a => Ret a | None => UB end.

(** _sl_check_list (sl.c:78-88): a live list passes, NULL aborts *)
Definition slget w (l : ptr) : res (positive * slist K) :=
  match l with None => Abort | Some a => x ← hget (oblk (sobj w)) a; Ret (a, x) end.
Definition slset (o : oworld (slist K)) (a : positive) (x : slist K) : res (oworld (slist K)) :=
  b ← hset (oblk o) a x; Ret (OW (osh o) b (oinf o)).

(** _sl_create_entry (sl.c:140-159).  The block has room for forward[0] (declared in
    the struct) and maxLevel + 1 more slots. *)
Definition sl_create_entry al h (maxLevel : nat) (d : ptr) : res (gmap positive entry * positive) :=
  if (MaxLevel <? maxLevel)%nat then Abort else
  match sa_entry al h with
  | None => Fatal
  | Some a => Ret (<[a := Entry d (replicate (maxLevel + 2) None)]> h, a)
  end.

(** sl_create (sl.c:172-202) *)
Definition sl_create al w (cmp : option (K -> K -> Z)) (key : option (ptr -> K)) : res (sworld K * positive) :=
  '(o, m) ← (match smem w with
             | None => mem_create_objects (sa_obj al) (sobj w) sizeof_sl
             | Some m => Ret (sobj w, m)
             end);
  match cmp, key with
  | Some cmp, Some key =>
      '(o1, l) ← mem_get_object (sa_obj al) o m;
      '(h, e) ← sl_create_entry al (sent w) MaxLevel None;
      o2 ← slset o1 l (SL 0 0 e cmp key);
      h' ← for_up (S MaxLevel) 0 (fun i h => fset h e i None) h;
      Ret (SW (Some m) o2 h', l)
  | _, _ => Abort
  end.

(** the loop of sl_destroy (sl.c:216-222) *)
Fixpoint free_entries (fuel : nat) h (e : ptr) : res (gmap positive entry) :=
  match fuel with
  | O => Diverge
  | S fuel' =>
      match e with
      | None => Ret h
      | Some a => n ← fget h a 0; h' ← hfree h a; free_entries fuel' h' n
      end
  end.
Definition entry_fuel h : nat := S (S (size h)).

(** sl_destroy (sl.c:209-227) *)
Definition sl_destroy al w (l : ptr) : res (sworld K) :=
  '(a, x) ← slget w l;
  h ← free_entries (entry_fuel (sent w)) (sent w) (Some (shead x));
  match smem w with
  | None => Abort
  | Some m => o ← mem_free_object (sa_obj al) (sobj w) m (Some a); Ret (SW (Some m) o h)
  end.

(** _sl_shutdown (sl.c:233-237) *)
Definition sl_shutdown w : res (sworld K) :=
  match smem w with
  | None => Ret w
  | Some m => o ← mem_destroy_objects (sobj w) m; Ret (SW None o (sent w))
  end.

(** _sl_random_level (sl.c:249-259); [rnd n] is the value of the n-th call of
    random() during this call *)
Fixpoint random_loop (rnd : nat -> N) (fuel n level : nat) : nat :=
  match fuel with
  | O => level
  | S fuel' => if N.testbit (rnd n) 7 && (level <? MaxLevel)%nat then random_loop rnd fuel' (S n) (S level) else level
  end.
Definition random_level (rnd : nat -> N) : nat := random_loop rnd MaxLevel 0 1.

(** the inner loop of _sl_locate (sl.c:277-279) *)
Fixpoint walk (cmp : K -> K -> Z) (key : ptr -> K) h (k : K) (i : nat) (fuel : nat) (pt : positive) : res positive :=
  match fuel with
  | O => Diverge
  | S fuel' =>
      n ← fget h pt i;
      match n with
      | None => Ret pt
      | Some q => e ← hget h q;
          if cmp (key (edatum e)) k <? 0 then walk cmp key h k i fuel' q else Ret pt
      end
  end.
(** the outer loop of _sl_locate (sl.c:276-281), from level [i] down to 0 *)
Fixpoint locate_loop (cmp : K -> K -> Z) (key : ptr -> K) h (k : K) (i : nat) (pt : positive) (u : list ptr)
  : res (positive * list ptr) :=
  pt' ← walk cmp key h k i (entry_fuel h) pt;
  u' ← aset u i (Some pt');
  match i with O => Ret (pt', u') | S i' => locate_loop cmp key h k i' pt' u' end.
(** _sl_locate (sl.c:270-284) *)
Definition locate x h (k : K) (u : list ptr) : res (ptr * list ptr) :=
  '(pt, u') ← locate_loop (scmp x) (skey x) h k (slevel x) (shead x) u;
  n ← fget h pt 0;
  Ret (n, u').
(** _sl_Entry update[_sl_MaxLevel + 1], uninitialised *)
Definition update0 : list ptr := replicate (S MaxLevel) None.

(** pt && !l->compare(l->key(pt->datum), key)  (sl.c:307, 374) *)
Definition is_at x h (pt : ptr) (k : K) : res bool :=
  match pt with
  | None => Ret false
  | Some a => e ← hget h a; Ret (scmp x (skey x (edatum e)) k =? 0)
  end.

(** the body of the loop of sl_insert (sl.c:318-320) *)
Definition splice_in (u : list ptr) (e : positive) (i : nat) h : res (gmap positive entry) :=
  p ← uget u i; n ← fget h p i; h1 ← fset h e i n; fset h1 p i (Some e).

(** sl_insert (sl.c:289-324) *)
Definition sl_insert al (rnd : nat -> N) w (l : ptr) (d : ptr) : res (sworld K) :=
  let level := random_level rnd in
  '(a, x) ← slget w l;
  let k := skey x d in
  '(pt, u) ← locate x (sent w) k update0;
  dup ← is_at x (sent w) pt k;
  if (dup : bool) then Abort else
  '(level, slev, u) ← (if (slevel x <? level)%nat
                       then u' ← aset u (S (slevel x)) (Some (shead x)); Ret (S (slevel x), S (slevel x), u')
                       else Ret (level, slevel x, u));
  '(h, e) ← sl_create_entry al (sent w) level d;
  h' ← for_up (S level) 0 (splice_in u e) h;
  c ← sint (scount x + 1);
  o ← slset (sobj w) a (SL slev c (shead x) (scmp x) (skey x));
  Ret (SW (smem w) o h').

(** the body of the loop of sl_delete (sl.c:350-351) *)
Definition splice_out (u : list ptr) (pt : positive) (i : nat) h : res (gmap positive entry) :=
  p ← uget u i; n ← fget h p i;
  if decide (n = Some pt) then q ← fget h pt i; fset h p i q else Ret h.

(** sl.c:355-356: while (l->level && !l->head->forward[l->level]) --l->level *)
Fixpoint lower h (hd : positive) (level : nat) : res nat :=
  match level with
  | O => Ret O
  | S level' => n ← fget h hd level; match n with None => lower h hd level' | Some _ => Ret level end
  end.

(** the lines printed by the loop of _sl_dump (sl.c:465-482): address, number, datum,
    key (0 for a NULL datum) *)
Fixpoint dump_loop (key : ptr -> K) h (fuel : nat) (pt : ptr) (count : Z) : res (list (positive * Z * ptr * option K)) :=
  match fuel with
  | O => Diverge
  | S fuel' =>
      match pt with
      | None => Ret []
      | Some a =>
          e ← hget h a;
          c ← sint (count + 1);
          n ← fget h a 0;
          r ← dump_loop key h fuel' n c;
          Ret ((a, count, edatum e, match edatum e with None => None | Some _ => Some (key (edatum e)) end) :: r)
      end
  end.
(** _sl_dump (sl.c:456-483) *)
Definition sl_dump w (l : ptr) : res (nat * Z * list (positive * Z * ptr * option K)) :=
  '(_, x) ← slget w l;
  r ← dump_loop (skey x) (sent w) (entry_fuel (sent w)) (Some (shead x)) 0;
  Ret (slevel x, scount x, r).

(** sl_delete (sl.c:328-359) *)
Definition sl_delete w (l : ptr) (d : ptr) : res (sworld K) :=
  '(a, x) ← slget w l;
  let k := skey x d in
  '(pt, u) ← locate x (sent w) k update0;
  here ← is_at x (sent w) pt k;
  match (here : bool), pt with
  | true, Some pt =>
      h1 ← for_up (S (slevel x)) 0 (splice_out u pt) (sent w);
      h2 ← hfree h1 pt;
      lev ← lower h2 (shead x) (slevel x);
      c ← sint (scount x - 1);
      o ← slset (sobj w) a (SL lev c (shead x) (scmp x) (skey x));
      Ret (SW (smem w) o h2)
  | _, _ => _ ← sl_dump w l; Abort
  end.

(** sl_find (sl.c:364-376) *)
Definition sl_find w (l : ptr) (k : K) : res ptr :=
  '(a, x) ← slget w l;
  '(pt, u) ← locate x (sent w) k update0;
  here ← is_at x (sent w) pt k;
  match (here : bool), pt with
  | true, Some a => e ← hget (sent w) a; Ret (edatum e)
  | _, _ => Ret None
  end.

(** sl.c:403-405: the data are copied into a local array of count pointers *)
Fixpoint copy_loop h (fuel : nat) (i : nat) (pt : ptr) (c : list (option ptr)) : res (list (option ptr)) :=
  match fuel with
  | O => Diverge
  | S fuel' =>
      match pt with
      | None => Ret c
      | Some a => e ← hget h a; c' ← aset c i (Some (edatum e)); n ← fget h a 0; copy_loop h fuel' (S i) n c'
      end
  end.
Section Iter.
Context {X : Type} (f : X -> sworld K -> ptr -> res (X * sworld K * Z)).
(** sl.c:406-408: for (i = 0; i < count; i++) if ((retcode = f(copy[i]))) return retcode; *)
Fixpoint call_loop (n i : nat) (c : list (option ptr)) (s : X) w : res (X * sworld K * Z) :=
  match n with
  | O => Ret (s, w, 0)
  | S n' =>
      d ← aget c i;
      match d with
      | None => UB
      | Some d => '(s', w', r) ← f s w d; if r =? 0 then call_loop n' (S i) c s' w' else Ret (s', w', r)
      end
  end.
(** sl_iterate (sl.c:383-413) and sl_iterate_arg (sl.c:420-451), whose argument is part of [f];
    [f] may change the world and the state [X].  The space of alloca is not bounded here. *)
Definition sl_iterate (s : X) w (l : ptr) : res (X * sworld K * Z) :=
  match l with
  | None => Ret (s, w, 0)
  | Some _ =>
      '(_, x) ← slget w l;
      let count := Z.to_nat (scount x) in
      p ← fget (sent w) (shead x) 0;
      c ← copy_loop (sent w) (entry_fuel (sent w)) 0 p (replicate count None);
      call_loop count 0 c s w
  end.
End Iter.
End Skip.
