(** C99: what alloca promises, in terms of the functions on the C stack. *)
From Verif Require Import Base AllocaModel.
Local Open Scope Z_scope.

(** [beyond up a b]: [a] is further from the start of the stack than [b] *)
Definition beyond (up : bool) (a b : Z) : Prop := if up then b < a else a < b.
Global Instance beyond_dec up a b : Decision (beyond up a b).
Proof. unfold beyond. destruct up; apply _. Defined.
(** A function on the C stack: the address at which a call of alloca made from it
    has its local variable, and the blocks it got from alloca.  The function
    called last comes first. *)
Notation frame := (Z * list positive)%type.
(** A block in memory: its address, where the stack was and the bytes asked for *)
Notation block := (positive * Z * N)%type.
Definition keep (up : bool) (d : Z) (g : list block) : list block := filter (fun b => ~ beyond up b.1.2 d) g.

(** the calls of a program: calling a function, whose alloca is at [d]; returning; alloca *)
Inductive aop := Enter (d : Z) | Leave | Alloca (al : gmap positive header -> option positive) (d1 d2 : Z) (n : N).
Notation astate := (list frame * ast)%type.
Definition astep (st : astate) (c : aop) : res (astate * ptr) :=
  match c, st.1 with
  | Enter d, fs => Ret ((d, []) :: fs, st.2, None)
  | Leave, _ :: fs => Ret (fs, st.2, None)
  | Alloca al d1 d2 n, (d, bs) :: fs =>
      '(s, p) ← alloca al st.2 d d1 d2 n;
      Ret ((d, bs ++ option_list p) :: fs, s, p)
  | _, [] => UB
  end.
(** A program runs within its outermost function; a function called is further
    along the stack than its caller; a function that calls itself has its second
    variable further along the stack; malloc gives fresh memory *)
Definition alegal (up : bool) (fs : list frame) (c : aop) : Prop :=
  match c with
  | Enter d => match fs with (d0, _) :: _ => beyond up d d0 | [] => False end
  | Leave => match fs with _ :: _ :: _ => True | _ => False end
  | Alloca al d1 d2 n => malloc_ok al /\ beyond up d2 d1 /\ fs <> []
  end.
(** [areach up fs s g]: a program has come to the functions [fs] and the state [s],
    and the blocks in memory ought to be [g]: a call of alloca first drops the
    blocks obtained further along the stack than where it is called *)
Inductive areach (up : bool) : list frame -> ast -> list block -> Prop :=
| ar_start d : areach up [(d, [])] astart []
| ar_enter fs s g d : areach up fs s g -> alegal up fs (Enter d) -> areach up ((d, []) :: fs) s g
| ar_leave f fs s g : areach up (f :: fs) s g -> alegal up (f :: fs) Leave -> areach up fs s g
| ar_null d bs fs s g al d1 d2 n s' : areach up ((d, bs) :: fs) s g -> alegal up ((d, bs) :: fs) (Alloca al d1 d2 n) ->
    alloca al s d d1 d2 n = Ret (s', None) -> areach up ((d, bs) :: fs) s' (keep up d g)
| ar_new d bs fs s g al d1 d2 n s' a : areach up ((d, bs) :: fs) s g -> alegal up ((d, bs) :: fs) (Alloca al d1 d2 n) ->
    alloca al s d d1 d2 n = Ret (s', Some a) -> areach up ((d, bs ++ [a]) :: fs) s' ((a, d, u32 n) :: keep up d g).
