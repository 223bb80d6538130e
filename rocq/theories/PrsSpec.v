(** Concrete names: the list of registrations, oldest first. *)
From Verif Require Import Base CStr StackModel ObjModel MemModel MemProofs MemHist PrimeModel HashModel HashFnModel HashFnProofs StrModel StrProofs StrHist PrsModel.
Local Open Scope Z_scope.

(** the first concrete name registered for a symbol *)
Fixpoint first_concrete (symbol : list N) (R : list (list N * list N)) : option (list N) :=
  match R with
  | [] => None
  | (s, c) :: R' => if decide (s = symbol) then Some c else first_concrete symbol R'
  end.

(** what str_find does to the pools ([StrHist]): it makes the global pool if there is
    none, and enters the string.  The argument is [s], NUL, [rest] *)
Inductive gfind (al : palloc) : pst -> list N * list N -> positive -> pst -> Prop :=
| gf w G s rest w' a p g G1 : str_find al w (s ++ 0%N :: rest) = Ret (w', a) -> glob w' = Some p ->
    G1 = match glob w with Some _ => G | None => <[p := fresh_pool]> G end -> G1 !! p = Some g ->
    gfind al (w, G) (s, rest) a (w', <[p := found g s a]> G1).

(** the strings of the global pool; none before its first use *)
Definition global_of (w : pworld) (G : gmap positive pgh) (g : pgh) : Prop :=
  match glob w with Some p => G !! p = Some g | None => g = fresh_pool end.
(** room for two more strings in the global pool, which no loop is going over *)
Definition roomy (w : pworld) (G : gmap positive pgh) (s1 s2 : list N) : Prop :=
  forall g, global_of w G g ->
    q_ro g = 0 /\ Z.of_nat (length (s_done (q_mem g))) + 2 < 2 ^ 31 /\
    s_bytes (q_mem g) + Z.of_nat (length s1) + Z.of_nat (length s2) + 2 < 2 ^ 31.

(** states reached, with the string pools and the registrations.  Any string calls may come
    in between, but the global pool must not be destroyed once a name is registered. *)
Inductive prs_history : prsw -> gmap positive pgh -> list (list N * list N) -> Prop :=
| ph_start : prs_history prs_start ∅ []
| ph_string s G R w' G' : prs_history s G R -> pcall (rw s, G) (w', G') -> (R = [] \/ glob w' = glob (rw s)) ->
    prs_history (PRS w' (rtab s)) G' R
| ph_register first al s G R sym con r1 r2 s' x y a1 a2 w1 G1 G' : prs_history s G R -> palloc_ok al ->
    str_ok sym -> str_ok con -> roomy (rw s) G sym con ->
    prs_register_concrete first al s (sym ++ 0%N :: r1) (con ++ 0%N :: r2) = Ret s' ->
    (x, y) = (if first then ((sym, r1), (con, r2)) else ((con, r2), (sym, r1))) ->
    gfind al (rw s, G) x a1 (w1, G1) -> gfind al (w1, G1) y a2 (rw s', G') ->
    prs_history s' G' (R ++ [(sym, con)])
| ph_concrete s G R sym rest s' r : prs_history s G R -> str_ok sym ->
    prs_concrete s (sym ++ 0%N :: rest) = Ret (s', r) -> prs_history s' G R
| ph_shutdown s G nodes : prs_history s G [] -> prs_shutdown s = Ret (s, nodes) -> prs_history s G [].
