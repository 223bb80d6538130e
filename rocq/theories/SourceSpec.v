(** The source manager as its user sees it: the current place, the lines stored, the tokens. *)
From Verif Require Import Base CStr StackModel ObjModel ObjProofs MemModel MemProofs MemHist PrimeModel HashModel HashFnModel HashFnProofs.
From Verif Require Import StrModel StrProofs StrHist ArgModel ArgSpec ArgProofs PrsModel PrsSpec SourceModel.
Local Open Scope Z_scope.

(** a token: the file name, line, offset and length at the time of src_get, and the text of
    the last line stored by then ([None]: no file named, no line stored yet) *)
Record gtok := GTok { k_file : option (list N); k_line : Z; k_offset : Z; k_length : Z; k_text : option (list N) }.
(** [g_before]: lines stored before the manager was created (again); [g_lines], [g_bytes],
    [g_toks]: lines, bytes and tokens stored since; [g_named]: a file has been named *)
Record gsrc := GS {
  g_exists : bool; g_file : option (list N); g_line : Z; g_offset : Z;
  g_before : nat; g_lines : list (list N); g_bytes : Z; g_toks : gmap positive gtok; g_named : bool }.
Definition g_start : gsrc := GS false None 0 0 0 [] 0 ∅ false.

(** what the calls do to it *)
Definition created (g : gsrc) : gsrc :=
  if g_exists g then g else GS true (g_file g) (g_line g) (g_offset g) (g_before g) [] 0 ∅ (g_named g).
Definition destroyed (g : gsrc) : gsrc :=
  GS false (g_file g) (g_line g) (g_offset g) (g_before g + length (g_lines g)) [] 0 ∅ (g_named g).
Definition lined (g : gsrc) (text : list N) (len : Z) : gsrc :=
  let g := created g in
  GS true (g_file g) (g_line g + 1) 0 (g_before g) (g_lines g ++ [text]) (g_bytes g + len + 1) (g_toks g) (g_named g).
Definition named_file (g : gsrc) (name : list N) : gsrc :=
  GS (g_exists g) (Some name) (g_line g) (g_offset g) (g_before g) (g_lines g) (g_bytes g) (g_toks g) true.
Definition numbered (g : gsrc) (line : Z) : gsrc :=
  GS (g_exists g) (g_file g) line (g_offset g) (g_before g) (g_lines g) (g_bytes g) (g_toks g) (g_named g).
Definition advanced (g : gsrc) (n : Z) : gsrc :=
  GS (g_exists g) (g_file g) (g_line g) (g_offset g + n) (g_before g) (g_lines g) (g_bytes g) (g_toks g) (g_named g).
Definition here (g : gsrc) (n : Z) : gtok := GTok (g_file g) (g_line g) (g_offset g) n (last (g_lines g)).
Definition took (g : gsrc) (a : positive) (n : Z) : gsrc :=
  GS (g_exists g) (g_file g) (g_line g) (g_offset g + n) (g_before g) (g_lines g) (g_bytes g) (<[a := here g n]> (g_toks g)) (g_named g).

(** tabs become blanks *)
Definition tabless (s : list N) : list N := (fun c => if decide (c = 9%N) then 32%N else c) <$> s.
Definition is_int (z : Z) : Prop := - 2 ^ 31 <= z < 2 ^ 31.

(** ** the text of a number, for atoi *)
Definition space (c : N) : Prop := c = 32%N \/ (9 <= c <= 13)%N.
Definition digit (c : N) : Prop := (48 <= c <= 57)%N.
Definition value (ds : list N) : Z := fold_left (fun n d => 10 * n + (Z.of_N d - 48)) ds 0.
Inductive number : list N -> Z -> Prop :=
| num_plus sp sg ds tl : Forall space sp -> sg = [] \/ sg = [43%N] -> Forall digit ds ->
    match tl with [] => True | c :: _ => ~ digit c end ->
    (sg = [] -> ds = [] -> match tl with [] => True | c :: _ => ~ space c /\ c <> 43%N /\ c <> 45%N end) ->
    number (sp ++ sg ++ ds ++ tl) (value ds)
| num_minus sp ds tl : Forall space sp -> Forall digit ds -> match tl with [] => True | c :: _ => ~ digit c end ->
    number (sp ++ 45%N :: ds ++ tl) (- value ds).
(** the line number a cpp line sets: one less than it says, since the next src_line adds one *)
Definition cpp_number (z : Z) : Z := if z >? 0 then z - 1 else 1.
(** the first [n] bytes of the argument, or fewer if a NUL comes first, are the text [s] *)
Definition first_bytes (src : list N) (n : Z) (s : list N) : Prop :=
  exists tl, src = s ++ tl /\ (n = Z.of_nat (length s) \/ (Z.of_nat (length s) < n /\ exists tl', tl = 0%N :: tl')).

(** ** the massage of yyerror messages: ``c'' becomes `c'; `T_name' becomes `concrete' when
    a concrete name is registered *)
Definition constant (s : list N) : Prop := exists c s', c <> 0%N /\ s = [96; 96; c; 39; 39]%N ++ s'.
Definition symbolic (s : list N) : Prop := exists s', s = [96; 84; 95]%N ++ s'.
Definition concrete_of (R : list (list N * list N)) (name : list N) : list N :=
  match first_concrete name R with Some c => c | None => name end.
Inductive massage (R : list (list N * list N)) : list N -> list N -> Prop :=
| m_nil : massage R [] []
| m_char c s out : c <> 96%N -> massage R s out -> massage R (c :: s) (c :: out)
| m_constant c s out : c <> 0%N -> massage R s out -> massage R ([96; 96; c; 39; 39]%N ++ s) ([96; c; 39]%N ++ out)
| m_symbol name s out : 39%N ∉ name -> symbolic (96%N :: name ++ [39%N]) -> (N.of_nat (length name) < 1024)%N ->
    massage R s out -> massage R (96%N :: name ++ 39%N :: s) (96%N :: concrete_of R name ++ 39%N :: out)
| m_tick s out : ~ constant (96%N :: s) -> ~ symbolic (96%N :: s) -> massage R s out -> massage R (96%N :: s) (96%N :: out).

(** malloc; stk_push does not check it *)
Record salloc_ok (al : salloc) : Prop := {
  sal_mem : malloc_good (sa_mem al); sal_node : nodes_ok (sa_mem al);
  sal_obj : oalloc_ok (fun _ _ => True) (sa_obj al); sal_onode : forall h, al_node (sa_obj al) h <> None;
  sal_str : palloc_ok (sa_str al); sal_arg : aalloc_ok (sa_arg al) }.

(** the program state with the string pools, the registered concrete names and the view *)
Definition sst : Type := srcw * gmap positive pgh * list (list N * list N) * gsrc.
(** room for one more line, token, file name: counters are ints *)
Definition line_room (g : gsrc) (len : Z) : Prop :=
  Z.of_nat (g_before g + length (g_lines g)) + 1001 < 2 ^ 31 /\ g_bytes g + len + 1 < 2 ^ 31 /\ is_int (g_line g + 1).
Definition token_room (g : gsrc) (n : Z) : Prop := Z.of_nat (size (g_toks g)) < 2 ^ 31 - 1 /\ is_int (g_offset g + n).
Definition name_room (w : pworld) (G : gmap positive pgh) (s : list N) : Prop :=
  forall q, global_of w G q -> assoc s (q_int q) = None -> q_ro q = 0 /\ room (q_mem q) (Z.of_nat (length s) + 1).

(** One call that returned.  String calls may come in between, but the global string pool
    must not be destroyed once a file or a concrete name has been given. *)
Inductive src_call : sst -> sst -> Prop :=
| sc_create al w G R g w' : salloc_ok al -> src_create al w = Ret w' -> src_call (w, G, R, g) (w', G, R, created g)
| sc_destroy w G R g w' : src_destroy w = Ret w' -> g_exists g = true -> src_call (w, G, R, g) (w', G, R, destroyed g)
| sc_line al w G R g s rest len w' a : salloc_ok al -> str_ok s ->
    Z.of_nat (length s) <= len < Z.of_nat (length (s ++ 0%N :: rest)) -> line_room (created g) len ->
    src_line al w (s ++ 0%N :: rest) len = Ret (w', a) -> src_call (w, G, R, g) (w', G, R, lined g (tabless s) len)
| sc_file al w G R g s rest w' a G' : salloc_ok al -> str_ok s -> name_room (rw (w_prs w)) G s ->
    src_new_file al w (s ++ 0%N :: rest) = Ret w' ->
    gfind (sa_str al) (rw (w_prs w), G) (s, rest) a (rw (w_prs w'), G') ->
    src_call (w, G, R, g) (w', G', R, named_file g s)
| sc_number w G R g l : is_int l -> src_call (w, G, R, g) (src_new_line w l, G, R, numbered g l)
| sc_advance w G R g n w' : src_advance w n = Ret w' -> src_call (w, G, R, g) (w', G, R, advanced g n)
| sc_cpp2 al w G R g src n s v0 v1 z w' : salloc_ok al -> first_bytes src n s -> str_ok s -> Z.of_nat (length s) + 3 < 2 ^ 30 ->
    line true true s [v0; v1] -> number v1 z -> is_int z ->
    src_cpp_line al w src n = Ret w' -> src_call (w, G, R, g) (w', G, R, numbered g (cpp_number z))
| sc_cpp al w G R g src n s v0 v1 v2 vs z w' a G' : salloc_ok al -> first_bytes src n s -> str_ok s -> Z.of_nat (length s) + 3 < 2 ^ 30 ->
    line true true s (v0 :: v1 :: v2 :: vs) -> number v1 z -> is_int z -> name_room (rw (w_prs w)) G v2 ->
    src_cpp_line al w src n = Ret w' ->
    gfind (sa_str al) (rw (w_prs w), G) (v2, []) a (rw (w_prs w'), G') ->
    src_call (w, G, R, g) (w', G', R, named_file (numbered g (cpp_number z)) v2)
| sc_get al w G R g n w' a : salloc_ok al -> token_room g n -> is_int n ->
    src_get al w n = Ret (w', a) -> src_call (w, G, R, g) (w', G, R, took g a n)
| sc_error w G R g st source s rest out m w' : str_ok s -> massage R s m ->
    src_parse_error w st source (Some (s ++ 0%N :: rest)) = Ret (w', out) -> src_call (w, G, R, g) (w', G, R, g)
| sc_string w G R g p' G' : pcall (rw (w_prs w), G) (p', G') -> (R = [] /\ g_named g = false \/ glob p' = glob (rw (w_prs w))) ->
    src_call (w, G, R, g) (set_prs w (PRS p' (rtab (w_prs w))), G', R, g)
| sc_register first al w G R g sym con r1 r2 p' x y a1 a2 w1 G1 G' : palloc_ok al ->
    str_ok sym -> str_ok con -> roomy (rw (w_prs w)) G sym con ->
    prs_register_concrete first al (w_prs w) (sym ++ 0%N :: r1) (con ++ 0%N :: r2) = Ret p' ->
    (x, y) = (if first then ((sym, r1), (con, r2)) else ((con, r2), (sym, r1))) ->
    gfind al (rw (w_prs w), G) x a1 (w1, G1) -> gfind al (w1, G1) y a2 (rw p', G') ->
    src_call (w, G, R, g) (set_prs w p', G', R ++ [(sym, con)], g)
| sc_concrete w G R g sym rest p' r : str_ok sym -> prs_concrete (w_prs w) (sym ++ 0%N :: rest) = Ret (p', r) ->
    src_call (w, G, R, g) (set_prs w p', G, R, g).

Definition src_later : sst -> sst -> Prop := rtc src_call.
Definition src_history (w : srcw) G R (g : gsrc) : Prop := src_later (src_start, ∅, [], g_start) (w, G, R, g).

(** calls that do not destroy the manager *)
Definition src_while : sst -> sst -> Prop := rtc (fun x y => src_call x y /\ g_exists y.2 = true).
(** the memory holds the string [s] at [a] *)
Definition spells (m : gmap positive (list N)) (a : positive) (s : list N) : Prop := exists rest, m !! a = Some (s ++ 0%N :: rest).
(** the bytes of an int in decimal: a minus sign if negative, no leading zeros *)
Definition decimal (z : Z) (b : list N) : Prop :=
  exists ds, b = (if decide (z < 0) then [45%N] else []) ++ ds /\ Forall digit ds /\ value ds = Z.abs z /\
    match ds with [] => False | d :: ds' => d = 48%N -> ds' = [] end.
(** a message that runs away: it has an opening `T_ with no closing quote, or with a symbol of
    1024 characters or more *)
Inductive runaway : list N -> Prop :=
| r_open name : 39%N ∉ name -> symbolic (96%N :: name) -> runaway (96%N :: name)
| r_long name s : 39%N ∉ name -> symbolic (96%N :: name) -> (1024 <= N.of_nat (length name))%N -> runaway (96%N :: name ++ 39%N :: s)
| r_char c s : c <> 96%N -> runaway s -> runaway (c :: s)
| r_constant c s : c <> 0%N -> runaway s -> runaway ([96; 96; c; 39; 39]%N ++ s)
| r_symbol name s : 39%N ∉ name -> symbolic (96%N :: name) -> (N.of_nat (length name) < 1024)%N -> runaway s -> runaway (96%N :: name ++ 39%N :: s)
| r_tick s : ~ constant (96%N :: s) -> ~ symbolic (96%N :: s) -> runaway s -> runaway (96%N :: s).
(** what is printed for a token: "file:line: " *)
Definition place (f d : list N) : list N := f ++ [58%N] ++ d ++ [58; 32]%N.
(** what the accessors say of the token [a]: everything recorded in [t] *)
Definition shown (w : srcw) (a : positive) (t : gtok) : Prop :=
  src_linenumber w (Some a) = Ret (k_line t) /\ src_offset w (Some a) = Ret (k_offset t) /\ src_length w (Some a) = Ret (k_length t) /\
  match k_file t with
  | None => src_filename w (Some a) = Ret (inr None)
  | Some f => exists b, src_filename w (Some a) = Ret (inr (Some b)) /\ spells (mblk (pmem (rw (w_prs w)))) b f
  end /\
  match k_text t with
  | None => True
  | Some s => exists b, src_source_line w (Some a) = Ret (inr b) /\ spells (mblk (w_text w)) b s
  end.
