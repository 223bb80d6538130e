(** Vocabulary for what is printed. *)
From Verif Require Import Base HashModel PrintModel SourceSpec.
From Coq Require Import String Ascii.
Notation length := List.length.
Local Open Scope Z_scope.

(** parts of a text: words, a number in decimal, an address, a quotient, the end of a line *)
Inductive item := T (s : string) | Num (z : Z) | At (p : ptr) | Quot (a b : N) | EOL.
Inductive prints : list item -> list sym -> Prop :=
| p_nil : prints [] []
| p_text s l o : prints l o -> prints (T s :: l) (((fun c => B (N_of_ascii c)) <$> list_ascii_of_string s) ++ o)
| p_num z d l o : decimal z d -> prints l o -> prints (Num z :: l) ((B <$> d) ++ o)
| p_at p l o : prints l o -> prints (At p :: l) (Addr p :: o)
| p_quot a b l o : prints l o -> prints (Quot a b :: l) (Ratio a b :: o)
| p_eol l o : prints l o -> prints (EOL :: l) (B 10 :: o).
(** NULL stands for stdout *)
Definition goes_to (stream : option nat) (t : target) : Prop :=
  match stream with None => t = ToStdout | Some n => t = ToStream n end.

(** the report on a hash table or set *)
Definition stats_items (what : string) (self : ptr) (s : hstats) : list item :=
  [T "Statistics for "; T what; T " at "; At self; T ":"; EOL;
   T "   "; Num (Z.of_N (s_resizings s)); T " resizings to "; Num (Z.of_N (s_size s)); T " total"; EOL;
   T "   "; Num (Z.of_N (s_entries s)); T " entries ("; Num (Z.of_N (s_buckets_used s)); T " buckets used, ";
     Num (Z.of_N (s_singletons s)); T " without overflow)"; EOL;
   T "   maximum list length is "; Num (Z.of_N (s_maximum_length s))] ++
  (if decide (s_buckets_used s = 0%N) then [] else [T " (optimal is "; Quot (s_entries s) (s_buckets_used s); T ")"]) ++
  [EOL; T "   "; Num (Z.of_N (s_retrievals s)); T " retrievals ("; Num (Z.of_N (s_hits s)); T " from top, ";
     Num (Z.of_N (s_misses s)); T " failed)"; EOL].

(** keys printed in columns: each is followed by two blanks, and a line is ended as soon as it has 60 columns *)
Definition width (ks : list (list N)) : nat := sum_list ((fun k => length k + 2)%nat <$> ks).
Definition cells (ks : list (list N)) : list sym := List.concat ((fun k => (B <$> k) ++ [B 32; B 32]) <$> ks).
Definition full_line (ks : list (list N)) : Prop :=
  exists ks' k, ks = ks' ++ [k] /\ (width ks' < 60)%nat /\ (60 <= width ks)%nat.
Definition in_lines (ks : list (list N)) (out : list sym) : Prop :=
  exists lines lastl, ks = List.concat lines ++ lastl /\ Forall full_line lines /\ (width lastl < 60)%nat /\
    out = List.concat ((fun l => cells l ++ [B 10]) <$> lines) ++ cells lastl ++ [B 10].
