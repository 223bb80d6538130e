(** Common parts of the replays of the upstream tests (Replay*.v): the text the
    test programs write.  A replay is the test program written against the model;
    the kernel computes the text it writes, which is the test's expect.out.  That
    checks the model; it is not a theorem about all inputs. *)
From Coq Require Import String.
From Verif Require Import Base CStr.
From Verif Require StrModel SourceModel.
Notation length := List.length.
Local Open Scope Z_scope.
Notation bytes := (list N).
Definition text : string -> bytes := SourceModel.text.
Definition num : Z -> bytes := StrModel.c_itoa.
Definition nl : bytes := [10%N].
Definition sp : bytes := [32%N].
Definition quote : bytes := [34%N].
(** the string a pointer points to: the characters before the null character *)
Fixpoint upto (c : N) (s : bytes) : bytes :=
  match s with [] => [] | b :: s' => if (b =? c)%N then [] else b :: upto c s' end.
Definition cstr (s : bytes) : bytes := upto 0 s.
Definition line (s : string) (b : bytes) : bytes := text s ++ b ++ nl.
Definition yesno (b : bool) : bytes := text (if b then "yes" else "no").
(** %08lx *)
Definition hexdigit (n : N) : N := if (n <? 10)%N then n + 48 else n + 87.
Definition hex8 (n : N) : bytes := (fun i => hexdigit ((n / 16 ^ N.of_nat i) mod 16)) <$> reverse (seq 0 8).
