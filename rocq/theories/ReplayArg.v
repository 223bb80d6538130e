(** The upstream test tests/arg/argtest.c, replayed on the model: its output,
    computed by the kernel from tests/arg/argtest.in, is tests/arg/expect.out.
    A check of the model, not a theorem about all inputs. *)
From Coq Require Import String.
From Verif Require Import Base CStr Alloc MemModel ArgModel ArgProps.
From Verif Require StrModel SourceModel.
Notation length := List.length.
Local Open Scope Z_scope.
Import SourceModel(text). Import StrModel(c_itoa).
Notation bytes := (list N).
Definition nl : bytes := [10%N].
Definition quote : bytes := [34%N].

(** the characters before the null character *)
Fixpoint upto (c : N) (s : bytes) : bytes :=
  match s with [] => [] | b :: s' => if (b =? c)%N then [] else b :: upto c s' end.
(** fgets: the lines, each with its newline *)
Fixpoint lines (s : bytes) (cur : bytes) : list bytes :=
  match s with
  | [] => match cur with [] => [] | _ => [cur] end
  | b :: s' => if (b =? 10)%N then (cur ++ [b]) :: lines s' [] else lines s' (cur ++ [b])
  end.
Fixpoint after (c : N) (s : bytes) : option bytes :=
  match s with [] => None | b :: s' => if (b =? c)%N then Some s' else after c s' end.
(** argtest.c:57-63: what stands between the first and the last backquote; if
    there is only one, everything after it *)
Definition between (l : bytes) : bytes :=
  match after 96 l with
  | None => []
  | Some s => match after 96 (reverse s) with Some r => reverse r | None => s end
  end.
(** argtest.c:67-72 *)
Definition words (line : bytes) (style : Z) : res bytes :=
  '(w, a) ← arg_argify ex_aal aempty (line ++ [0%N]) style;
  '(c, v) ← arg_get_vector w (Some a);
  w' ← arg_destroy w (Some a);
  Ret (List.concat ((fun '(i, p) => text "Arg " ++ c_itoa (Z.of_nat i) ++ text " = " ++ quote ++
                       match p with Some (Some q) => upto 0 (default [] (mblk (amem w) !! q)) | _ => text "?" end ++ quote ++ nl)
                    <$> zip (seq 0 (Z.to_nat c)) v) ++ nl).
Fixpoint argtest (ls : list bytes) : res bytes :=
  match ls with
  | [] => Ret []
  | l :: ls' =>
      let line := between l in
      o0 ← words line 0; o1 ← words line ARG_NO_ESCAPE; o2 ← words line ARG_NO_QUOTE; o3 ← words line (Z.lor ARG_NO_QUOTE ARG_NO_ESCAPE);
      o ← argtest ls';
      Ret (text "---------------------" ++ nl ++ text "Input = " ++ quote ++ line ++ quote ++ nl ++ nl ++ o0 ++ o1 ++ o2 ++ o3 ++ o)
  end.
Definition input : bytes := text "`\\This  is a ""test of quotes"" and  ano'ther test'  `
`""quotes""`
`""quotesa"" foo """" ""quotes'b"" '' 'foo'""'""'bar'`
`noquotes`
`  aaa1 foo  `
`  aaa2 foo`
`aaa3 foo   `
`  `
``
`\\`
`1''2''3''4`
`' 1'' 2'
`"" 1"""" 2""
`   ""   123""' 234'   `
`1''""""''""""''""""''""""2`
`''1""""2''`
`''1 """"2 '' """"`
`'\''1`
`1\ 2\ 3\ 4 \ 5`
`\ \ \ \ `
`\ \'\""\ `
".
Example argtest_expect : argtest (lines input []) = Ret (text "---------------------
Input = ""\\This  is a ""test of quotes"" and  ano'ther test'  ""

Arg 0 = ""\This""
Arg 1 = ""is""
Arg 2 = ""a""
Arg 3 = ""test of quotes""
Arg 4 = ""and""
Arg 5 = ""another test""

Arg 0 = ""\\This""
Arg 1 = ""is""
Arg 2 = ""a""
Arg 3 = ""test of quotes""
Arg 4 = ""and""
Arg 5 = ""another test""

Arg 0 = ""\This""
Arg 1 = ""is""
Arg 2 = ""a""
Arg 3 = """"test""
Arg 4 = ""of""
Arg 5 = ""quotes""""
Arg 6 = ""and""
Arg 7 = ""ano'ther""
Arg 8 = ""test'""

Arg 0 = ""\\This""
Arg 1 = ""is""
Arg 2 = ""a""
Arg 3 = """"test""
Arg 4 = ""of""
Arg 5 = ""quotes""""
Arg 6 = ""and""
Arg 7 = ""ano'ther""
Arg 8 = ""test'""

---------------------
Input = """"quotes""""

Arg 0 = ""quotes""

Arg 0 = ""quotes""

Arg 0 = """"quotes""""

Arg 0 = """"quotes""""

---------------------
Input = """"quotesa"" foo """" ""quotes'b"" '' 'foo'""'""'bar'""

Arg 0 = ""quotesa""
Arg 1 = ""foo""
Arg 2 = """"
Arg 3 = ""quotes'b""
Arg 4 = """"
Arg 5 = ""foo'bar""

Arg 0 = ""quotesa""
Arg 1 = ""foo""
Arg 2 = """"
Arg 3 = ""quotes'b""
Arg 4 = """"
Arg 5 = ""foo'bar""

Arg 0 = """"quotesa""""
Arg 1 = ""foo""
Arg 2 = """"""""
Arg 3 = """"quotes'b""""
Arg 4 = ""''""
Arg 5 = ""'foo'""'""'bar'""

Arg 0 = """"quotesa""""
Arg 1 = ""foo""
Arg 2 = """"""""
Arg 3 = """"quotes'b""""
Arg 4 = ""''""
Arg 5 = ""'foo'""'""'bar'""

---------------------
Input = ""noquotes""

Arg 0 = ""noquotes""

Arg 0 = ""noquotes""

Arg 0 = ""noquotes""

Arg 0 = ""noquotes""

---------------------
Input = ""  aaa1 foo  ""

Arg 0 = ""aaa1""
Arg 1 = ""foo""

Arg 0 = ""aaa1""
Arg 1 = ""foo""

Arg 0 = ""aaa1""
Arg 1 = ""foo""

Arg 0 = ""aaa1""
Arg 1 = ""foo""

---------------------
Input = ""  aaa2 foo""

Arg 0 = ""aaa2""
Arg 1 = ""foo""

Arg 0 = ""aaa2""
Arg 1 = ""foo""

Arg 0 = ""aaa2""
Arg 1 = ""foo""

Arg 0 = ""aaa2""
Arg 1 = ""foo""

---------------------
Input = ""aaa3 foo   ""

Arg 0 = ""aaa3""
Arg 1 = ""foo""

Arg 0 = ""aaa3""
Arg 1 = ""foo""

Arg 0 = ""aaa3""
Arg 1 = ""foo""

Arg 0 = ""aaa3""
Arg 1 = ""foo""

---------------------
Input = ""  ""





---------------------
Input = """"





---------------------
Input = ""\\""

Arg 0 = ""\""

Arg 0 = ""\\""

Arg 0 = ""\""

Arg 0 = ""\\""

---------------------
Input = ""1''2''3''4""

Arg 0 = ""1234""

Arg 0 = ""1234""

Arg 0 = ""1''2''3''4""

Arg 0 = ""1''2''3''4""

---------------------
Input = ""' 1'' 2'
""

Arg 0 = "" 1 2""

Arg 0 = "" 1 2""

Arg 0 = ""'""
Arg 1 = ""1''""
Arg 2 = ""2'""

Arg 0 = ""'""
Arg 1 = ""1''""
Arg 2 = ""2'""

---------------------
Input = """" 1"""" 2""
""

Arg 0 = "" 1 2""

Arg 0 = "" 1 2""

Arg 0 = """"""
Arg 1 = ""1""""""
Arg 2 = ""2""""

Arg 0 = """"""
Arg 1 = ""1""""""
Arg 2 = ""2""""

---------------------
Input = ""   ""   123""' 234'   ""

Arg 0 = ""   123 234""

Arg 0 = ""   123 234""

Arg 0 = """"""
Arg 1 = ""123""'""
Arg 2 = ""234'""

Arg 0 = """"""
Arg 1 = ""123""'""
Arg 2 = ""234'""

---------------------
Input = ""1''""""''""""''""""''""""2""

Arg 0 = ""12""

Arg 0 = ""12""

Arg 0 = ""1''""""''""""''""""''""""2""

Arg 0 = ""1''""""''""""''""""''""""2""

---------------------
Input = ""''1""""2''""

Arg 0 = ""12""

Arg 0 = ""12""

Arg 0 = ""''1""""2''""

Arg 0 = ""''1""""2''""

---------------------
Input = ""''1 """"2 '' """"""

Arg 0 = ""1""
Arg 1 = ""2""
Arg 2 = """"
Arg 3 = """"

Arg 0 = ""1""
Arg 1 = ""2""
Arg 2 = """"
Arg 3 = """"

Arg 0 = ""''1""
Arg 1 = """"""2""
Arg 2 = ""''""
Arg 3 = """"""""

Arg 0 = ""''1""
Arg 1 = """"""2""
Arg 2 = ""''""
Arg 3 = """"""""

---------------------
Input = ""'\''1""

Arg 0 = ""\1""

Arg 0 = ""\1""

Arg 0 = ""'''1""

Arg 0 = ""'\''1""

---------------------
Input = ""1\ 2\ 3\ 4 \ 5""

Arg 0 = ""1 2 3 4""
Arg 1 = "" 5""

Arg 0 = ""1\""
Arg 1 = ""2\""
Arg 2 = ""3\""
Arg 3 = ""4""
Arg 4 = ""\""
Arg 5 = ""5""

Arg 0 = ""1 2 3 4""
Arg 1 = "" 5""

Arg 0 = ""1\""
Arg 1 = ""2\""
Arg 2 = ""3\""
Arg 3 = ""4""
Arg 4 = ""\""
Arg 5 = ""5""

---------------------
Input = ""\ \ \ \ ""

Arg 0 = ""    ""

Arg 0 = ""\""
Arg 1 = ""\""
Arg 2 = ""\""
Arg 3 = ""\""

Arg 0 = ""    ""

Arg 0 = ""\""
Arg 1 = ""\""
Arg 2 = ""\""
Arg 3 = ""\""

---------------------
Input = ""\ \'\""\ ""

Arg 0 = "" '"" ""

Arg 0 = ""\""
Arg 1 = ""\\""\ ""

Arg 0 = "" '"" ""

Arg 0 = ""\""
Arg 1 = ""\'\""\""

").
Proof. vm_compute. reflexivity. Qed.
