(** tests/base/basetest.c. *)
From Coq Require Import String.
From Verif Require Import Base CStr Replay BaseNModel.
Notation length := List.length.
Local Open Scope Z_scope.
(** basetest.c:39-59, 61-81.  The test runs through 0 .. 65534; here the values below 100 and those it prints
    (the others print nothing unless decoding fails: C20 and C21 are about all of them; the checker coqchk,
    which has no virtual machine, would take hours over all of them).  What the test reports on a failure is
    replaced by a mark *)
Definition bad : bytes := text "bad".
Definition printed (i : N) : bool := ((i <? 10) || (i mod 6553 =? 0))%N.
Definition b26_step (st : b26) (i : N) : res (b26 * bytes) :=
  '(st, r) ← b26_encode st i; d ← b26_decode r;
  '(st, r, o) ←
    (if (i <? 100)%N then
       '(st, r) ← b26_encode st 0; d0 ← b26_decode r;
       '(st, r) ← b26_encode st i; d1 ← b26_decode r;
       Ret (st, r, (if (d0 =? 0)%N then [] else bad) ++ (if (d1 =? i)%N then [] else bad))
     else Ret (st, r, []));
  Ret (st, (if (d =? i)%N then [] else bad) ++ o ++
           if printed i then num (Z.of_N i) ++ text " = " ++ cstr r ++ line " (base26)" [] else []).
Definition b64_step (_ : unit) (i : N) : res (unit * bytes) :=
  r ← b64_encode i; d ← b64_decode r;
  '(r, o) ←
    (if (i <? 100)%N then
       r ← b64_encode 0; d0 ← b64_decode r;
       r ← b64_encode i; d1 ← b64_decode r;
       Ret (r, (if (d0 =? 0)%N then [] else bad) ++ (if (d1 =? i)%N then [] else bad))
     else Ret (r, []));
  Ret (tt, (if (d =? i)%N then [] else bad) ++ o ++
           if printed i then num (Z.of_N i) ++ text " = " ++ cstr r ++ line " (base64)" [] else []).
Fixpoint loop {A} (f : A -> N -> res (A * bytes)) (a : A) (l : list N) : res bytes :=
  match l with [] => Ret [] | i :: l' => '(a, o) ← f a i; o' ← loop f a l'; Ret (o ++ o') end.
Definition values : list N := (N.of_nat <$> seq 0 100) ++ ((fun i => N.of_nat (S i) * 6553)%N <$> seq 0 10).
Definition basetest (l : list N) : res bytes :=
  o1 ← loop b26_step b26_init l;
  o2 ← loop b64_step tt l;
  Ret (o1 ++ o2).
Definition basetest_output : res bytes := Ret (text "0 = a (base26)
1 = b (base26)
2 = c (base26)
3 = d (base26)
4 = e (base26)
5 = f (base26)
6 = g (base26)
7 = h (base26)
8 = i (base26)
9 = j (base26)
6553 = jsb (base26)
13106 = tkc (base26)
19659 = bdcd (base26)
26212 = bmue (base26)
32765 = bwmf (base26)
39318 = cgeg (base26)
45871 = cpwh (base26)
52424 = czoi (base26)
58977 = djgj (base26)
65530 = dsyk (base26)
0 = A (base64)
1 = B (base64)
2 = C (base64)
3 = D (base64)
4 = E (base64)
5 = F (base64)
6 = G (base64)
7 = H (base64)
8 = I (base64)
9 = J (base64)
6553 = BmZ (base64)
13106 = DMy (base64)
19659 = EzL (base64)
26212 = GZk (base64)
32765 = H/9 (base64)
39318 = JmW (base64)
45871 = LMv (base64)
52424 = MzI (base64)
58977 = OZh (base64)
65530 = P/6 (base64)
").
Example basetest_expect : basetest values = basetest_output.
Proof. vm_compute. reflexivity. Qed.
