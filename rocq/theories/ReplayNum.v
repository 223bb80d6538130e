(** tests/stack/stacktest.c, tests/bit/bittest.c, tests/prime/primetest.c and
    tests/prm/prmtest.c. *)
From Coq Require Import String.
From Verif Require Import Base CStr Replay Alloc StackModel BitModel PrimeModel.
Notation length := List.length.
Local Open Scope Z_scope.

(** the pointer n stands for the string constant of the number n *)
Definition show (p : ptr) : bytes := match p with Some n => num (Z.pos n) | None => text "?" end.
Fixpoint pops (fuel : nat) (h : sheap) (s : positive) (out : bytes) : res (sheap * bytes) :=
  match fuel with
  | O => Diverge
  | S n => '(h', d) ← stk_pop h s; match d with None => Ret (h', out) | Some _ => pops n h' s (out ++ line "pop=" (show d)) end
  end.
Definition emp (h : sheap) (s : positive) : res bytes := e ← stk_isempty h s; Ret (line "isempty=" (num e)).
Definition stacktest : res bytes :=
  '(h, s) ← stk_create bump sempty;
  e1 ← emp h s;
  h ← stk_push bump h s (Some 10%positive); h ← stk_push bump h s (Some 20%positive); h ← stk_push bump h s (Some 30%positive);
  h ← stk_push bump h s (Some 40%positive); h ← stk_push bump h s (Some 50%positive);
  e2 ← emp h s;
  '(h, o) ← pops 10 h s [];
  e3 ← emp h s;
  h ← stk_push bump h s (Some 10%positive); h ← stk_push bump h s (Some 20%positive);
  t1 ← stk_top h s; t2 ← stk_top h s;
  e4 ← emp h s;
  '(h, s2) ← stk_create bump h;
  h ← stk_destroy h s; h ← stk_destroy h s2;
  if decide (stks h = ∅ /\ nodes h = ∅) then Ret (e1 ++ e2 ++ o ++ e3 ++ line "top=" (show t1) ++ line "top=" (show t2) ++ e4) else UB.
Example stacktest_expect : stacktest = Ret (text "isempty=1
isempty=0
pop=50
pop=40
pop=30
pop=20
pop=10
isempty=1
top=20
top=20
isempty=0
").
Proof. vm_compute. reflexivity. Qed.

Definition cnt (t : N) : bytes := text "0x" ++ hex8 t ++ text " has " ++ num (bit_cnt t) ++ text " bits set" ++ nl.
Definition tst (t : N) (b : Z) : res bytes :=
  r ← bit_tst t b; Ret (text "0x" ++ hex8 t ++ text " has " ++ num b ++ text " bit set: " ++ yesno (negb (r =? 0)) ++ nl).
Fixpoint each {A} (f : N -> A -> res (N * bytes)) (l : list A) (t : N) : res (N * bytes) :=
  match l with [] => Ret (t, []) | b :: l' => '(t', o) ← f t b; '(t'', o') ← each f l' t'; Ret (t'', o ++ o') end.
Definition sets := each (fun t b => t' ← bit_set t b; Ret (t', cnt t')).
Definition clrs := each (fun t b => t' ← bit_clr t b; Ret (t', cnt t')).
Definition tsts := each (fun t b => o ← tst t b; Ret (t, o)).
Definition bittest : res bytes :=
  '(t, o1) ← sets [0; 1; 2; 3; 4; 5; 6; 7; 31; 30; 29; 28; 27] 0%N;
  '(t, o2) ← tsts [7; 8; 9; 27; 28; 29] t;
  '(t, o3) ← clrs [0; 31; 1; 4; 7] t;
  '(t, o4) ← clrs [16] t;
  '(t, o5) ← tsts [14; 15; 16] t;
  Ret (cnt 0 ++ o1 ++ o2 ++ nl ++ o3 ++ nl ++ o4 ++ o5).
Example bittest_expect : bittest = Ret (text "0x00000000 has 0 bits set
0x00000001 has 1 bits set
0x00000003 has 2 bits set
0x00000007 has 3 bits set
0x0000000f has 4 bits set
0x0000001f has 5 bits set
0x0000003f has 6 bits set
0x0000007f has 7 bits set
0x000000ff has 8 bits set
0x800000ff has 9 bits set
0xc00000ff has 10 bits set
0xe00000ff has 11 bits set
0xf00000ff has 12 bits set
0xf80000ff has 13 bits set
0xf80000ff has 7 bit set: yes
0xf80000ff has 8 bit set: no
0xf80000ff has 9 bit set: no
0xf80000ff has 27 bit set: yes
0xf80000ff has 28 bit set: yes
0xf80000ff has 29 bit set: yes

0xf80000fe has 12 bits set
0x780000fe has 11 bits set
0x780000fc has 10 bits set
0x780000ec has 9 bits set
0x7800006c has 8 bits set

0x7800006c has 8 bits set
0x7800006c has 14 bit set: no
0x7800006c has 15 bit set: no
0x7800006c has 16 bit set: no
").
Proof. vm_compute. reflexivity. Qed.

Definition primetest : res bytes := n ← prm_next_prime 10000; Ret (num (Z.of_N n) ++ nl).
Example primetest_expect : primetest = Ret (text "10007
").
Proof. vm_compute. reflexivity. Qed.

Definition isp (n : N) : res bytes := b ← prm_is_prime n; Ret (num (Z.of_N n) ++ line " is prime: " (text (if b : bool then "1" else "0"))).
Definition nextp (n : N) : res bytes := p ← prm_next_prime n; Ret (text "smallest prime greater than " ++ num (Z.of_N n) ++ line ": " (num (Z.of_N p))).
Definition prmtest : res bytes :=
  o1 ← isp 37; o2 ← isp 39; o3 ← isp 33; o4 ← nextp 39; o5 ← nextp 100; Ret (o1 ++ o2 ++ o3 ++ o4 ++ o5).
Example prmtest_expect : prmtest = Ret (text "37 is prime: 1
39 is prime: 0
33 is prime: 0
smallest prime greater than 39: 41
smallest prime greater than 100: 101
").
Proof. vm_compute. reflexivity. Qed.
