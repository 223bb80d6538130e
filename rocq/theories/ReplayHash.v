(** The upstream test tests/hash/hashtest.c, replayed on the model: its output,
    computed by the kernel, is tests/hash/expect.out.  A check of the model, not
    a theorem about all inputs.  Left out are the parts of the test that print
    nothing when they pass: the random keys (hashtest.c:177-212, 218-254). *)
From Coq Require Import String.
From Verif Require Import Base CStr PrimeModel HashModel HashFnModel.
From Verif Require StrModel SourceModel.
Notation length := List.length.
Local Open Scope Z_scope.
Import SourceModel(text). Import StrModel(c_itoa).
Notation bytes := (list N).
Notation tbl := (hst bytes bytes).

Definition al : halloc bytes bytes :=
  HA (fun h => Some (map_fold (fun a _ m => Pos.max m (Pos.succ a)) 1%positive h)) (fun _ => true).
Definition get (r : res N) : N := match r with Ret h => h | _ => 0 end.
Definition getz (r : res Z) : Z := match r with Ret h => h | _ => 1 end.
(** hashtest.c:99-102: hsh_string_hash & 0xFFFFFFFF; compare = NULL is hsh_string_compare *)
Definition env : henv bytes bytes :=
  HE (fun k => N.land (get (hsh_string_hash (Some (k ++ [0%N])))) 4294967295)
     (fun a b => getz (hsh_string_compare (Some (a ++ [0%N])) (Some (b ++ [0%N])))) [].
Definition key (i : Z) : bytes := text "key" ++ c_itoa i.
Definition datum (i : Z) : bytes := text "datum" ++ c_itoa i.
Definition nl : bytes := [10%N].

(** hashtest.c:113-118 *)
Fixpoint fill (is : list Z) (s : tbl) : res tbl :=
  match is with [] => Ret s | i :: is' => '(s', _) ← hsh_insert env al s (key i) (datum i); fill is' s' end.
(** hashtest.c:120-130 *)
Fixpoint look (is : list Z) (s : tbl) (out : bytes) : res (tbl * bytes) :=
  match is with
  | [] => Ret (s, out)
  | i :: is' =>
      '(s', pt) ← hsh_retrieve env s (key i);
      look is' s' (out ++ (if bool_decide (pt = datum i) then []
                           else text "Expected """ ++ datum i ++ text """, got """ ++ (if bool_decide (pt = []) then text "(null)" else pt) ++ text """" ++ nl))
  end.
Fixpoint del (is : list Z) (s : tbl) : res tbl :=
  match is with [] => Ret s | i :: is' => '(s', _) ← hsh_delete env s (key i); del is' s' end.
Definition line (k d : bytes) : bytes := k ++ text ": " ++ d.
Definition has (c : N) (s : bytes) : Z := if existsb (N.eqb c) s then 1 else 0.
(** the iterators of hashtest.c:67-83 and the loop bodies of hashtest.c:158-170 *)
Definition prints (f : bytes -> bytes -> bytes * Z) : iterator bytes bytes bytes :=
  fun k d su => Ret (su.1, su.2 ++ (f k d).1, (f k d).2).
Definition returned (r : Z) : bytes := text "hsh_iterate_arg returned " ++ c_itoa r ++ nl.
Definition pcmp (n : string) (a b : N) : bytes := text n ++ text ": " ++ c_itoa (hsh_pointer_compare a b) ++ nl.

Definition hashtest : res bytes :=
  s ← hsh_create al;
  s ← fill (Z.of_nat <$> seq 0 100) s;
  '(s, o0) ← look ((fun i => 101 - Z.of_nat i) <$> seq 0 104) s [];
  '(s, o1, _) ← hsh_iterate 1000 (prints (fun k d => (line k d ++ nl, 0))) s [];
  s ← del ((fun i => 60 + Z.of_nat i) <$> seq 0 11) s;
  '(s, o2, r2) ← hsh_iterate 1000 (prints (fun k d => (line k d ++ nl, 0))) s [];
  '(s, o3, r3) ← hsh_iterate 1000 (prints (fun k d => (line k d ++ text " (7)" ++ nl, has 53 d))) s [];
  '(s, o4, _) ← HSH_ITERATE 1000 env (prints (fun k d => (line k d ++ nl, has 54 k))) s [];
  '(s, _) ← HSH_ITERATE_END s;
  '(s, o5, _) ← HSH_ITERATE 1000 env (prints (fun k d => (k ++ nl, has 54 k))) s [];
  '(s, _) ← HSH_ITERATE_END s;
  H ← hsh_destroy s;
  if decide (H = ∅) then
  Ret (text "Running test for count of 100" ++ nl ++ o0 ++ text "Iteration 1" ++ nl ++ o1 ++ text "Iteration 2" ++ nl ++ o2 ++ returned r2 ++
       text "Iteration 3" ++ nl ++ o3 ++ returned r3 ++ text "Iteration 4" ++ nl ++ o4 ++ o5 ++
       text "=== hsh_pointer_compare ===" ++ nl ++ pcmp "p1 vs. p2" 10 20 ++ pcmp "p2 vs. p1" 20 10 ++ pcmp "p1 vs. p1" 10 10)
  else UB.
Example hashtest_expect : hashtest = Ret (text "Running test for count of 100
Expected ""datum101"", got ""(null)""
Expected ""datum100"", got ""(null)""
Expected ""datum-1"", got ""(null)""
Expected ""datum-2"", got ""(null)""
Iteration 1
key80: datum80
key71: datum71
key62: datum62
key53: datum53
key44: datum44
key9: datum9
key35: datum35
key26: datum26
key97: datum97
key17: datum17
key88: datum88
key79: datum79
key0: datum0
key50: datum50
key8: datum8
key41: datum41
key6: datum6
key32: datum32
key23: datum23
key94: datum94
key14: datum14
key85: datum85
key76: datum76
key67: datum67
key58: datum58
key49: datum49
key5: datum5
key31: datum31
key3: datum3
key22: datum22
key13: datum13
key20: datum20
key91: datum91
key11: datum11
key82: datum82
key73: datum73
key64: datum64
key55: datum55
key46: datum46
key37: datum37
key28: datum28
key99: datum99
key19: datum19
key2: datum2
key90: datum90
key10: datum10
key81: datum81
key72: datum72
key63: datum63
key70: datum70
key54: datum54
key61: datum61
key45: datum45
key52: datum52
key36: datum36
key43: datum43
key27: datum27
key34: datum34
key18: datum18
key25: datum25
key96: datum96
key16: datum16
key87: datum87
key78: datum78
key69: datum69
key60: datum60
key51: datum51
key42: datum42
key7: datum7
key33: datum33
key40: datum40
key24: datum24
key95: datum95
key15: datum15
key86: datum86
key93: datum93
key77: datum77
key84: datum84
key68: datum68
key75: datum75
key59: datum59
key66: datum66
key57: datum57
key48: datum48
key39: datum39
key4: datum4
key30: datum30
key21: datum21
key92: datum92
key12: datum12
key83: datum83
key74: datum74
key65: datum65
key56: datum56
key47: datum47
key38: datum38
key29: datum29
key98: datum98
key89: datum89
key1: datum1
Iteration 2
key80: datum80
key71: datum71
key53: datum53
key44: datum44
key9: datum9
key35: datum35
key26: datum26
key97: datum97
key17: datum17
key88: datum88
key79: datum79
key0: datum0
key50: datum50
key8: datum8
key41: datum41
key6: datum6
key32: datum32
key23: datum23
key94: datum94
key14: datum14
key85: datum85
key76: datum76
key58: datum58
key49: datum49
key5: datum5
key31: datum31
key3: datum3
key22: datum22
key13: datum13
key20: datum20
key91: datum91
key11: datum11
key82: datum82
key73: datum73
key55: datum55
key46: datum46
key37: datum37
key28: datum28
key99: datum99
key19: datum19
key2: datum2
key90: datum90
key10: datum10
key81: datum81
key72: datum72
key54: datum54
key45: datum45
key52: datum52
key36: datum36
key43: datum43
key27: datum27
key34: datum34
key18: datum18
key25: datum25
key96: datum96
key16: datum16
key87: datum87
key78: datum78
key51: datum51
key42: datum42
key7: datum7
key33: datum33
key40: datum40
key24: datum24
key95: datum95
key15: datum15
key86: datum86
key93: datum93
key77: datum77
key84: datum84
key75: datum75
key59: datum59
key57: datum57
key48: datum48
key39: datum39
key4: datum4
key30: datum30
key21: datum21
key92: datum92
key12: datum12
key83: datum83
key74: datum74
key56: datum56
key47: datum47
key38: datum38
key29: datum29
key98: datum98
key89: datum89
key1: datum1
hsh_iterate_arg returned 0
Iteration 3
key80: datum80 (7)
key71: datum71 (7)
key53: datum53 (7)
hsh_iterate_arg returned 1
Iteration 4
key80: datum80
key71: datum71
key53: datum53
key44: datum44
key9: datum9
key35: datum35
key26: datum26
key80
key71
key53
key44
key9
key35
key26
=== hsh_pointer_compare ===
p1 vs. p2: -1
p2 vs. p1: 1
p1 vs. p1: 0
").
Proof. vm_compute. reflexivity. Qed.
