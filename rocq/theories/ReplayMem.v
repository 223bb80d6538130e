(** tests/memobj/memobjtest.c, tests/memstr/memstrtest.c, tests/string/stringtest.c,
    tests/sl/sltest.c.  As mk/test.mk does, an address at the end of
    a line, with the colon after it, is replaced by 0xF00DBEAF. *)
From Coq Require Import String.
From Verif Require Import Base CStr Alloc StackModel ObjModel ObjProps MemModel.
From Verif Require Import Replay.
From Verif Require MemProps PrintModel SkipModel SkipProps StrProps.
Notation length := List.length.
Local Open Scope Z_scope.
Fixpoint show_syms (t : list PrintModel.sym) : bytes :=
  match t with
  | [] => []
  | PrintModel.Addr _ :: PrintModel.B 58 :: PrintModel.B 10 :: t' => text "0xF00DBEAF" ++ nl ++ show_syms t'
  | PrintModel.B c :: t' => c :: show_syms t'
  | _ :: t' => text "?" ++ show_syms t'
  end.
Definition show (t : PrintModel.target * list PrintModel.sym) : bytes := show_syms t.2.

(** an int object: four bytes, little endian *)
Definition le4 (z : Z) : bytes := (fun i => Z.to_N ((z / 256 ^ Z.of_nat i) mod 256)) <$> seq 0 4.
Definition int (b : bytes) : Z := match b with b0 :: b1 :: b2 :: b3 :: _ => Z.of_N (b0 + 256 * (b1 + 256 * (b2 + 256 * b3))) | _ => -1 end.
Definition store (w : oworld bytes) (p : positive) (z : Z) : res (oworld bytes) :=
  b ← hget (oblk w) p; bl ← hset (oblk w) p (le4 z ++ drop 4 b); Ret (OW (osh w) bl (oinf w)).
Definition load (w : oworld bytes) (p : positive) : res Z := b ← hget (oblk w) p; Ret (int b).
(** the test reads and writes *two between mem_free_object and mem_get_object
    (memobjtest.c:59): the manager keeps the block *)
Definition memobjtest : res bytes :=
  '(w, m) ← mem_create_objects ex_oal oempty 4;
  '(w, one) ← mem_get_object ex_oal w m; w ← store w one 1;
  '(w, two) ← mem_get_object ex_oal w m; w ← store w two 2;
  v1 ← load w one; v2 ← load w two;
  s1 ← PrintModel.mem_print_object_stats true w (Some m) (Some 1%nat);
  w ← mem_free_object ex_oal w m (Some two);
  s2 ← PrintModel.mem_print_object_stats true w (Some m) (Some 1%nat);
  w ← store w two 22;
  '(w, two) ← mem_get_object ex_oal w m;
  v3 ← load w two;
  s3 ← PrintModel.mem_print_object_stats true w (Some m) (Some 1%nat);
  w ← mem_free_object ex_oal w m (Some two);
  '(w, two) ← mem_get_empty_object ex_oal w m;
  v4 ← load w two;
  w ← store w two 2;
  s4 ← PrintModel.mem_print_object_stats true w (Some m) (Some 1%nat);
  '(w, three) ← mem_get_empty_object ex_oal w m; w ← store w three 3;
  v5 ← load w one; v6 ← load w two; v7 ← load w three;
  s5 ← PrintModel.mem_print_object_stats true w (Some m) (Some 1%nat);
  w ← mem_destroy_objects w m;
  if decide (oblk w = ∅ /\ oinf w = ∅) then
    Ret (line "obj1=" (num v1) ++ line "obj2=" (num v2) ++ show s1 ++ show s2 ++ line "obj2_reused=" (num v3) ++ show s3 ++
         line "obj2_zeroed=" (num v4) ++ show s4 ++ line "obj1=" (num v5) ++ line "obj2=" (num v6) ++ line "obj3=" (num v7) ++ show s5)
  else UB.
Example memobjtest_expect : memobjtest = Ret (text "obj1=1
obj2=2
Statistics for object memory manager at 0xF00DBEAF
   2 objects allocated, of which 2 are in use
   0 objects have been reused
Statistics for object memory manager at 0xF00DBEAF
   2 objects allocated, of which 1 are in use
   0 objects have been reused
obj2_reused=22
Statistics for object memory manager at 0xF00DBEAF
   2 objects allocated, of which 2 are in use
   1 objects have been reused
obj2_zeroed=0
Statistics for object memory manager at 0xF00DBEAF
   2 objects allocated, of which 2 are in use
   2 objects have been reused
obj1=1
obj2=2
obj3=3
Statistics for object memory manager at 0xF00DBEAF
   3 objects allocated, of which 3 are in use
   2 objects have been reused
").
Proof. vm_compute. reflexivity. Qed.

Definition names : list bytes := [text "Peter Hammill"; text "King Crimson"; text "Van "; text "Der "; text "Graaf "; text "Generator"; text "Led Zeppelin"].
Definition name (i : nat) : bytes := nth i names [] ++ [0%N].
Definition nlen (i : nat) : Z := Z.of_nat (length (nth i names [])).
Definition at_ (w : mworld) (p : ptr) : bytes := match p with Some q => cstr (default [] (mblk w !! q)) | None => text "(null)" end.
Definition memstrtest : res bytes :=
  let al := MemProps.ex_mal in
  '(w, m) ← mem_create_strings al mempty;
  s0 ← PrintModel.mem_print_string_stats true w (Some m) (Some 1%nat);
  '(w, p1) ← mem_strcpy al w m (name 0);
  s1 ← PrintModel.mem_print_string_stats true w (Some m) (Some 1%nat);
  let o1 := at_ w (Some p1) in
  '(w, p2) ← mem_strcpy al w m (name 1);
  s2 ← PrintModel.mem_print_string_stats true w (Some m) (Some 1%nat);
  w ← mem_grow al w m (name 2) (nlen 2); w ← mem_grow al w m (name 3) (nlen 3);
  w ← mem_grow al w m (name 4) (nlen 4); w ← mem_grow al w m (name 5) (nlen 5);
  '(w, p3) ← mem_finish al w m;
  s3 ← PrintModel.mem_print_string_stats true w (Some m) (Some 1%nat);
  '(w, p4) ← mem_strncpy al w m (name 6) (nlen 6);
  s4 ← PrintModel.mem_print_string_stats true w (Some m) (Some 1%nat);
  let o2 := at_ w (Some p2) in let o3 := at_ w p3 in let o4 := at_ w (Some p4) in
  w ← mem_destroy_strings w m;
  if decide (mblk w = ∅ /\ minf w = ∅) then
    Ret (show s0 ++ line "str1=" o1 ++ show s1 ++ line "str2=" o2 ++ show s2 ++ line "str3=" o3 ++ show s3 ++ line "str4=" o4 ++ show s4)
  else UB.
Example memstrtest_expect : memstrtest = Ret (text "Statistics for string memory manager at 0xF00DBEAF
   0 strings, using 0 bytes
str1=Peter Hammill
Statistics for string memory manager at 0xF00DBEAF
   1 strings, using 14 bytes
str2=King Crimson
Statistics for string memory manager at 0xF00DBEAF
   2 strings, using 27 bytes
str3=Van Der Graaf Generator
Statistics for string memory manager at 0xF00DBEAF
   3 strings, using 51 bytes
str4=Led Zeppelin
Statistics for string memory manager at 0xF00DBEAF
   4 strings, using 64 bytes
").
Proof. vm_compute. reflexivity. Qed.

Definition skey (i : nat) : bytes := text "key" ++ num (Z.of_nat i) ++ [0%N].
Fixpoint finds (is : list nat) (w : StrModel.pworld) : res (StrModel.pworld * list positive) :=
  match is with
  | [] => Ret (w, [])
  | i :: is' => '(w, p) ← StrModel.str_find StrProps.ex_pal w (skey i); '(w, ps) ← finds is' w; Ret (w, p :: ps)
  end.
(** a difference of two pointers is reported as in the test, without the pointers *)
Definition stringtest : res bytes :=
  '(w, orig) ← finds (seq 0 100) StrModel.pempty;
  '(w, again) ← finds (seq 0 100) w;
  Ret (line "Running test for count of 100" [] ++
       List.concat (zip_with (fun p q => if (p =? q)%positive then [] else line "Pointers are different" []) orig again) ++
       line "Done." []).
Example stringtest_expect : stringtest = Ret (text "Running test for count of 100
Done.
").
Proof. vm_compute. reflexivity. Qed.

(** integers cast to pointers *)
Definition cast (z : Z) : ptr := if z =? 0 then None else Some (Z.to_pos (z mod 2 ^ 64)).
Definition long (p : ptr) : Z := match p with None => 0 | Some q => if Z.pos q <? 2 ^ 63 then Z.pos q else Z.pos q - 2 ^ 64 end.
Definition compare (a b : Z) : Z := if a <? b then -1 else if a >? b then 1 else 0.
Definition slal : SkipModel.salloc Z :=
  SkipModel.SA bump (OA bump bump bump (fun _ h => (fun a => (a, SkipModel.SL 0 0 1%positive compare long)) <$> bump h)).
(** random() is whatever it is: here some numbers with towers of several heights;
    the output does not depend on it *)
Definition rnd (i n : nat) : N := if (n <? i mod 5)%nat then 255%N else 0%N.
Definition print (o : bytes) (w : SkipModel.sworld Z) (d : ptr) : res (bytes * SkipModel.sworld Z * Z) := Ret (o ++ num (long d) ++ sp, w, 0).
Fixpoint adds (is : list nat) (l : ptr) (w : SkipModel.sworld Z) (o : bytes) : res (SkipModel.sworld Z * bytes) :=
  match is with
  | [] => Ret (w, o)
  | i :: is' => w ← SkipModel.sl_insert slal (rnd i) w l (cast (Z.of_nat i)); adds is' l w (o ++ line "adding " (num (Z.of_nat i)))
  end.
Fixpoint more (is : list Z) (l : ptr) (w : SkipModel.sworld Z) (o : bytes) : res (SkipModel.sworld Z * bytes) :=
  match is with
  | [] => Ret (w, o)
  | i :: is' =>
      w ← SkipModel.sl_insert slal (rnd (Z.to_nat (3 * i + 7))) w l (cast i);
      '(o', w, _) ← SkipModel.sl_iterate print [] w l;
      more is' l w (o ++ o' ++ nl)
  end.
Definition sltest : res bytes :=
  '(w, a) ← SkipModel.sl_create slal SkipModel.sempty_world (Some compare) (Some long); let l := Some a in
  '(w, o1) ← adds (seq 1 9) l w [];
  '(o2, w, _) ← SkipModel.sl_iterate print [] w l;
  w ← SkipModel.sl_delete w l (cast 5);
  '(o3, w, _) ← SkipModel.sl_iterate print [] w l;
  '(w, o4) ← more [0; 66; 100; -1; 5; 67; 68; 65] l w [];
  w ← SkipModel.sl_destroy slal w l;
  if decide (SkipModel.sent w = ∅) then
    Ret (line "Running test for count of 10" [] ++ o1 ++ o2 ++ nl ++ o3 ++ nl ++ o4)
  else UB.
Example sltest_expect : sltest = Ret (text "Running test for count of 10
adding 1
adding 2
adding 3
adding 4
adding 5
adding 6
adding 7
adding 8
adding 9
1 2 3 4 5 6 7 8 9 
1 2 3 4 6 7 8 9 
0 1 2 3 4 6 7 8 9 
0 1 2 3 4 6 7 8 9 66 
0 1 2 3 4 6 7 8 9 66 100 
-1 0 1 2 3 4 6 7 8 9 66 100 
-1 0 1 2 3 4 5 6 7 8 9 66 100 
-1 0 1 2 3 4 5 6 7 8 9 66 67 100 
-1 0 1 2 3 4 5 6 7 8 9 66 67 68 100 
-1 0 1 2 3 4 5 6 7 8 9 65 66 67 68 100 
").
Proof. vm_compute. reflexivity. Qed.
