(** Model of the string memory of maa/memory.c (79-235) and of the allocation
    wrappers of maa/xmalloc.c it uses.  A [char *] argument is the list of bytes
    from the pointer to the end of its object (CStr.v). *)
From Verif Require Import Base CStr StackModel ObjModel.
Local Open Scope Z_scope.

(** struct stringInfo (memory.c:36-44) *)
Record sinfo := SInfo { count : Z; bytes : Z; growing : Z; sallocated : positive }.
Global Instance sinfo_eq_dec : EqDecision sinfo.
Proof. solve_decision. Defined.

Record mworld := MW { msh : sheap; mblk : gmap positive (list N); minf : gmap positive sinfo }.
Definition mempty : mworld := MW sempty ∅ ∅.

(** malloc during one call: blocks come with unspecified contents *)
Record malloc := MA {
  m_info : gmap positive sinfo -> option positive;
  m_stk : stk_alloc;
  m_node : node_alloc;
  m_blk : N -> gmap positive (list N) -> option (positive * list N) }.

(** memcpy(dst + off, src, n): undefined outside either object *)
Definition c_memcpy (dst : list N) (off : nat) (src : list N) (n : nat) : res (list N) :=
  if (n <=? length src)%nat && (off + n <=? length dst)%nat
  then Ret (take off dst ++ take n src ++ drop (off + n) dst) else UB.

Section blocks.
Context (al : malloc).
Notation blocks := (gmap positive (list N)).

(** xmalloc (xmalloc.c:30-38) *)
Definition xmalloc (bl : blocks) (n : N) : res (blocks * positive) :=
  match m_blk al n bl with None => Fatal | Some (a, junk) => Ret (<[a := junk]> bl, a) end.

(** xrealloc (xmalloc.c:50-60): the block may move; the common prefix is kept.
    realloc(NULL, n) is malloc(n). *)
Definition xrealloc (bl : blocks) (p : ptr) (n : N) : res (blocks * positive) :=
  match p with
  | None => xmalloc bl n
  | Some a =>
      old ← hget bl a;
      match m_blk al n (delete a bl) with
      | None => Fatal
      | Some (a', junk) =>
          Ret (<[a' := take (N.to_nat n) old ++ drop (length old) junk]> (delete a bl), a')
      end
  end.

(** xstrdup (xmalloc.c:68-78) *)
Definition xstrdup (bl : blocks) (s : list N) : res (blocks * positive) :=
  str ← c_string s;
  let len := length str in
  '(bl1, a) ← xmalloc bl (N.of_nat (len + 1));
  b ← hget bl1 a;
  b' ← c_memcpy b 0 s (len + 1);
  Ret (<[a := b']> bl1, a).
End blocks.

(** mem_create_strings (memory.c:79-92) *)
Definition mem_create_strings (al : malloc) (w : mworld) : res (mworld * positive) :=
  match m_info al (minf w) with
  | None => Fatal
  | Some i =>
      '(h1, s) ← stk_create (m_stk al) (msh w);
      Ret (MW h1 (mblk w) (<[i := SInfo 0 0 0 s]> (minf w)), i)
  end.

(** mem_destroy_strings (memory.c:99-114) *)
Definition mem_destroy_strings (w : mworld) (ia : positive) : res mworld :=
  i ← hget (minf w) ia;
  '(h1, bl) ← free_all (S (size (nodes (msh w)))) (msh w) (sallocated i) (mblk w);
  h2 ← stk_destroy h1 (sallocated i);
  inf ← hfree (minf w) ia;
  Ret (MW h2 bl inf).

(** mem_strcpy (memory.c:119-135); int len = strlen(string) *)
Definition mem_strcpy (al : malloc) (w : mworld) (ia : positive) (string : list N)
  : res (mworld * positive) :=
  str ← c_string string;
  let len := to_int (Z.of_nat (length str)) in
  i ← hget (minf w) ia;
  c ← sint (count i + 1);
  len1 ← sint (len + 1);
  b ← sint (bytes i + len1);
  '(bl, a) ← xstrdup al (mblk w) string;
  h ← stk_push (m_node al) (msh w) (sallocated i) (Some a);
  Ret (MW h bl (<[ia := SInfo c b 0 (sallocated i)]> (minf w)), a).

(** mem_strncpy (memory.c:141-158): copies len + 1 bytes *)
Definition mem_strncpy (al : malloc) (w : mworld) (ia : positive) (string : list N) (len : Z)
  : res (mworld * positive) :=
  i ← hget (minf w) ia;
  c ← sint (count i + 1);
  len1 ← sint (len + 1);
  b ← sint (bytes i + len1);
  '(bl, a) ← xmalloc al (mblk w) (size_t len1);
  blk ← hget bl a;
  blk' ← c_memcpy blk 0 string (N.to_nat (size_t len1));
  h ← stk_push (m_node al) (msh w) (sallocated i) (Some a);
  Ret (MW h (<[a := blk']> bl) (<[ia := SInfo c b 0 (sallocated i)]> (minf w)), a).

(** mem_grow (memory.c:165-185) *)
Definition mem_grow (al : malloc) (w : mworld) (ia : positive) (string : list N) (len : Z) : res mworld :=
  i ← hget (minf w) ia;
  b ← sint (bytes i + len);
  '(h1, bl, p) ←
    (if negb (growing i =? 0) then
       '(h1, p) ← stk_pop (msh w) (sallocated i);
       n ← sint (growing i + len);
       '(bl, p') ← xrealloc al (mblk w) p (size_t n);
       Ret (h1, bl, p')
     else
       '(bl, p') ← xmalloc al (mblk w) (size_t len);
       Ret (msh w, bl, p'));
  blk ← hget bl p;
  blk' ← c_memcpy blk (Z.to_nat (growing i)) string (N.to_nat (size_t len));
  g ← sint (growing i + len);
  h2 ← stk_push (m_node al) h1 (sallocated i) (Some p);
  Ret (MW h2 (<[p := blk']> bl) (<[ia := SInfo (count i) b g (sallocated i)]> (minf w))).

(** mem_finish (memory.c:190-203); the literal "" is one NUL byte *)
Definition mem_finish (al : malloc) (w : mworld) (ia : positive) : res (mworld * ptr) :=
  w1 ← mem_grow al w ia [0%N] 1;
  i ← hget (minf w1) ia;
  c ← sint (count i + 1);
  let w2 := MW (msh w1) (mblk w1) (<[ia := SInfo c (bytes i) 0 (sallocated i)]> (minf w1)) in
  p ← stk_top (msh w2) (sallocated i);
  Ret (w2, p).

(** mem_get_string_stats (memory.c:209-220); [None]: aborts (memory.c:66-68) *)
Definition mem_get_string_stats (mem : bool) (w : mworld) (ia : ptr) : res (Z * Z) :=
  if mem then
    match ia with None => Abort | Some a => i ← hget (minf w) a; Ret (count i, bytes i) end
  else Fatal.
