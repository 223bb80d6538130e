(** Model of maa/alloca.c (the code compiled without __GNUC__ >= 2, emacs, CRAY,
    STACK_DIRECTION; xmalloc for malloc).  Addresses on the C stack are integers
    ([Z]); comparing addresses of different objects compares the integers. *)
From Verif Require Import Base.
Local Open Scope Z_scope.

(** union hdr (alloca.c:136-144): the block malloc'ed with this header is
    [h_bytes] long, header included; sizeof(header) is 16 *)
Record header := Hdr { h_next : ptr; h_deep : Z; h_bytes : N }.
(** the blocks, last_alloca_header (146), stack_dir (101) and the static addr of
    find_stack_direction (107) *)
Record ast := AS { blocks : gmap positive header; last_header : ptr; stack_dir : Z; fsd_addr : option Z }.
(** at the start of the program: static variables are zero *)
Definition astart : ast := AS ∅ None 0 None.
Definition set_dir (s : ast) (dir : Z) (addr : Z) : ast := AS (blocks s) (last_header s) dir (Some addr).

(** find_stack_direction (alloca.c:104-124).  [d1], [d2]: the addresses of [dummy]
    in this call and in the recursive one *)
Definition find_stack_direction (s : ast) (d1 d2 : Z) : ast :=
  match fsd_addr s with
  | None => set_dir s (if d1 <? d2 then 1 else -1) d1
  | Some addr => set_dir s (if addr <? d1 then 1 else -1) addr
  end.

(** (STACK_DIR > 0 && deep > depth) || (STACK_DIR < 0 && deep < depth) (alloca.c:181-182) *)
Definition deeper (dir deep depth : Z) : bool := ((0 <? dir) && (depth <? deep)) || ((dir <? 0) && (deep <? depth)).

(** the loop (alloca.c:180-193); [Diverge] if it does not end within [fuel] tests *)
Fixpoint reclaim (fuel : nat) (H : gmap positive header) (hp : ptr) (dir depth : Z) : res (gmap positive header * ptr) :=
  match fuel with
  | O => Diverge
  | S n =>
      match hp with
      | None => Ret (H, None)
      | Some a =>
          x ← hget H a;
          if deeper dir (h_deep x) depth then H' ← hfree H a; reclaim n H' (h_next x) dir depth
          else Ret (H, Some a)
      end
  end.

(** alloca (alloca.c:155-221).  [depth]: the address of [probe]; [d1], [d2] as above;
    [al]: xmalloc for such blocks.  The result is NULL or the block (the user's
    storage begins 16 bytes into it). *)
Definition alloca (al : gmap positive header -> option positive) (s : ast) (depth d1 d2 : Z) (n : N) : res (ast * ptr) :=
  let size := u32 n in
  let s1 := if stack_dir s =? 0 then find_stack_direction s d1 d2 else s in
  '(H, hp) ← reclaim (S (base.size (blocks s1))) (blocks s1) (last_header s1) (stack_dir s1) depth;
  let s2 := AS H hp (stack_dir s1) (fsd_addr s1) in
  if (size =? 0)%N then Ret (s2, None)
  else match al H with
       | None => Fatal
       | Some a => Ret (AS (<[a := Hdr hp depth (16 + size)]> H) (Some a) (stack_dir s1) (fsd_addr s1), Some a)
       end.
