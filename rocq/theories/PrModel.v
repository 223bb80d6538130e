(** Model of maa/pr.c: child processes connected by pipes.  The operating system is an
    argument of every call: which descriptors pipe() and open() hand out, which pid fork()
    returns, what waitpid(), select(), read() and write() answer.  Debugging output is left
    out here and modelled in DebugPrModel.v (C92); O_NONBLOCK, which pr_readwrite sets, is not modelled: it affects only the answers. *)
From Verif Require Import Base CStr StackModel ObjModel MemModel ArgModel.
Local Open Scope Z_scope.

(** what a descriptor refers to: an end of the k-th pipe made by pr_open, the null device
    opened for writing or reading, or a file of the user *)
Inductive endp := REnd (k : positive) | WEnd (k : positive) | DevNull (write : bool) | File (n : positive).
Global Instance endp_dec : EqDecision endp.
Proof. solve_decision. Defined.
(** the descriptor table of a process *)
Notation ftab := (gmap Z endp).
(** close(2): closing a descriptor that is not open only fails *)
Definition c_close (t : ftab) (fd : Z) : ftab := delete fd t.
(** dup2(2): fails if [a] is not open, does nothing if a = b *)
Definition c_dup2 (t : ftab) (a b : Z) : ftab := match t !! a with None => t | Some e => <[b := e]> t end.

(** _pr_objects (pr.c:41-45): the pids; maxFd (pr.c:70), 0 until it is read; the descriptor
    table of this process; a number for the next pipe; the argument lists of arg.c *)
Record prw := PW { p_objs : option (list Z); p_max : Z; p_tab : ftab; p_next : positive; p_arg : aworld }.
(** the operating system during one call: sysconf(_SC_OPEN_MAX) as an int; is there memory
    for the table; the two descriptors of a pipe; the pid of the child in the parent;
    open("/dev/null") in the child; malloc *)
Record os := OS {
  o_limit : Z;
  o_mem : bool;
  o_pipe : ftab -> option (Z * Z);
  o_fork : Z;
  o_null : ftab -> option Z;
  o_arg : aalloc }.

(** max_fd (pr.c:68-85); NOFILE is 256 on Linux *)
Definition max_fd (o : os) (w : prw) : Z :=
  if p_max w =? 0 then (if o_limit o >? 0 then o_limit o else 256) else p_max w.
(** _pr_init (pr.c:87-91) *)
Definition pr_init (o : os) (w : prw) : res prw :=
  match p_objs w with
  | Some _ => Ret w
  | None =>
      let m := max_fd o w in
      if o_mem o then Ret (PW (Some (replicate (Z.to_nat m) 0)) m (p_tab w) (p_next w) (p_arg w)) else Fatal
  end.

(** maa.h:488-494 *)
Definition PR_USE_STDIN := 1.
Definition PR_USE_STDOUT := 2.
Definition PR_USE_STDERR := 4.
Definition PR_CREATE_STDIN := 16.
Definition PR_CREATE_STDOUT := 32.
Definition PR_CREATE_STDERR := 64.
Definition PR_STDERR_TO_STDOUT := 256.
Definition has (flags b : Z) : bool := negb (Z.land flags b =? 0).

(** the checks of pr_open2 (pr.c:131-144); the first mask is that of pr.c:131-133 *)
Definition pr_flags_bad (flags : Z) : bool :=
  has flags (Z.lnot (Z.lor PR_USE_STDIN (Z.lor PR_USE_STDOUT (Z.lor PR_USE_STDERR (Z.lor PR_CREATE_STDIN
    (Z.lor PR_CREATE_STDOUT (Z.lor PR_CREATE_STDERR PR_STDERR_TO_STDOUT)))))))
  || has flags PR_USE_STDIN && has flags PR_CREATE_STDIN
  || has flags PR_USE_STDOUT && has flags PR_CREATE_STDOUT
  || has flags PR_USE_STDERR && has flags PR_CREATE_STDERR
  || has flags PR_STDERR_TO_STDOUT && (has flags PR_USE_STDERR || has flags PR_CREATE_STDERR).

(** pipe(2) if [b] (pr.c:150-155): [Some (read end, write end)] *)
Definition c_pipe (o : os) (b : bool) (w : prw) : res (prw * option (Z * Z)) :=
  if b then
    match o_pipe o (p_tab w) with
    | None => Fatal
    | Some (r, q) =>
        Ret (PW (p_objs w) (p_max w) (<[q := WEnd (p_next w)]> (<[r := REnd (p_next w)]> (p_tab w)))
                (Pos.succ (p_next w)) (p_arg w), Some (r, q))
    end
  else Ret (w, None).

(** macro CHILD (pr.c:166-181): [shut] and [keep] are fds[writefd] and fds[readfd]; [wr] is
    the mode of open("/dev/null", flag) *)
Definition child_std (o : os) (create use : bool) (fds : option (Z * Z)) (fd : option Z) (fileno : Z)
    (wr : bool) (t : ftab) : res ftab :=
  if create then
    match fds with
    | Some (shut, keep) => Ret (c_close (c_dup2 (c_close t shut) keep fileno) keep)
    | None => UB
    end
  else if use then
    match fd with
    | Some f =>
        if negb (f =? 0) then Ret (c_close (c_dup2 t f fileno) f)
        else match o_null o t with
             | Some n => Ret (c_close (c_dup2 (<[n := DevNull wr]> t) n fileno) n)
             | None => Ret t
             end
    | None => match o_null o t with
              | Some n => Ret (c_close (c_dup2 (<[n := DevNull wr]> t) n fileno) n)
              | None => Ret t
              end
    end
  else Ret t.
Definition swap (p : option (Z * Z)) : option (Z * Z) := (fun '(a, b) => (b, a)) <$> p.
(** for (i = 0; i < max_fd(); i++) if (_pr_objects[i].pid > 0) close(i)   (pr.c:195-196) *)
Fixpoint close_registered (i : Z) (objs : list Z) (t : ftab) : ftab :=
  match objs with
  | [] => t
  | pid :: objs' => close_registered (i + 1) objs' (if pid >? 0 then c_close t i else t)
  end.
(** execvp(argv[0], argv) (pr.c:198): the words handed over, up to the NULL.  (If it fails
    the child ends with status 127, pr.c:199.) *)
Fixpoint exec_words (bl : gmap positive (list N)) (v : list (option ptr)) : res (list (list N)) :=
  match v with
  | [] => UB
  | None :: _ => UB
  | Some None :: _ => Ret []
  | Some (Some a) :: v' => b ← hget bl a; s ← c_string b; l ← exec_words bl v'; Ret (s :: l)
  end.
(** a child at the moment it executes its command *)
Record image := Img { c_tab : ftab; c_words : list (list N) }.
(** the child of pr_open2 (pr.c:160-200).  [callback] acts on the child's descriptors. *)
Definition pr_child (o : os) (w : prw) (callback : option (ftab -> ftab)) (flags : Z)
    (pin pout perr : option (Z * Z)) (infd outfd errfd : option Z) (v : list (option ptr)) : res image :=
  match p_objs w with
  | None => UB
  | Some objs =>
      let t0 := match callback with Some f => f (p_tab w) | None => p_tab w end in
      t1 ← child_std o (has flags PR_CREATE_STDIN) (has flags PR_USE_STDIN) (swap pin) infd 0 false t0;
      t2 ← child_std o (has flags PR_CREATE_STDOUT) (has flags PR_USE_STDOUT) pout outfd 1 true t1;
      t3 ← child_std o (has flags PR_CREATE_STDERR) (has flags PR_USE_STDERR) perr errfd 2 true t2;
      let t4 := if has flags PR_STDERR_TO_STDOUT then c_dup2 t3 1 2 else t3 in
      l ← exec_words (mblk (amem (p_arg w))) v;
      Ret (Img (close_registered 0 objs t4) l)
  end.

(** _pr_objects[fd].pid = pid *)
Definition obj_set (w : prw) (fd pid : Z) : res prw :=
  match p_objs w with
  | None => UB
  | Some objs =>
      if fd <? 0 then UB else
      objs' ← aset objs (Z.to_nat fd) pid;
      Ret (PW (Some objs') (p_max w) (p_tab w) (p_next w) (p_arg w))
  end.
Definition tab_close (w : prw) (fd : Z) : prw :=
  PW (p_objs w) (p_max w) (c_close (p_tab w) fd) (p_next w) (p_arg w).
(** macro PARENT (pr.c:202-214): [shut] and [keep] are fds[readfd] and fds[writefd]; the
    result is *fd afterwards.  The three int* are taken to point to different ints. *)
Definition parent_std (pid : Z) (create use : bool) (fds : option (Z * Z)) (fd : option Z) (w : prw) : res (prw * option Z) :=
  if create then
    match fds with
    | Some (shut, keep) =>
        let w1 := tab_close w shut in
        match fd with
        | None => UB
        | Some _ => w2 ← obj_set w1 keep pid; Ret (w2, Some keep)
        end
    | None => UB
    end
  else if use then
    match fd with
    | Some f => if negb (f =? 0) then w1 ← obj_set w f 0; Ret (tab_close w1 f, fd) else Ret (w, fd)
    | None => Ret (w, fd)
    end
  else Ret (w, fd).

Definition set_arg (w : prw) (a : aworld) : prw := PW (p_objs w) (p_max w) (p_tab w) (p_next w) a.
(** what pr_open2 leaves behind: the pid it returns, the three ints, and the child *)
Record opened := Opened { op_pid : Z; op_in : option Z; op_out : option Z; op_err : option Z; op_child : image }.
(** pr_open2 (pr.c:117-229) *)
Definition pr_open2 (o : os) (w : prw) (command : list N) (callback : option (ftab -> ftab)) (flags : Z)
    (infd outfd errfd : option Z) : res (prw * opened) :=
  w0 ← pr_init o w;
  if pr_flags_bad flags then Abort else
  '(aw, l) ← arg_argify (o_arg o) (p_arg w0) command 0;
  '(argc, v) ← arg_get_vector aw (Some l);
  '(w1, pin) ← c_pipe o (has flags PR_CREATE_STDIN) (set_arg w0 aw);
  '(w2, pout) ← c_pipe o (has flags PR_CREATE_STDOUT) w1;
  '(w3, perr) ← c_pipe o (has flags PR_CREATE_STDERR) w2;
  if o_fork o <? 0 then Fatal else
  c ← pr_child o w3 callback flags pin pout perr infd outfd errfd v;
  '(w4, i1) ← parent_std (o_fork o) (has flags PR_CREATE_STDIN) (has flags PR_USE_STDIN) pin infd w3;
  '(w5, i2) ← parent_std (o_fork o) (has flags PR_CREATE_STDOUT) (has flags PR_USE_STDOUT) (swap pout) outfd w4;
  '(w6, i3) ← parent_std (o_fork o) (has flags PR_CREATE_STDERR) (has flags PR_USE_STDERR) (swap perr) errfd w5;
  aw' ← arg_destroy (p_arg w6) (Some l);
  Ret (set_arg w6 aw', Opened (o_fork o) i1 i2 i3 c).
(** pr_open (pr.c:112-115) *)
Definition pr_open (o : os) (w : prw) (command : list N) (flags : Z) (infd outfd errfd : option Z) :=
  pr_open2 o w command None flags infd outfd errfd.

(** ** Waiting *)
(** an answer of waitpid(): a status, or an errno *)
Inductive wres := WStatus (status : Z) | WIntr | WChild | WOther.
(** sys/wait.h on Linux *)
Definition WTERMSIG (s : Z) : Z := Z.land s 127.
Definition WIFEXITED (s : Z) : bool := WTERMSIG s =? 0.
Definition WEXITSTATUS (s : Z) : Z := Z.shiftr (Z.land s 65280) 8.
(** ((signed char) ((s & 0x7f) + 1) >> 1) > 0 *)
Definition WIFSIGNALED (s : Z) : bool :=
  let c := Z.land s 127 + 1 in
  Z.shiftr (if c <? 128 then c else c - 256) 1 >? 0.
Definition SIGPIPE := 13.
(** pr.c:248-255 and 435-442: from the wait status to the result *)
Definition exit_status (s : Z) : Z :=
  let e := if WIFEXITED s then Z.lor 0 (WEXITSTATUS s) else 0 in
  if WIFSIGNALED s && negb (WTERMSIG s =? SIGPIPE) then Z.lor e (128 + WTERMSIG s) else e.
(** pr_wait (pr.c:231-260).  [ans]: what waitpid answers, in order; the rest is returned.
    If the answers run out the call is still waiting. *)
Fixpoint pr_wait (ans : list wres) : res (Z * list wres) :=
  match ans with
  | [] => Diverge
  | WStatus s :: ans' => Ret (exit_status s, ans')
  | WIntr :: ans' => pr_wait ans'
  | WChild :: ans' => Ret (0, ans')
  | WOther :: ans' => Ret (-1, ans')
  end.

(** pr_close_nowait (pr.c:262-275) *)
Definition pr_close_nowait (w : prw) (fd : Z) : res (prw * Z) :=
  match p_objs w with
  | None => Abort
  | Some objs =>
      if fd <? 0 then UB else
      pid ← aget objs (Z.to_nat fd);
      if pid =? 0 then Abort else
      w1 ← obj_set w fd 0;
      Ret (tab_close w1 fd, pid)
  end.
(** pr_close (pr.c:277-282) *)
Definition pr_close (w : prw) (fd : Z) (ans : list wres) : res (prw * Z) :=
  '(w1, pid) ← pr_close_nowait w fd;
  '(r, _) ← pr_wait ans;
  Ret (w1, r).

(** _pr_shutdown (pr.c:93-109): what it does to processes, in order *)
Inductive sysev := Kill (pid : Z) | Wait (pid : Z).
Fixpoint shutdown_loop (objs : list Z) (ans : list wres) : res (list sysev) :=
  match objs with
  | [] => Ret []
  | pid :: objs' =>
      if negb (pid =? 0) then
        '(_, ans') ← pr_wait ans;
        l ← shutdown_loop objs' ans';
        Ret (Kill pid :: Wait pid :: l)
      else shutdown_loop objs' ans
  end.
Definition pr_shutdown (w : prw) (ans : list wres) : res (prw * list sysev) :=
  match p_objs w with
  | None => Ret (w, [])
  | Some objs => l ← shutdown_loop objs ans; Ret (PW None (p_max w) (p_tab w) (p_next w) (p_arg w), l)
  end.

(** pr_spawn (pr.c:397-447): the child inherits every descriptor *)
Definition pr_spawn (o : os) (w : prw) (command : list N) (ans : list wres) : res (prw * Z * image) :=
  w0 ← pr_init o w;
  '(aw, l) ← arg_argify (o_arg o) (p_arg w0) command 0;
  '(argc, v) ← arg_get_vector aw (Some l);
  if o_fork o <? 0 then Fatal else
  ws ← exec_words (mblk (amem aw)) v;
  aw' ← arg_destroy aw (Some l);
  '(r, _) ← pr_wait ans;
  Ret (set_arg w0 aw', r, Img (p_tab w0) ws).

(** ** pr_readwrite *)
(** one turn of the loop: did select() succeed (a timeout is success), what did write() and
    read() answer; [WErr], [RErr]: an error other than EAGAIN (a broken pipe may also kill
    the process by SIGPIPE); [Got []]: read returned 0 *)
Inductive wans := Wrote (n : Z) | WAgain | WErr.
Inductive rans := Got (bs : list N) | RAgain | RErr.
Record turn := Turn { t_sel : bool; t_w : wans; t_r : rans }.
(** sys/select.h *)
Definition FD_SETSIZE := 1024.
Definition fd_set_ok (fd : Z) : bool := (0 <=? fd) && (fd <? FD_SETSIZE).

(** inPt and inLen; the output buffer, outLen and outMaxLen; what was written so far *)
Record rwst := RW { r_w : prw; r_in : list N; r_inlen : Z; r_buf : list N; r_outlen : Z; r_room : Z; r_sent : list N }.
(** the end: outLen, the buffer, what was written, the status of the child (a non-zero one
    is only warned about) *)
Record rwend := RWEnd { e_w : prw; e_len : Z; e_buf : list N; e_sent : list N; e_status : Z }.
(** storing bytes at an offset; outside the buffer it is undefined *)
Definition store (buf : list N) (off : nat) (bs : list N) : res (list N) :=
  if (off + length bs <=? length buf)%nat then Ret (take off buf ++ bs ++ drop (off + length bs) buf) else UB.

(** the write half (pr.c:348-361) *)
Definition rw_write (inn : Z) (a : wans) (s : rwst) : res rwst :=
  if r_inlen s =? 0 then Ret s else
  if (r_inlen s <? 0) || (Z.of_nat (length (r_in s)) <? r_inlen s) then UB else
  match a with
  | WErr => Fatal
  | WAgain => Ret s
  | Wrote n =>
      let left := r_inlen s - n in
      let s' w := RW w (drop (Z.to_nat n) (r_in s)) left (r_buf s) (r_outlen s) (r_room s)
                     (r_sent s ++ take (Z.to_nat n) (r_in s)) in
      if left =? 0 then '(w', _) ← pr_close_nowait (r_w s) inn; Ret (s' w') else Ret (s' (r_w s))
  end.
(** the read half (pr.c:362-380) *)
Definition rw_read (out : Z) (a : rans) (ans : list wres) (s : rwst) : res (rwst + rwend) :=
  if r_room s <? 0 then UB else
  match a with
  | RErr => Fatal
  | RAgain => Ret (inl s)
  | Got [] =>
      if negb (r_inlen s =? 0) then Fatal else
      '(w', status) ← pr_close (r_w s) out ans;
      Ret (inr (RWEnd w' (r_outlen s) (r_buf s) (r_sent s) status))
  | Got bs =>
      buf ← store (r_buf s) (Z.to_nat (r_outlen s)) bs;
      outlen ← sint (r_outlen s + Z.of_nat (length bs));
      room ← sint (r_room s - Z.of_nat (length bs));
      if room <? 0 then Fatal else
      Ret (inl (RW (r_w s) (r_in s) (r_inlen s) buf outlen room (r_sent s)))
  end.
(** one turn (pr.c:319-382) *)
Definition rw_turn (inn out : Z) (ans : list wres) (t : turn) (s : rwst) : res (rwst + rwend) :=
  if negb (fd_set_ok out) then UB else
  if negb (r_inlen s =? 0) && negb (fd_set_ok inn) then UB else
  if negb (t_sel t) then Fatal else
  s1 ← rw_write inn (t_w t) s;
  rw_read out (t_r t) ans s1.
Fixpoint rw_loop (inn out : Z) (ans : list wres) (sched : list turn) (s : rwst) : res rwend :=
  match sched with
  | [] => Diverge
  | t :: sched' =>
      r ← rw_turn inn out ans t s;
      match r with inl s' => rw_loop inn out ans sched' s' | inr e => Ret e end
  end.
(** pr_readwrite (pr.c:284-384) *)
Definition pr_readwrite (w : prw) (inn out : Z) (inBuffer : list N) (inLen : Z) (outBuffer : list N) (outMaxLen : Z)
    (sched : list turn) (ans : list wres) : res rwend :=
  match p_tab w !! inn with
  | None => Fatal
  | Some _ =>
      match p_tab w !! out with
      | None => Fatal
      | Some _ =>
          _ ← sint (Z.max inn out + 1);
          rw_loop inn out ans sched (RW w inBuffer inLen outBuffer 0 outMaxLen [])
      end
  end.

(** pr_filter (pr.c:386-395) *)
Definition pr_filter (o : os) (w : prw) (command : list N) (inBuffer : list N) (inLen : Z) (outBuffer : list N)
    (outMaxLen : Z) (sched : list turn) (ans : list wres) : res (rwend * image) :=
  '(w1, p) ← pr_open o w command (Z.lor PR_CREATE_STDIN PR_CREATE_STDOUT) (Some 0) (Some 0) None;
  match op_in p, op_out p with
  | Some i, Some out =>
      e ← pr_readwrite w1 i out inBuffer inLen outBuffer outMaxLen sched ans;
      Ret (e, op_child p)
  | _, _ => UB
  end.
