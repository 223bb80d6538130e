(** pr.c with its debugging output (MAA_PR), its warning and perror.  The functions are those of
    PrModel.v; the code they share with it is cited there, here are cited the lines that PrModel.v
    leaves out.  Output is recorded in the trace of LogModel.v, one event for each call. *)
From Verif Require Import Base CStr StackModel ObjModel MemModel ArgModel StrModel FlagModel LogModel DebugModel PrModel.
From Verif Require SourceModel MaaModel.
From Coq Require Import String.
Notation length := List.length.
Local Open Scope Z_scope.
Notation MAA_PR := MaaModel.MAA_PR.
Notation text := SourceModel.text.
Notation out bs := (emit (EPrint LogModel.Stdout bs)).

(** printf's %x of an int: the digits of the number as an unsigned int *)
Definition hex_digit (d : N) : N := (if d <? 10 then 48 + d else 87 + d)%N.
Fixpoint hex_loop (fuel : nat) (n : N) : list N :=
  match fuel with
  | O => []
  | S k => (if n <? 16 then [] else hex_loop k (n / 16))%N ++ [hex_digit (n mod 16)]%N
  end.
Definition c_hex (z : Z) : list N := hex_loop 8 (Z.to_N (z mod 2 ^ 32)).
(** %04x *)
Definition c_hex4 (z : Z) : list N := let h := c_hex z in replicate (4 - length h) 48%N ++ h.

(** pr_wait (pr.c:231-260) with the messages of lines 236, 242 and 257, and the perror of 243; [en]: errno.
    perror comes after the message, so it is the message's errno that it may report. *)
Fixpoint wait_loop_d (o : system) (fs : fstate) (pid en : Z) (ans : list wres) : M (Z * list wres) :=
  match ans with
  | [] => lift Diverge
  | WStatus s :: ans' =>
      say o fs MAA_PR (Ret (text "Child " ++ c_itoa pid ++ text " exited with status 0x" ++ c_hex4 (exit_status s) ++ [10%N])) ;>
      ret (exit_status s, ans')
  | WIntr :: ans' => wait_loop_d o fs pid en ans'
  | WChild :: ans' => ret (0, ans')
  | WOther :: ans' =>
      say o fs MAA_PR (Ret (text "waitpid() < 0, errno = " ++ c_itoa en ++ [10%N])) ;>
      w <- LogModel.get ;
      emit (EPrint Stderr (text "pr_wait: " ++ strerr (o (ltr w)) ++ [10%N])) ;>
      ret (-1, ans')
  end.
Definition pr_wait_d (o : system) (fs : fstate) (pid en : Z) (ans : list wres) : M (Z * list wres) :=
  say o fs MAA_PR (Ret (text "waiting on pid " ++ c_itoa pid ++ [10%N])) ;>
  wait_loop_d o fs pid en ans.
(** pr_close (pr.c:277-282) *)
Definition pr_close_d (o : system) (fs : fstate) (en : Z) (w : prw) (fd : Z) (ans : list wres) : M (prw * Z) :=
  wp <- lift (pr_close_nowait w fd) ;
  r <- pr_wait_d o fs wp.2 en ans ;
  ret (wp.1, r.1).

(** the message of line 148 (and 410): argv[0] and the command, both by %s *)
Definition execing (bl : gmap positive (list N)) (v : list (option ptr)) (command : list N) : res (list N) :=
  a0 ← aget v 0;
  t ← match a0 with Some p => SourceModel.str_at bl p | None => UB end;
  c ← c_string command;
  Ret (text "Execing " ++ t ++ text " with """ ++ c ++ text """" ++ [10%N]).
(** macro PARENT (pr.c:202-214) with the messages of lines 207 and 210 *)
Definition parent_std_d (o : system) (fs : fstate) (name : list N) (pid : Z) (create use : bool) (fds : option (Z * Z)) (fd : option Z) (w : prw) : M (prw * option Z) :=
  if create then
    match fds with
    | Some (shut, keep) =>
        let w1 := tab_close w shut in
        match fd with
        | None => lift UB
        | Some _ =>
            w2 <- lift (obj_set w1 keep pid) ;
            say o fs MAA_PR (Ret (name ++ text " = " ++ c_itoa keep ++ text "; ")) ;>
            ret (w2, Some keep)
        end
    | None => lift UB
    end
  else if use then
    match fd with
    | Some f =>
        if negb (f =? 0) then
          say o fs MAA_PR (Ret (name ++ text " = " ++ c_itoa f ++ text "*; ")) ;>
          w1 <- lift (obj_set w f 0) ;
          ret (tab_close w1 f, fd)
        else ret (w, fd)
    | None => ret (w, fd)
    end
  else ret (w, fd).
(** pr_open2 (pr.c:117-229) with the messages of lines 148 and 225.  The child (pr.c:160-200) sends none. *)
Definition pr_open2_d (so : system) (fs : fstate) (o : PrModel.os) (w : prw) (command : list N) (callback : option (ftab -> ftab)) (flags : Z)
    (infd outfd errfd : option Z) : M (prw * opened) :=
  w0 <- lift (pr_init o w) ;
  if pr_flags_bad flags then lift Abort else
  al <- lift (arg_argify (o_arg o) (p_arg w0) command 0) ;
  cv <- lift (arg_get_vector al.1 (Some al.2)) ;
  say so fs MAA_PR (execing (mblk (amem al.1)) cv.2 command) ;>
  wi <- lift (c_pipe o (has flags PR_CREATE_STDIN) (set_arg w0 al.1)) ;
  wo <- lift (c_pipe o (has flags PR_CREATE_STDOUT) wi.1) ;
  we <- lift (c_pipe o (has flags PR_CREATE_STDERR) wo.1) ;
  if o_fork o <? 0 then lift Fatal else
  c <- lift (pr_child o we.1 callback flags wi.2 wo.2 we.2 infd outfd errfd cv.2) ;
  w4 <- parent_std_d so fs (text "stdin") (o_fork o) (has flags PR_CREATE_STDIN) (has flags PR_USE_STDIN) wi.2 infd we.1 ;
  w5 <- parent_std_d so fs (text "stdout") (o_fork o) (has flags PR_CREATE_STDOUT) (has flags PR_USE_STDOUT) (swap wo.2) outfd w4.1 ;
  w6 <- parent_std_d so fs (text "stderr") (o_fork o) (has flags PR_CREATE_STDERR) (has flags PR_USE_STDERR) (swap we.2) errfd w5.1 ;
  say so fs MAA_PR (Ret (text "child pid = " ++ c_itoa (o_fork o) ++ [10%N])) ;>
  aw' <- lift (arg_destroy (p_arg w6.1) (Some al.2)) ;
  ret (set_arg w6.1 aw', Opened (o_fork o) w4.2 w5.2 w6.2 c).
(** pr_open (pr.c:112-115) *)
Definition pr_open_d (so : system) (fs : fstate) (o : PrModel.os) (w : prw) (command : list N) (flags : Z) (infd outfd errfd : option Z) :=
  pr_open2_d so fs o w command None flags infd outfd errfd.

(** pr_spawn (pr.c:397-447) with the messages of lines 410, 421, 424, 429 and 444; its perror (430) says
    pr_spawn *)
Fixpoint spawn_loop_d (o : system) (fs : fstate) (pid en : Z) (ans : list wres) : M (Z * list wres) :=
  match ans with
  | [] => lift Diverge
  | WStatus s :: ans' =>
      say o fs MAA_PR (Ret (text "Child " ++ c_itoa pid ++ text " exited with status 0x" ++ c_hex4 (exit_status s) ++ [10%N])) ;>
      ret (exit_status s, ans')
  | WIntr :: ans' => spawn_loop_d o fs pid en ans'
  | WChild :: ans' => ret (0, ans')
  | WOther :: ans' =>
      say o fs MAA_PR (Ret (text "waitpid() < 0, errno = " ++ c_itoa en ++ [10%N])) ;>
      w <- LogModel.get ;
      emit (EPrint Stderr (text "pr_spawn: " ++ strerr (o (ltr w)) ++ [10%N])) ;>
      ret (-1, ans')
  end.
Definition pr_spawn_d (so : system) (fs : fstate) (en : Z) (o : PrModel.os) (w : prw) (command : list N) (ans : list wres) : M (prw * Z * image) :=
  w0 <- lift (pr_init o w) ;
  al <- lift (arg_argify (o_arg o) (p_arg w0) command 0) ;
  cv <- lift (arg_get_vector al.1 (Some al.2)) ;
  say so fs MAA_PR (execing (mblk (amem al.1)) cv.2 command) ;>
  if o_fork o <? 0 then lift Fatal else
  ws <- lift (exec_words (mblk (amem al.1)) cv.2) ;
  say so fs MAA_PR (Ret (text "child pid = " ++ c_itoa (o_fork o) ++ [10%N])) ;>
  aw' <- lift (arg_destroy al.1 (Some al.2)) ;
  say so fs MAA_PR (Ret (text "waiting on pid " ++ c_itoa (o_fork o) ++ [10%N])) ;>
  r <- spawn_loop_d so fs (o_fork o) en ans ;
  ret (set_arg w0 aw', r.1, Img (p_tab w0) ws).

(** ** pr_readwrite *)
(** a turn with what select() answers: its value and the members of the three sets *)
Record dturn := DTurn { d_turn : turn; d_ret : Z; d_inr : bool; d_outr : bool; d_inw : bool; d_outw : bool; d_ine : bool; d_oute : bool }.
(** pr.c:337-347: FD_ISSET needs descriptors below FD_SETSIZE *)
Definition show_select (fs : fstate) (inn outt : Z) (t : dturn) (s : rwst) : M unit :=
  b <- lift (dbg_test fs MAA_PR) ;
  if b =? 0 then ret tt else
  out (text "select(2) returns " ++ c_itoa (d_ret t) ++ text ", inLen = " ++ c_itoa (r_inlen s) ++ text ", outLen = " ++ c_itoa (r_outlen s) ++
       text ", outMaxLen = " ++ c_itoa (r_room s) ++ [10%N]) ;>
  if negb (fd_set_ok inn) || negb (fd_set_ok outt) then lift UB else
  (if d_inr t then out (text "  in/read" ++ [10%N]) else ret tt) ;>
  (if d_outr t then out (text "  out/read" ++ [10%N]) else ret tt) ;>
  (if d_inw t then out (text "  in/write" ++ [10%N]) else ret tt) ;>
  (if d_outw t then out (text "  out/write" ++ [10%N]) else ret tt) ;>
  (if d_ine t then out (text "  in/error" ++ [10%N]) else ret tt) ;>
  (if d_oute t then out (text "  out/error" ++ [10%N]) else ret tt).
(** the write half (pr.c:348-361), message of line 353 *)
Definition rw_write_d (o : system) (fs : fstate) (inn : Z) (a : wans) (s : rwst) : M rwst :=
  if r_inlen s =? 0 then ret s else
  if (r_inlen s <? 0) || (Z.of_nat (length (r_in s)) <? r_inlen s) then lift UB else
  match a with
  | WErr => lift Fatal
  | WAgain => ret s
  | Wrote n =>
      say o fs MAA_PR (Ret (text "  wrote " ++ c_itoa n ++ [10%N])) ;>
      let left := r_inlen s - n in
      let s' w := RW w (drop (Z.to_nat n) (r_in s)) left (r_buf s) (r_outlen s) (r_room s)
                     (r_sent s ++ take (Z.to_nat n) (r_in s)) in
      if left =? 0 then wp <- lift (pr_close_nowait (r_w s) inn) ; ret (s' wp.1) else ret (s' (r_w s))
  end.
(** the read half (pr.c:362-380), the warning of lines 368-371 and the message of line 375 *)
Definition rw_read_d (o : system) (fs : fstate) (en : Z) (outt : Z) (a : rans) (ans : list wres) (s : rwst) : M (rwst + rwend) :=
  if r_room s <? 0 then lift UB else
  match a with
  | RErr => lift Fatal
  | RAgain => ret (inl s)
  | Got [] =>
      if negb (r_inlen s =? 0) then lift Fatal else
      ws <- pr_close_d o fs en (r_w s) outt ans ;
      (if negb (ws.2 =? 0)
       then warn o (Some (text "pr_readwrite")) (text "Filter had non-zero exit status: 0x" ++ c_hex ws.2)
       else ret tt) ;>
      ret (inr (RWEnd ws.1 (r_outlen s) (r_buf s) (r_sent s) ws.2))
  | Got bs =>
      buf <- lift (store (r_buf s) (Z.to_nat (r_outlen s)) bs) ;
      say o fs MAA_PR (Ret (text "  read " ++ c_itoa (Z.of_nat (length bs)) ++ [10%N])) ;>
      outlen <- lift (sint (r_outlen s + Z.of_nat (length bs))) ;
      room <- lift (sint (r_room s - Z.of_nat (length bs))) ;
      if room <? 0 then lift Fatal else
      ret (inl (RW (r_w s) (r_in s) (r_inlen s) buf outlen room (r_sent s)))
  end.
(** one turn (pr.c:319-382) *)
Definition rw_turn_d (o : system) (fs : fstate) (en : Z) (inn outt : Z) (ans : list wres) (t : dturn) (s : rwst) : M (rwst + rwend) :=
  if negb (fd_set_ok outt) then lift UB else
  if negb (r_inlen s =? 0) && negb (fd_set_ok inn) then lift UB else
  if negb (t_sel (d_turn t)) then lift Fatal else
  show_select fs inn outt t s ;>
  s1 <- rw_write_d o fs inn (t_w (d_turn t)) s ;
  rw_read_d o fs en outt (t_r (d_turn t)) ans s1.
Fixpoint rw_loop_d (o : system) (fs : fstate) (en : Z) (inn outt : Z) (ans : list wres) (sched : list dturn) (s : rwst) : M rwend :=
  match sched with
  | [] => lift Diverge
  | t :: sched' =>
      r <- rw_turn_d o fs en inn outt ans t s ;
      match r with inl s' => rw_loop_d o fs en inn outt ans sched' s' | inr e => ret e end
  end.
(** pr_readwrite (pr.c:284-384) *)
Definition pr_readwrite_d (o : system) (fs : fstate) (en : Z) (w : prw) (inn outt : Z) (inBuffer : list N) (inLen : Z) (outBuffer : list N) (outMaxLen : Z)
    (sched : list dturn) (ans : list wres) : M rwend :=
  match p_tab w !! inn with
  | None => lift Fatal
  | Some _ =>
      match p_tab w !! outt with
      | None => lift Fatal
      | Some _ =>
          _ <- lift (sint (Z.max inn outt + 1)) ;
          rw_loop_d o fs en inn outt ans sched (RW w inBuffer inLen outBuffer 0 outMaxLen [])
      end
  end.
(** pr_filter (pr.c:386-395) *)
Definition pr_filter_d (so : system) (fs : fstate) (en : Z) (o : PrModel.os) (w : prw) (command : list N) (inBuffer : list N) (inLen : Z) (outBuffer : list N)
    (outMaxLen : Z) (sched : list dturn) (ans : list wres) : M (rwend * image) :=
  wp <- pr_open_d so fs o w command (Z.lor PR_CREATE_STDIN PR_CREATE_STDOUT) (Some 0) (Some 0) None ;
  match op_in wp.2, op_out wp.2 with
  | Some i, Some outt =>
      e <- pr_readwrite_d so fs en wp.1 i outt inBuffer inLen outBuffer outMaxLen sched ans ;
      ret (e, op_child wp.2)
  | _, _ => lift UB
  end.
