(** What users of the process functions know; independent of the functions of PrModel (it uses only
    its vocabulary of descriptors, tables and answers of the operating system). *)
From Verif Require Import Base CStr StackModel ObjModel MemModel ArgModel ArgSpec ArgProofs PrModel.
Local Open Scope Z_scope.

(** ** Flags.  Streams are numbered 0 (stdin), 1 (stdout), 2 (stderr): maa.h:488-494 *)
Definition uses (flags s : Z) : bool := Z.testbit flags s.
Definition creates (flags s : Z) : bool := Z.testbit flags (s + 4).
Definition merges (flags : Z) : bool := Z.testbit flags 8.
Definition stream (s : Z) : Prop := s = 0 \/ s = 1 \/ s = 2.
Definition legal (flags : Z) : Prop :=
  (forall i, Z.testbit flags i = true -> stream i \/ stream (i - 4) \/ i = 8) /\
  (forall s, stream s -> uses flags s = true -> creates flags s = true -> False) /\
  (merges flags = true -> uses flags 2 = false /\ creates flags 2 = false).

(** ** The operating system *)
(** [m]: descriptors are smaller than the limit the library has read.  pipe() and open()
    answer with descriptors that are not in use; fork() is not 0 in the parent *)
Record os_ok (o : os) (m : Z) : Prop := {
  os_arg : aalloc_ok (o_arg o);
  os_pipe : forall t r q, o_pipe o t = Some (r, q) ->
              t !! r = None /\ t !! q = None /\ r <> q /\ 0 <= r < m /\ 0 <= q < m;
  os_null : forall t n, o_null o t = Some n -> t !! n = None /\ 0 <= n;
  os_fork : o_fork o <> 0 }.
Definition os_can_fail (o : os) : Prop :=
  o_mem o = false \/ afail (o_arg o) \/ (exists t, o_pipe o t = None) \/ o_fork o < 0.
(** the limit: what sysconf said the first time, or 256 *)
Definition limit (o : os) (w : prw) : Z :=
  if decide (p_max w = 0) then (if decide (0 < o_limit o) then o_limit o else 256) else p_max w.

(** ** Arguments of pr_open, indexed by stream *)
Definition arg3 {A} (infd outfd errfd : A) (s : Z) : A :=
  if decide (s = 0) then infd else if decide (s = 1) then outfd else errfd.
(** the descriptor a USE flag hands to the child; a NULL pointer or 0 stands for /dev/null *)
Definition given (flags : Z) (fds : Z -> option Z) (s f : Z) : Prop :=
  uses flags s = true /\ fds s = Some f /\ f <> 0.
Definition wants_null (flags : Z) (fds : Z -> option Z) (s : Z) : Prop :=
  uses flags s = true /\ (fds s = None \/ fds s = Some 0).
(** proper use: CREATE needs a place for the answer; descriptors given to the child are open,
    not the standard ones, and not given twice *)
Record proper (t : ftab) (m : Z) (flags : Z) (fds : Z -> option Z) : Prop := {
  pr_legal : legal flags;
  pr_place : forall s, stream s -> creates flags s = true -> is_Some (fds s);
  pr_given : forall s f, stream s -> given flags fds s f -> 3 <= f < m /\ is_Some (t !! f);
  pr_twice : forall s s' f, stream s -> stream s' -> given flags fds s f -> given flags fds s' f -> s = s' }.

(** the end of a pipe the child / the parent gets for a stream *)
Definition child_end (s : Z) (k : positive) : endp := if decide (s = 0) then REnd k else WEnd k.
Definition parent_end (s : Z) (k : positive) : endp := if decide (s = 0) then WEnd k else REnd k.

(** ** Ends of processes: the wait status of Linux *)
Inductive ended := Exited (code : Z) | Signaled (sig : Z) (core : bool).
Definition ended_ok (e : ended) : Prop :=
  match e with Exited c => 0 <= c < 256 | Signaled s _ => 1 <= s < 127 end.
Definition status_of (e : ended) : Z :=
  match e with Exited c => 256 * c | Signaled s core => s + (if core then 128 else 0) end.

(** ** Schedules of pr_readwrite *)
(** bytes still to be written after a turn *)
Definition todo_after (todo : Z) (a : wans) : Z :=
  match a with Wrote n => if decide (todo = 0) then 0 else todo - n | _ => todo end.
(** what the kernel may answer while [todo] bytes are to be written and [room] can be read *)
Fixpoint kernel (todo room : Z) (l : list turn) : Prop :=
  match l with
  | [] => True
  | t :: l' =>
      (match t_w t with Wrote n => todo = 0 \/ 0 < n <= todo | _ => True end) /\
      (match t_r t with Got bs => Z.of_nat (length bs) <= room | _ => True end) /\
      kernel (todo_after todo (t_w t))
             (match t_r t with Got bs => room - Z.of_nat (length bs) | _ => room end) l'
  end.
(** the bytes read until read() returns 0 *)
Fixpoint received (l : list turn) : list N :=
  match l with
  | [] => []
  | t :: l' => match t_r t with Got [] => [] | Got bs => bs ++ received l' | _ => received l' end
  end.
(** the child writes [out]: reads deliver it in order, and 0 means that it is used up (or that
    no room was left) *)
Fixpoint delivers (out : list N) (room : Z) (l : list turn) : Prop :=
  match l with
  | [] => True
  | t :: l' =>
      match t_r t with
      | Got bs => (bs = [] -> 0 < room -> out = []) /\
                  exists rest, out = bs ++ rest /\ (bs <> [] -> delivers rest (room - Z.of_nat (length bs)) l')
      | _ => delivers out room l'
      end
  end.
(** an error was reported to the call *)
Definition trouble (l : list turn) : Prop :=
  Exists (fun t => t_sel t = false \/ t_w t = WErr \/ t_r t = RErr) l.
Definition eof_seen (l : list turn) : Prop := Exists (fun t => t_r t = Got []) l.

(** what the child finds on stream [s], where [t] is the table of the parent before *)
Definition child_gets (o : os) (t : ftab) (flags : Z) (fds : Z -> option Z) (s : Z) (k : positive) (e : option endp) : Prop :=
  (creates flags s = true -> e = Some (child_end s k)) /\
  (forall f, given flags fds s f -> e = t !! f) /\
  (wants_null flags fds s -> e = Some (DevNull (bool_decide (s <> 0))) \/ (e = t !! s /\ exists t', o_null o t' = None)) /\
  (creates flags s = false -> uses flags s = false -> e = t !! s).

(** ** What pr_open does *)
Definition results (p : opened) : Z -> option Z := arg3 (op_in p) (op_out p) (op_err p).
(** [R]: which descriptors are registered, and for which child.  The effect of one stream: *)
Definition reg1 (flags : Z) (fds res : Z -> option Z) (pid s : Z) (R : gmap Z Z) : gmap Z Z :=
  if creates flags s then match res s with Some f => <[f := pid]> R | None => R end
  else if uses flags s then match fds s with Some f => if decide (f = 0) then R else delete f R | None => R end
  else R.
Definition reg_after (flags : Z) (fds : Z -> option Z) (p : opened) (R : gmap Z Z) : gmap Z Z :=
  reg1 flags fds (results p) (op_pid p) 2
    (reg1 flags fds (results p) (op_pid p) 1 (reg1 flags fds (results p) (op_pid p) 0 R)).
Definition call_back (cb : option (ftab -> ftab)) (t : ftab) : ftab := match cb with Some f => f t | None => t end.
(** a callback that leaves the standard streams, the pipes and the given descriptors alone *)
Definition polite (cb : option (ftab -> ftab)) (t : ftab) (flags : Z) (fds : Z -> option Z) : Prop :=
  forall T fd, (forall x, is_Some (t !! x) -> T !! x = t !! x) ->
    stream fd \/ T !! fd <> t !! fd \/ (exists s, stream s /\ given flags fds s fd) ->
    call_back cb T !! fd = T !! fd.

(** [t], [t']: descriptors of the parent before and after; [R]: registered before;
    [K s]: the pipe made for stream [s]; [T]: the descriptors at the fork *)
Record open_effect (o : os) (cb : option (ftab -> ftab)) (t : ftab) (R : gmap Z Z) (flags : Z) (fds : Z -> option Z)
    (ws : list (list N)) (t' : ftab) (p : opened) (K : Z -> positive) (T : ftab) : Prop := {
  oe_pid : op_pid p = o_fork o /\ 0 < op_pid p;
  (* the parent: one new descriptor per CREATE *)
  oe_new : forall s, stream s -> creates flags s = true -> exists f, results p s = Some f /\ t !! f = None /\ 3 <= f /\
             t' !! f = Some (parent_end s (K s));
  oe_distinct : forall s s', stream s -> stream s' -> s <> s' -> creates flags s = true -> creates flags s' = true ->
             results p s <> results p s' /\ K s <> K s';
  oe_int : forall s, stream s -> creates flags s = false -> results p s = fds s;
  (* descriptors given to the child are closed, the others are as before *)
  oe_given : forall s f, stream s -> given flags fds s f -> t' !! f = None;
  oe_rest : forall fd, (forall s, stream s -> creates flags s = true -> results p s <> Some fd) ->
             (forall s, stream s -> ~ given flags fds s fd) -> t' !! fd = t !! fd;
  (* the child *)
  oe_words : c_words (op_child p) = ws;
  oe_std : forall s, stream s -> (s = 2 -> merges flags = false) ->
             child_gets o t flags fds s (K s) (c_tab (op_child p) !! s);
  oe_merge : merges flags = true -> c_tab (op_child p) !! 2 = c_tab (op_child p) !! 1;
  oe_fork : forall fd, is_Some (t !! fd) -> T !! fd = t !! fd;
  oe_closed : forall fd, ~ stream fd -> is_Some (R !! fd) \/ T !! fd <> t !! fd \/ (exists s, stream s /\ given flags fds s fd) ->
             c_tab (op_child p) !! fd = None;
  oe_inherit : forall fd, ~ stream fd -> R !! fd = None -> T !! fd = t !! fd -> (forall s, stream s -> ~ given flags fds s fd) ->
             c_tab (op_child p) !! fd = call_back cb T !! fd }.
(** read() returned 0 before everything was written *)
Fixpoint premature (todo : Z) (l : list turn) : Prop :=
  match l with
  | [] => False
  | t :: l' => let todo' := todo_after todo (t_w t) in
      (t_r t = Got [] /\ todo' <> 0) \/ (t_r t <> Got [] /\ premature todo' l')
  end.
