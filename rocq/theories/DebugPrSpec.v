(** What the functions of pr.c say with debugging on: C92.  [c_itoa] is printf's %d, for ints ([C92_numbers]
    in DebugProps3.v). *)
From Verif Require Import Base CStr StrModel ArgSpec LogModel DebugSpec PrModel PrSpec DebugPrModel.
From Coq Require Import String.
Notation length := List.length.
Local Open Scope Z_scope.

(** ** %x: an int as an unsigned number in hexadecimal, without leading zeros; %04x: at least 4 digits *)
Definition hexdigit (c : N) (v : Z) : Prop := (48 <= c <= 57)%N /\ v = Z.of_N c - 48 \/ (97 <= c <= 102)%N /\ v = Z.of_N c - 87.
Inductive hexval : list N -> Z -> Prop :=
| hv_nil : hexval [] 0
| hv_snoc ds d v x : hexval ds v -> hexdigit d x -> hexval (ds ++ [d]) (16 * v + x).
Definition hexadecimal (z : Z) (b : list N) : Prop :=
  hexval b (if decide (z < 0) then z + 2 ^ 32 else z) /\ match b with [] => False | d :: ds => d = 48%N -> ds = [] end.
Definition hexadecimal4 (z : Z) (b : list N) : Prop := exists b0, hexadecimal z b0 /\ b = replicate (4 - length b0) 48%N ++ b0.

(** ** waiting for a child *)
(** the answer of waitpid that counts: the first that is not an interruption *)
Fixpoint answer (ans : list wres) : option wres :=
  match ans with [] => None | WIntr :: l => answer l | a :: _ => Some a end.
(** [who]: the function, for perror; [r]: the status returned; [en]: errno *)
Definition wait_notes (who : list N) (pid en : Z) (ans : list wres) (r : Z) : list note :=
  ToLog (text "waiting on pid " ++ c_itoa pid ++ [10%N]) ::
  match answer ans with
  | Some (WStatus _) => [ToLog (text "Child " ++ c_itoa pid ++ text " exited with status 0x" ++ c_hex4 r ++ [10%N])]
  | Some WOther => [ToLog (text "waitpid() < 0, errno = " ++ c_itoa en ++ [10%N]); Perror who]
  | _ => []
  end.

(** ** starting a child: one note for each stream that is made or handed over *)
Definition exec_note (word cmd : list N) : note := ToLog (text "Execing " ++ word ++ text " with """ ++ cmd ++ text """" ++ [10%N]).
Definition pid_note (pid : Z) : note := ToLog (text "child pid = " ++ c_itoa pid ++ [10%N]).
Definition std_note (flags : Z) (fds res : Z -> option Z) (name : list N) (s : Z) : list note :=
  if creates flags s then match res s with Some f => [ToLog (name ++ text " = " ++ c_itoa f ++ text "; ")] | None => [] end
  else if uses flags s then
    match fds s with Some f => if decide (f = 0) then [] else [ToLog (name ++ text " = " ++ c_itoa f ++ text "*; ")] | None => [] end
  else [].
Definition open_notes (flags : Z) (fds : Z -> option Z) (p : opened) (word cmd : list N) : list note :=
  [exec_note word cmd] ++ std_note flags fds (results p) (text "stdin") 0 ++ std_note flags fds (results p) (text "stdout") 1 ++
  std_note flags fds (results p) (text "stderr") 2 ++ [pid_note (op_pid p)].

(** ** the loop of pr_readwrite: what select answered, then what was written and read *)
Definition select_notes (inlen outlen room : Z) (t : dturn) : list note :=
  [ToStdout (text "select(2) returns " ++ c_itoa (d_ret t) ++ text ", inLen = " ++ c_itoa inlen ++ text ", outLen = " ++ c_itoa outlen ++
             text ", outMaxLen = " ++ c_itoa room ++ [10%N])] ++
  (if d_inr t then [ToStdout (text "  in/read" ++ [10%N])] else []) ++
  (if d_outr t then [ToStdout (text "  out/read" ++ [10%N])] else []) ++
  (if d_inw t then [ToStdout (text "  in/write" ++ [10%N])] else []) ++
  (if d_outw t then [ToStdout (text "  out/write" ++ [10%N])] else []) ++
  (if d_ine t then [ToStdout (text "  in/error" ++ [10%N])] else []) ++
  (if d_oute t then [ToStdout (text "  out/error" ++ [10%N])] else []).
Definition write_notes (inlen : Z) (a : wans) : list note :=
  match a with Wrote n => if decide (inlen = 0) then [] else [ToLog (text "  wrote " ++ c_itoa n ++ [10%N])] | _ => [] end.
Fixpoint loop_notes (inlen outlen room : Z) (l : list dturn) : list note :=
  match l with
  | [] => []
  | t :: l' =>
      let inlen' := todo_after inlen (t_w (d_turn t)) in
      select_notes inlen outlen room t ++ write_notes inlen (t_w (d_turn t)) ++
      match t_r (d_turn t) with
      | Got [] => []
      | Got bs => let n := Z.of_nat (length bs) in ToLog (text "  read " ++ c_itoa n ++ [10%N]) :: loop_notes inlen' (outlen + n) (room - n) l'
      | _ => loop_notes inlen' outlen room l'
      end
  end.
(** [pid]: the child; [r]: its status.  A status other than 0 is warned about, debugging or not. *)
Definition rw_notes (inlen room : Z) (l : list dturn) (pid en : Z) (ans : list wres) (r : Z) : list note :=
  loop_notes inlen 0 room l ++ wait_notes (text "pr_wait") pid en ans r ++
  (if decide (r = 0) then [] else [Warns (Some (text "pr_readwrite")) (text "Filter had non-zero exit status: 0x" ++ c_hex r)]).
