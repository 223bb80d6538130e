(** Pipelines built with pr_open as tests/pr/prtest.c:63-67 does, and what a user knows of the result. *)
From Verif Require Import Base CStr ArgModel PrModel PrSpec.
Local Open Scope Z_scope.

(** one stage: the operating system during the call, the command (with what follows its null character in
    memory) and the words it consists of *)
Record stage := Stage { st_os : os; st_cmd : list N; st_rest : list N; st_words : list (list N) }.
Definition STAGE : Z := Z.lor PR_USE_STDIN PR_CREATE_STDOUT.
(** for each command: pr_open(cmd, PR_USE_STDIN | PR_CREATE_STDOUT, &fdin, &fdout, NULL); fdin = fdout;
    the result: fdout, and the children in order *)
Fixpoint pipeline (l : list stage) (w : prw) (fdin fdout : Z) : res (prw * Z * list opened) :=
  match l with
  | [] => Ret (w, fdout, [])
  | s :: l' =>
      '(w1, p) ← pr_open (st_os s) w (st_cmd s ++ 0%N :: st_rest s) STAGE (Some fdin) (Some fdout) None;
      match op_out p with
      | None => UB
      | Some f => '(w2, f2, ps) ← pipeline l' w1 f f; Ret (w2, f2, p :: ps)
      end
  end.

(** the first input: 0, which stands for /dev/null, or an open descriptor *)
Definition may_start (t : ftab) (m fdin : Z) : Prop := fdin = 0 \/ (3 <= fdin < m /\ is_Some (t !! fdin)).
(** without the first input, which is handed over *)
Definition handed {A} (fdin : Z) (t : gmap Z A) : gmap Z A := if decide (fdin = 0) then t else delete fdin t.
(** what the first child reads: the file given, or /dev/null; if that cannot be opened, the stdin of the parent *)
Definition first_input (o : os) (t : ftab) (fdin : Z) (e : option endp) : Prop :=
  if decide (fdin = 0) then e = Some (DevNull false) \/ (e = t !! 0 /\ exists t', o_null o t' = None) else e = t !! fdin.

(** [t], [R]: descriptors of the parent and registered ones, before; [t'], [R']: after; [ps]: the children;
    [ks]: the pipes, [ks !! i] the output of child i; [f]: the final output *)
Record piped (l : list stage) (t : ftab) (R : gmap Z Z) (fdin : Z)
    (t' : ftab) (R' : gmap Z Z) (f : Z) (ps : list opened) (ks : list positive) : Prop := {
  pe_length : length ps = length l /\ length ks = length l;
  pe_pipes : NoDup ks;
  (* the parent: it keeps one new descriptor, for which the last child is registered *)
  pe_new : 3 <= f /\ handed fdin t !! f = None /\ handed fdin R !! f = None;
  pe_tab : forall k, last ks = Some k -> t' = <[f := REnd k]> (handed fdin t);
  pe_reg : forall p, last ps = Some p -> R' = <[f := op_pid p]> (handed fdin R);
  (* the children *)
  pe_child : forall i s p k, l !! i = Some s -> ps !! i = Some p -> ks !! i = Some k ->
    op_pid p = o_fork (st_os s) /\ 0 < op_pid p /\ c_words (op_child p) = st_words s /\
    c_tab (op_child p) !! 1 = Some (WEnd k) /\ c_tab (op_child p) !! 2 = t !! 2 /\
    forall fd, ~ stream fd -> c_tab (op_child p) !! fd = if decide (R !! fd = None /\ fd <> fdin) then t !! fd else None;
  pe_first : forall s p, l !! 0%nat = Some s -> ps !! 0%nat = Some p -> first_input (st_os s) t fdin (c_tab (op_child p) !! 0);
  pe_link : forall i p k, ps !! S i = Some p -> ks !! i = Some k -> c_tab (op_child p) !! 0 = Some (REnd k) }.
(** the children as pairs of pid and image, the last one first *)
Definition kids_of (ps : list opened) : list (Z * image) := reverse ((fun p => (op_pid p, op_child p)) <$> ps).
