(** Reachable cases for C55-C58 and C72-C75: a pipeline of two children; a filter. *)
From Verif Require Import Base Alloc ListLemmas CStr StackModel StackProofs ObjModel ObjProofs MemModel MemProofs MemHist.
From Verif Require Import ArgModel ArgProofs ArgSpec ArgHist ArgProps PrModel PrSpec PrProofs PrHist PrRw PrPit PrProps PrProps2.
Local Open Scope Z_scope.

(** a kernel that hands out the smallest free descriptors below 16 *)
Definition free (t : ftab) : list Z := List.filter (fun f => match t !! f with None => true | Some _ => false end) (seqZ 0 16).
Definition ex_os (pid : Z) : os :=
  OS 16 true (fun t => match free t with a :: b :: _ => Some (a, b) | _ => None end) pid
    (fun t => match free t with a :: _ => Some a | _ => None end) ex_aal.
Lemma free_elem t f : In f (free t) -> t !! f = None /\ 0 <= f < 16.
Proof.
  intros H. apply filter_In in H as [H1 H2]. split; [by destruct (t !! f)|]. apply elem_of_list_In, elem_of_seqZ in H1. lia.
Qed.
Lemma free_nodup t : List.NoDup (free t).
Proof. apply List.NoDup_filter. apply NoDup_ListNoDup, NoDup_seqZ. Qed.
Lemma ex_os_ok pid : pid <> 0 -> os_ok (ex_os pid) 16.
Proof.
  intros Hp. constructor; [apply ex_aal_ok| | |done].
  - intros t r q. cbn [ex_os o_pipe]. pose proof (free_elem t) as F. pose proof (free_nodup t) as D. destruct (free t) as [|a [|b l]]; try done.
    intros [= <- <-]. destruct (F a ltac:(by left)), (F b ltac:(right; by left)). inversion D; subst. cbn in *. split; [done|]. split; [done|]. split; [|lia]. naive_solver.
  - intros t n. cbn [ex_os o_null]. pose proof (free_elem t) as F. destruct (free t) as [|a l]; try done. intros [= <-]. destruct (F a ltac:(by left)). split; [done|lia].
Qed.
Definition ex_t : ftab := {[ 0 := File 1; 1 := File 2; 2 := File 3 ]}.
Lemma ex_files : files ex_t.
Proof.
  split.
  - intros s [->|[->| ->]]; vm_compute; eauto.
  - intros fd e H. unfold ex_t in H. rewrite !lookup_insert_Some, lookup_singleton_Some in H.
    destruct H as [[<- <-]|(_ & [[<- <-]|(_ & <- & <-)])]; split; eauto; lia.
Qed.
(** "cat -u" and "wc" *)
Definition cmd1 : list N := [99; 97; 116; 32; 45; 117]%N.
Definition cmd2 : list N := [119; 99]%N.
Definition ws1 : list (list N) := [[99; 97; 116]; [45; 117]]%N.
Definition ws2 : list (list N) := [[119; 99]]%N.
Lemma line1 : exists ws, line true true cmd1 ws. Proof. apply line_total. Qed.
Lemma line2 : exists ws, line true true cmd2 ws. Proof. apply line_total. Qed.
Definition p0 : opened := Opened 0 None None None (Img ∅ []).
(** the first child: two pipes *)
Definition o1 := pr_open (ex_os 100) (started ex_t) (cmd1 ++ [0; 7]%N) (Z.lor PR_CREATE_STDIN PR_CREATE_STDOUT) (Some 0) (Some 0) None.
Definition a1 : prw := (getr o1 (started ∅, p0)).1.
Definition b1 : opened := (getr o1 (started ∅, p0)).2.
(** the second reads what the first writes; its standard error goes to its standard output *)
Definition o2 := pr_open (ex_os 101) a1 (cmd2 ++ [0]%N) (Z.lor PR_USE_STDIN (Z.lor PR_CREATE_STDOUT PR_STDERR_TO_STDOUT)) (Some 5) (Some 0) None.
Definition a2 : prw := (getr o2 (started ∅, p0)).1.
Definition b2 : opened := (getr o2 (started ∅, p0)).2.
Lemma E1 : o1 = Ret (a1, b1). Proof. unfold a1, b1. apply (getr_ok2 o1). vm_compute. reflexivity. Qed.
Lemma E2 : o2 = Ret (a2, b2). Proof. unfold a2, b2. apply (getr_ok2 o2). vm_compute. reflexivity. Qed.
Example C55_reachable :
  op_in b1 = Some 4 /\ op_out b1 = Some 5 /\ op_pid b1 = 100 /\ c_words (op_child b1) = ws1 /\
  map (fun fd => c_tab (op_child b1) !! fd) (seqZ 0 8) = [Some (REnd 1); Some (WEnd 2); Some (File 3); None; None; None; None; None] /\
  map (fun fd => p_tab a1 !! fd) (seqZ 0 8) = [Some (File 1); Some (File 2); Some (File 3); None; Some (WEnd 1); Some (REnd 2); None; None] /\
  op_out b2 = Some 3 /\ op_pid b2 = 101 /\ c_words (op_child b2) = ws2 /\
  map (fun fd => c_tab (op_child b2) !! fd) (seqZ 0 8) = [Some (REnd 2); Some (WEnd 3); Some (WEnd 3); None; None; None; None; None] /\
  map (fun fd => p_tab a2 !! fd) (seqZ 0 8) = [Some (File 1); Some (File 2); Some (File 3); Some (REnd 3); Some (WEnd 1); None; None; None].
Proof. vm_compute. repeat split. Qed.
Lemma lim1 : limit (ex_os 100) (started ex_t) = 16. Proof. reflexivity. Qed.
Lemma lim2 : limit (ex_os 101) a1 = 16. Proof. vm_compute. reflexivity. Qed.
Lemma proper2 : proper (p_tab a1) (limit (ex_os 101) a1) (Z.lor PR_USE_STDIN (Z.lor PR_CREATE_STDOUT PR_STDERR_TO_STDOUT)) (arg3 (Some 5) (Some 0) None).
Proof.
  rewrite lim2. constructor.
  - apply flags_legal. reflexivity.
  - intros s [->|[->| ->]] H; [discriminate H|eexists; reflexivity|discriminate H].
  - intros s f [->|[->| ->]] (H & H' & _); [|discriminate H..]. injection H' as <-. split; [split; [discriminate|reflexivity]|]. vm_compute. eauto.
  - intros s s' f [->|[->| ->]] [->|[->| ->]] (H & _) (H' & _); first [reflexivity|discriminate H|discriminate H'].
Qed.
Definition R1 : gmap Z Z := reg_after FILTER (arg3 (Some 0) (Some 0) None) b1 ∅.
Definition R2 : gmap Z Z := reg_after (Z.lor PR_USE_STDIN (Z.lor PR_CREATE_STDOUT PR_STDERR_TO_STDOUT)) (arg3 (Some 5) (Some 0) None) b2 R1.
Lemma hist1 : pr_history (PS a1 R1 [(op_pid b1, op_child b1)]).
Proof.
  destruct line1 as [ws Hws].
  pose proof (C55_open (ex_os 100) (started ex_t) ∅ [] cmd1 [7]%N ws FILTER (Some 0) (Some 0) None (ph_start _ ex_files)) as H.
  specialize (H ltac:(rewrite lim1; by apply ex_os_ok) (filter_proper _ _) ltac:(repeat constructor; lia) ltac:(cbn; lia) Hws).
  change (pr_open (ex_os 100) (started ex_t) (cmd1 ++ 0%N :: [7]%N) FILTER (Some 0) (Some 0) None) with o1 in H. rewrite E1 in H. apply H.
Qed.
Example C55_history : pr_history (PS a2 R2 [(op_pid b2, op_child b2); (op_pid b1, op_child b1)]) /\
  map (fun fd => R2 !! fd) (seqZ 0 8) = [None; None; None; Some 101; Some 100; None; None; None].
Proof.
  split; [|vm_compute; reflexivity]. destruct line2 as [ws Hws].
  pose proof (C55_open (ex_os 101) a1 R1 [(op_pid b1, op_child b1)] cmd2 []%N ws (Z.lor PR_USE_STDIN (Z.lor PR_CREATE_STDOUT PR_STDERR_TO_STDOUT)) (Some 5) (Some 0) None hist1) as H.
  specialize (H ltac:(rewrite lim2; by apply ex_os_ok) proper2 ltac:(repeat constructor; lia) ltac:(cbn; lia) Hws).
  change (pr_open (ex_os 101) a1 (cmd2 ++ 0%N :: []%N) (Z.lor PR_USE_STDIN (Z.lor PR_CREATE_STDOUT PR_STDERR_TO_STDOUT)) (Some 5) (Some 0) None) with o2 in H.
  rewrite E2 in H. apply H.
Qed.
Example C55_close_reachable :
  (r ← pr_close a2 4 [WIntr; WStatus 256]; Ret r.2) = Ret 1 /\ pr_close_nowait a2 5 = Abort /\ pr_close_nowait a2 16 = UB.
Proof. vm_compute. repeat split. Qed.
Example C56_reachable : ended_ok (Exited 3) /\ ended_ok (Signaled 9 true) /\
  pr_wait [WIntr; WStatus (status_of (Signaled 9 true))] = Ret (137, []) /\ pr_wait [WStatus (status_of (Exited 3))] = Ret (3, []).
Proof. split; [cbn; lia|]. split; [cbn; lia|]. vm_compute. repeat split. Qed.
Example C58_reachable : (r ← pr_shutdown a2 [WStatus 9; WIntr; WStatus 9]; Ret r.2) = Ret [Kill 101; Wait 101; Kill 100; Wait 100] /\
  (r ← pr_shutdown a1 [WStatus 9; WChild]; Ret r.2) = Ret [Kill 100; Wait 100; Kill 100; Wait 100] /\
  R1 !! 4 = Some 100 /\ R1 !! 5 = Some 100 /\ pr_shutdown a1 [WStatus 9] = Diverge.
Proof. vm_compute. repeat split. Qed.
(** a filter: input 1 2 3 in two writes, output 8 9 in two reads, room for 4 *)
Definition ex_sched : list turn :=
  [Turn true WAgain RAgain; Turn true (Wrote 2) (Got [8]%N); Turn true (Wrote 1) RAgain; Turn true WAgain (Got [9]%N); Turn true WAgain (Got [])].
Example C57_reachable : kernel 3 4 ex_sched /\ delivers [8; 9]%N 4 ex_sched /\ ~ trouble ex_sched /\ ~ premature 3 ex_sched /\ eof_seen ex_sched /\
  limit (ex_os 102) a2 <= 1024 /\
  (r ← pr_filter (ex_os 102) a2 (cmd2 ++ [0]%N) [1; 2; 3]%N 3 [0; 0; 0; 0; 5]%N 4 ex_sched [WStatus 0];
   Ret (e_len r.1, e_buf r.1, e_sent r.1, e_status r.1)) = Ret (2, [8; 9; 0; 0; 5]%N, [1; 2; 3]%N, 0).
Proof.
  split; [cbn; unfold todo_after; repeat (case_decide; try lia); tauto|]. split.
  { cbn. split; [done|]. exists [9]%N. split; [done|]. intros _. split; [done|]. exists []. split; [done|]. intros _. split; [done|]. by exists []. }
  split. { unfold trouble, ex_sched. rewrite !Exists_cons, Exists_nil. cbn. naive_solver. }
  split; [cbn; naive_solver|]. split; [unfold eof_seen, ex_sched; rewrite !Exists_cons; cbn; tauto|].
  split; [vm_compute; done|]. vm_compute. reflexivity.
Qed.
(** output longer than the buffer is cut off; and with input left it is fatal *)
Example C57_cut : (r ← pr_filter (ex_os 102) a2 (cmd2 ++ [0]%N) [1]%N 1 [0; 0]%N 2
    [Turn true (Wrote 1) (Got [8; 9]%N); Turn true WAgain (Got [])] [WStatus 13]; Ret (e_len r.1, e_buf r.1, e_status r.1)) = Ret (2, [8; 9]%N, 0) /\
  (r ← pr_filter (ex_os 102) a2 (cmd2 ++ [0]%N) [1]%N 1 [0; 0]%N 2
    [Turn true WAgain (Got [8; 9]%N); Turn true WAgain (Got [])] [WStatus 13]; Ret (e_len r.1)) = Fatal.
Proof. vm_compute. repeat split. Qed.
Example C74_reachable : (r ← pr_spawn (ex_os 103) a2 (cmd2 ++ [0]%N) [WStatus 512]; Ret (r.1.2, c_words r.2, c_tab r.2 !! 4)) = Ret (2, ws2, Some (WEnd 1)).
Proof. vm_compute. repeat split. Qed.
(** the pitfalls *)
Example C75_reachable :
  pr_open (ex_os 104) a2 (cmd2 ++ [0]%N) PR_CREATE_STDIN None None None = UB /\
  (r ← pr_open (ex_os 104) (started (delete 0 ex_t)) (cmd2 ++ [0]%N) PR_CREATE_STDIN (Some 0) None None; Ret (c_tab (op_child r.2) !! 0)) = Ret None /\
  (r ← pr_open (ex_os 104) (started (<[7 := File 9]> ex_t)) (cmd2 ++ [0]%N) (Z.lor PR_USE_STDOUT PR_USE_STDERR) None (Some 7) (Some 7);
   Ret (c_tab (op_child r.2) !! 1, c_tab (op_child r.2) !! 2)) = Ret (Some (File 9), Some (File 3)) /\
  (r ← pr_open (ex_os 104) a2 (cmd2 ++ [0]%N) PR_USE_STDOUT None (Some 1) None; Ret (c_tab (op_child r.2) !! 1, p_tab r.1 !! 1)) = Ret (None, None) /\
  (r ← pr_open (ex_os 104) a2 (cmd2 ++ [0]%N) (Z.lor PR_USE_STDIN PR_USE_STDOUT) None (Some 0) None; Ret (c_tab (op_child r.2) !! 0, c_tab (op_child r.2) !! 1)) =
    Ret (Some (DevNull false), Some (DevNull true)).
Proof. vm_compute. repeat split. Qed.
(** a callback that closes a file of the user *)
Example C55_callback : let cb := Some (fun t : ftab => delete 9 t) in let t := <[9 := File 7]> ex_t in
  polite cb t FILTER (arg3 (Some 0) (Some 0) None) /\ no_copies cb /\
  (r ← pr_open2 (ex_os 104) (started t) (cmd2 ++ [0]%N) cb FILTER (Some 0) (Some 0) None; Ret (c_tab (op_child r.2) !! 9, p_tab r.1 !! 9)) =
    Ret (None, Some (File 7)).
Proof.
  cbv zeta. split; [|split].
  - intros T fd HT Hfd. cbn [call_back]. rewrite lookup_delete_ne; [done|]. intros <-. destruct Hfd as [[H|[H|H]]|[H|(s & Hs & (H & _))]]; try discriminate H.
    + apply H. apply HT. rewrite lookup_insert. eauto.
    + destruct Hs as [->|[->| ->]]; discriminate H.
  - intros T fd e H _. cbn [call_back] in H. by apply lookup_delete_Some in H as [_ H].
  - vm_compute. reflexivity.
Qed.
