(** Vocabulary of C103: the report of a program that is stopped by a skip list call. *)
From Verif Require Import Base LogModel LogSpec SkipSpec SkipMsgModel.
From Coq Require Import String.
Notation length := List.length.
Local Open Scope Z_scope.

(** the program stops with abort() after printing [before] and the report of err_internal
    (C48) with message [msg] from [routine]; the message also goes to the log *)
Definition stops {A} (r : res (lstate * ctl A)) (w : lstate) (o : os) (LG : sinks) (before : list event) (routine : string) (msg : list N) : Prop :=
  exists w' ds, r = Ret (w', Aborts) /\ dirs_for o LG ds /\
    ltr w' = ltr w ++ before ++
      [EFlush Stdout; EPrint Stderr (prefix_text (s_prog LG) (Some (bytes routine)) ++ bytes "Internal error" ++ nl ++ bytes "     ");
       EPrint Stderr msg; EPrint Stderr nl] ++
      delivered o ds LG (Some (bytes routine)) 3 msg ++
      [EPrint Stderr (bytes "Aborting" ++ match s_prog LG with Some p => bytes " " ++ p | None => [] end ++ bytes "..." ++ nl);
       EFlush Stderr; EFlush Stdout].

Section Spec.
Context {K : Type} (T : fmt K).
(** a datum, as the list's print function or, without one, %p shows it *)
Definition shown (print : option (ptr -> list N)) (d : ptr) : list N :=
  match print with Some f => f d | None => f_p T d end.
(** the lines of a dump: the head's with a NULL datum, then one for each datum in order, each
    numbered and with the key; nothing is said about the addresses of the entries *)
Definition dump_lines (g : glist K) (lines : list (positive * Z * ptr * option K)) : Prop :=
  exists head addrs, length addrs = length (g_data g) /\
    lines = (head, 0, None, None) :: imap (fun i '(a, d) => (a, Z.of_nat i + 1, d, match d with None => None | Some _ => Some (g_key g d) end))
                         (zip addrs (g_data g)).
(** the output of a dump of [g] *)
Definition dump_output (g : glist K) (ev : list event) : Prop :=
  exists (level : nat) lines, (level <= 16)%nat /\ dump_lines g lines /\
    ev = [EPrint Stdout (bytes "Level = " ++ f_d T (Z.of_nat level) ++ bytes ", count = " ++ f_d T (Z.of_nat (length (g_data g))) ++ nl ++
                         List.concat (f_line T <$> lines))].
End Spec.
