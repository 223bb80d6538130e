(** What the flag calls mean, independent of the words they are stored in. *)
From Verif Require Import Base.
Local Open Scope N_scope.

(** a flag: bit [i] (< 30) of set [k] (< 4) *)
Definition fl (k i : N) : N := k * 2 ^ 30 + 2 ^ i.
Definition set_of (f : N) : N := f / 2 ^ 30.

(** the set whose bits the test of [g] looks at: the macro TEST never reads set 2 *)
Definition seen (g : N) : N := if set_of g =? 2 then 3 else set_of g.

(** what happened to the flags, newest first *)
Inductive fevent := ESet (f : N) | EClear (f : N) | EAll | ENone.
(** is bit [i] of set [k] on? *)
Fixpoint lit (ev : list fevent) (k i : N) : bool :=
  match ev with
  | [] => false
  | ESet f :: ev => if (set_of f =? k) && N.testbit f i then true else lit ev k i
  | EClear f :: ev => if (set_of f =? k) && N.testbit f i then false else lit ev k i
  | EAll :: _ => true
  | ENone :: _ => false
  end.

(** what setting a name does, given the registered names *)
Inductive effect := Does (e : list fevent) | Invalid.
Section effects.
Context (find : list N -> option N).   (* the flag registered under a name *)
Definition flg_effect (n : list N) : effect :=
  if decide (n = [110; 111; 110; 101]) then Does [ENone]       (* "none" *)
  else if decide (n = [97; 108; 108]) then Does [EAll]         (* "all" *)
  else match find n, n with
       | Some f, _ => Does [ESet f]
       | None, 43 :: m => match find m with Some f => Does [ESet f] | None => Invalid end     (* + *)
       | None, 45 :: m => match find m with Some f => Does [EClear f] | None => Invalid end   (* - *)
       | None, _ => Invalid
       end.
Definition dbg_effect (n : list N) : effect :=
  if decide (n = [110; 111; 110; 101]) then Does [ENone]
  else if decide (n = [97; 108; 108]) then Does [EAll]
  else match find n, n with
       | Some f, _ => Does [ESet f]
       | None, c :: m =>
           match find m with
           | Some f => Does [if c =? 43 then ESet f else EClear f]
           | None => if (c =? 43) || (c =? 45) then Does [] else Invalid
           end
       | None, [] => Invalid
       end.
End effects.
