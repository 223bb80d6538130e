(** Common vocabulary of the model: outcomes, pointers, stores, arrays and
    C integer arithmetic on an LP64 machine. *)
From Coq Require Export ZArith Lia ZifyBool ZifyNat ZifyN.
From stdpp Require Export base tactics numbers gmap fin_maps fin_map_dom option.
From stdpp Require Export list.

Global Arguments N.add : simpl never.
Global Arguments N.sub : simpl never.
Global Arguments N.mul : simpl never.
Global Arguments N.modulo : simpl never.
Global Arguments N.div : simpl never.
Global Arguments N.pow : simpl never.
Global Arguments N.ltb : simpl never.
Global Arguments N.leb : simpl never.
Global Arguments N.eqb : simpl never.
Global Arguments Z.add : simpl never.
Global Arguments Z.sub : simpl never.
Global Arguments Z.mul : simpl never.
Global Arguments Z.modulo : simpl never.
Global Arguments Z.div : simpl never.
Global Arguments Z.pow : simpl never.
Global Arguments Z.ltb : simpl never.
Global Arguments Z.leb : simpl never.
Global Arguments Z.eqb : simpl never.

(** ** Outcomes of a C call.
    [Fatal]  : err_fatal / err_fatal_errno, i.e. exit(1)   (error.c:71-135)
    [Abort]  : err_internal, failed assert(), i.e. abort() (error.c:171-204)
    [UB]     : undefined behaviour of the C program
    [Diverge]: a loop that never ends *)
Inductive res (A : Type) : Type :=
| Ret (a : A)
| Fatal
| Abort
| UB
| Diverge.
Arguments Ret {A} _.
Arguments Fatal {A}.
Arguments Abort {A}.
Arguments UB {A}.
Arguments Diverge {A}.

Global Instance res_ret : MRet res := fun A a => Ret a.
Global Instance res_bind : MBind res := fun A B f m =>
  match m with
  | Ret a => f a
  | Fatal => Fatal
  | Abort => Abort
  | UB => UB
  | Diverge => Diverge
  end.
Global Instance res_fmap : FMap res := fun A B f m =>
  match m with
  | Ret a => Ret (f a)
  | Fatal => Fatal
  | Abort => Abort
  | UB => UB
  | Diverge => Diverge
  end.

Lemma bind_Ret {A B} (f : A -> res B) (a : A) : (Ret a ≫= f) = f a.
Proof. reflexivity. Qed.
Ltac rb := repeat (rewrite bind_Ret; cbv beta iota).

(** [ok P failed r]: the call returns normally with a result satisfying [P], or
    exits fatally while [failed] (some allocation can fail).  It never aborts,
    never has undefined behaviour and never loops. *)
Definition ok {A} (P : A -> Prop) (failed : Prop) (r : res A) : Prop :=
  match r with
  | Ret a => P a
  | Fatal => failed
  | _ => False
  end.

Lemma ok_bind {A B} (P : A -> Prop) (Q : B -> Prop) fl (m : res A) (f : A -> res B) :
  ok P fl m -> (forall a, P a -> ok Q fl (f a)) -> ok Q fl (m ≫= f).
Proof. destruct m; simpl; eauto. Qed.

Lemma ok_mono {A} (P Q : A -> Prop) (fl fl' : Prop) (m : res A) :
  ok P fl m -> (forall a, P a -> Q a) -> (fl -> fl') -> ok Q fl' m.
Proof. destruct m; simpl; eauto. Qed.

(** ** Pointers and stores.  [None] is NULL. *)
Notation ptr := (option positive).

Definition hget {A} (h : gmap positive A) (a : positive) : res A :=
  match h !! a with Some x => Ret x | None => UB end.

(** Dereference of a possibly NULL pointer. *)
Definition pget {A} (h : gmap positive A) (p : ptr) : res A :=
  match p with Some a => hget h a | None => UB end.

(** Store into an allocated cell; a write to an address that is not allocated
    is undefined. *)
Definition hset {A} (h : gmap positive A) (a : positive) (x : A) : res (gmap positive A) :=
  match h !! a with Some _ => Ret (<[a := x]> h) | None => UB end.

(** free(): undefined unless the address is allocated. *)
Definition hfree {A} (h : gmap positive A) (a : positive) : res (gmap positive A) :=
  match h !! a with Some _ => Ret (delete a h) | None => UB end.

(** The allocator for cells of one kind: given the live store it yields a fresh
    address or fails.  Everything is proved for every such function. *)
Definition malloc_ok {A} (m : gmap positive A -> option positive) : Prop :=
  forall h a, m h = Some a -> h !! a = None.

(** Arrays: out-of-range access is undefined. *)
Definition aget {A} (l : list A) (i : nat) : res A :=
  match l !! i with Some x => Ret x | None => UB end.
Definition aset {A} (l : list A) (i : nat) (x : A) : res (list A) :=
  match l !! i with Some _ => Ret (<[i := x]> l) | None => UB end.

(** ** C integers (LP64). *)
Definition u32 (x : N) : N := (x mod 2 ^ 32)%N.
Definition u64 (x : N) : N := (x mod 2 ^ 64)%N.
(** unsigned long subtraction of one *)
Definition u64_dec (x : N) : N := u64 (x + (2 ^ 64 - 1)).
Definition u32_dec (x : N) : N := u32 (x + (2 ^ 32 - 1)).

Definition INT_MIN : Z := (- 2 ^ 31)%Z.
Definition INT_MAX : Z := (2 ^ 31 - 1)%Z.
Definition int_range (z : Z) : bool := ((INT_MIN <=? z) && (z <=? INT_MAX))%Z.
(** result of a signed int operation: overflow is undefined *)
Definition sint (z : Z) : res Z := if int_range z then Ret z else UB.
(** conversion to int (gcc: reduction modulo 2^32) *)
Definition to_int (z : Z) : Z := ((z + 2 ^ 31) mod 2 ^ 32 - 2 ^ 31)%Z.

(** x % y on unsigned operands *)
Definition umod (x y : N) : res N := if (y =? 0)%N then UB else Ret (x mod y)%N.

(** ** Loops *)

(** for (i = from; i < from + n; i++) body *)
Fixpoint for_up {T} (n i : nat) (body : nat -> T -> res T) (s : T) : res T :=
  match n with
  | O => Ret s
  | S n' => s' ← body i s; for_up n' (S i) body s'
  end.

(** A loop [while] given as a step function: [inl s'] continue, [inr r] stop.
    The number of allowed iterations is a binary number, so that loops of
    2^32 iterations can be written down and executed as far as they run. *)
Fixpoint iter_pos {T R} (n : positive) (step : T -> T + R) (s : T) : T + R :=
  match n with
  | xH => step s
  | xO p => match iter_pos p step s with
            | inl s' => iter_pos p step s'
            | inr r => inr r
            end
  | xI p => match step s with
            | inl s' => match iter_pos p step s' with
                        | inl s'' => iter_pos p step s''
                        | inr r => inr r
                        end
            | inr r => inr r
            end
  end.

Fixpoint iter_nat {T R} (n : nat) (step : T -> T + R) (s : T) : T + R :=
  match n with
  | O => inl s
  | S n' => match step s with
            | inl s' => iter_nat n' step s'
            | inr r => inr r
            end
  end.

Lemma iter_nat_add {T R} (step : T -> T + R) n m s :
  iter_nat (n + m) step s =
  match iter_nat n step s with inl s' => iter_nat m step s' | inr r => inr r end.
Proof.
  revert s. induction n as [|n IH]; intros s; simpl; [done|].
  destruct (step s); auto.
Qed.

Lemma iter_pos_nat {T R} (step : T -> T + R) n s :
  iter_pos n step s = iter_nat (Pos.to_nat n) step s.
Proof.
  revert s. induction n as [p IH|p IH|]; intros s.
  - rewrite Pos2Nat.inj_xI. simpl. destruct (step s) as [s'|r]; [|done].
    rewrite IH. replace (Pos.to_nat p + (Pos.to_nat p + 0)) with (Pos.to_nat p + Pos.to_nat p) by lia.
    rewrite iter_nat_add.
    destruct (iter_nat (Pos.to_nat p) step s'); auto.
  - rewrite Pos2Nat.inj_xO. simpl. rewrite IH.
    replace (Pos.to_nat p + (Pos.to_nat p + 0)) with (Pos.to_nat p + Pos.to_nat p) by lia.
    rewrite iter_nat_add.
    destruct (iter_nat (Pos.to_nat p) step s); auto.
  - simpl. destruct (step s); done.
Qed.

Lemma hget_Some {A} (h : gmap positive A) a x : h !! a = Some x -> hget h a = Ret x.
Proof. unfold hget. by intros ->. Qed.
Lemma hset_Some {A} (h : gmap positive A) a x y : h !! a = Some x -> hset h a y = Ret (<[a:=y]> h).
Proof. unfold hset. by intros ->. Qed.
Lemma hfree_Some {A} (h : gmap positive A) a x : h !! a = Some x -> hfree h a = Ret (delete a h).
Proof. unfold hfree. by intros ->. Qed.
Lemma aget_Some {A} (l : list A) i x : l !! i = Some x -> aget l i = Ret x.
Proof. unfold aget. by intros ->. Qed.
Lemma aset_Some {A} (l : list A) i x y : l !! i = Some x -> aset l i y = Ret (<[i:=y]> l).
Proof. unfold aset. by intros ->. Qed.

Lemma for_up_add {T} n m i (body : nat -> T -> res T) s :
  for_up (n + m) i body s = (s' ← for_up n i body s; for_up m (i + n) body s').
Proof.
  revert i s. induction n as [|n IH]; intros i s; simpl.
  - by rewrite Nat.add_0_r.
  - unfold mbind, res_bind. destruct (body i s); try done.
    rewrite IH. unfold mbind, res_bind. replace (S i + n) with (i + S n) by lia. done.
Qed.

(** ** Running concrete cases *)
Global Instance res_eq_dec {A} `{EqDecision A} : EqDecision (res A).
Proof. solve_decision. Defined.

Definition ret_check {A} (r : res A) (P : A -> bool) : bool :=
  match r with Ret a => P a | _ => false end.
(** [ret_ex r P]: the computation [r] returns some [a] with [P a]. *)
Lemma ret_ex {A} (r : res A) (P : A -> Prop) (dec : forall a, Decision (P a)) :
  ret_check r (fun a => bool_decide (P a)) = true -> exists a, r = Ret a /\ P a.
Proof.
  destruct r as [a| | | |]; simpl; try discriminate.
  intros E. exists a. split; [done|]. by apply (bool_decide_eq_true_1 (P a)).
Qed.
Ltac run :=
  match goal with
  | |- exists s, ?r = Ret s /\ @?P s =>
      let d := constr:(ltac:(intros s; apply _) : forall s, Decision (P s)) in
      apply (ret_ex r P d); vm_compute; reflexivity
  end.
