(** C strings.  A [char *] argument is the list of bytes from the pointer to the
    end of the object it points into; reading past that end is undefined.  A
    string is a list of non-zero bytes; in memory it is followed by a NUL. *)
From Verif Require Import Base.
Local Open Scope N_scope.

Definition byte_ok (b : N) : Prop := b < 256.
Definition str_ok (s : list N) : Prop := Forall (fun b => 0 < b < 256) s.
Global Instance str_ok_dec s : Decision (str_ok s).
Proof. unfold str_ok. apply _. Defined.

(** [s] stored at the start of [buf] *)
Definition holds (buf s : list N) : Prop := exists rest, buf = s ++ 0 :: rest.

(** value of a (signed, x86) char *)
Definition schar (b : N) : Z := if b <? 128 then Z.of_N b else (Z.of_N b - 256)%Z.

(** strlen / reading the string at a pointer (C11 7.24.6.3) *)
Fixpoint c_string (buf : list N) : res (list N) :=
  match buf with
  | [] => UB
  | b :: buf' => if b =? 0 then Ret [] else s ← c_string buf'; Ret (b :: s)
  end.

(** strcmp (C11 7.24.4.2): the sign is that of the first differing unsigned char *)
Fixpoint c_strcmp (b1 b2 : list N) : res Z :=
  match b1, b2 with
  | x :: b1', y :: b2' =>
      if x =? y then (if x =? 0 then Ret 0%Z else c_strcmp b1' b2')
      else Ret (Z.of_N x - Z.of_N y)%Z
  | _, _ => UB
  end.

Lemma c_string_spec s rest : str_ok s -> c_string (s ++ 0 :: rest) = Ret s.
Proof.
  induction s as [|b s IH]; intros Hs; simpl; [done|].
  apply Forall_cons in Hs as [Hb Hs]. destruct (N.eqb_spec b 0); [lia|]. by rewrite IH.
Qed.

Fixpoint scmp (s1 s2 : list N) : Z :=
  match s1, s2 with
  | [], [] => 0%Z
  | [], y :: _ => (- Z.of_N y)%Z
  | x :: _, [] => Z.of_N x
  | x :: s1', y :: s2' => if x =? y then scmp s1' s2' else (Z.of_N x - Z.of_N y)%Z
  end.

Lemma c_strcmp_spec s1 s2 r1 r2 : str_ok s1 -> str_ok s2 ->
  c_strcmp (s1 ++ 0 :: r1) (s2 ++ 0 :: r2) = Ret (scmp s1 s2).
Proof.
  revert s2. induction s1 as [|x s1 IH]; intros [|y s2] H1 H2; simpl; [done|..].
  - apply Forall_cons in H2 as [Hy _]. destruct (N.eqb_spec 0 y); [lia|]. done.
  - apply Forall_cons in H1 as [Hx _]. destruct (N.eqb_spec x 0); [lia|]. f_equal; lia.
  - apply Forall_cons in H1 as [Hx H1]. apply Forall_cons in H2 as [Hy H2].
    destruct (N.eqb_spec x y) as [->|]; [|done]. destruct (N.eqb_spec y 0); [lia|]. by apply IH.
Qed.

Lemma scmp_eq s1 s2 : str_ok s1 -> str_ok s2 -> scmp s1 s2 = 0%Z <-> s1 = s2.
Proof.
  revert s2. induction s1 as [|x s1 IH]; intros [|y s2] H1 H2; simpl; [done|..].
  - apply Forall_cons in H2 as [Hy _]. split; [lia|done].
  - apply Forall_cons in H1 as [Hx _]. split; [lia|done].
  - apply Forall_cons in H1 as [Hx H1]. apply Forall_cons in H2 as [Hy H2].
    destruct (N.eqb_spec x y) as [->|Hne].
    + rewrite IH by done. split; [congruence|]. by intros [=].
    + split; [lia|]. by intros [=].
Qed.

(** total variant: keys that are not strings are compared too (never reached) *)
Lemma scmp_refl s : scmp s s = 0%Z.
Proof. induction s as [|x s IH]; simpl; [done|]. by rewrite N.eqb_refl. Qed.
