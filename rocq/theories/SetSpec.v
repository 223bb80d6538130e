(** Specification vocabulary for sets: finite sets up to the user's compare, as
    lists without repetition; the order of a list is irrelevant. *)
From Verif Require Import Base.

Section Spec.
Context {K : Type}.
Implicit Types (cmp : K -> K -> Z) (xs ys : list K).

(** is some element of [xs] equal to [k]? *)
Definition smem cmp (k : K) xs : bool := existsb (fun x => (cmp x k =? 0)%Z) xs.
Definition sdistinct cmp xs : Prop := ForallOrdPairs (fun x y => cmp x y <> 0%Z) xs.

Definition sinsert cmp k xs : list K := if smem cmp k xs then xs else k :: xs.
Definition sremove cmp k xs : list K := filter (fun x => (cmp x k =? 0)%Z = false) xs.
Definition sinter cmp xs ys : list K := filter (fun x => smem cmp x ys = true) xs.
Definition sdiff cmp xs ys : list K := filter (fun x => smem cmp x ys = false) xs.
(** the elements of [xs], and those of [ys] not in it *)
Definition sunion cmp xs ys : list K := xs ++ sdiff cmp ys xs.

(** calling an iterator on each element in turn until it returns non-zero *)
Fixpoint svisit {U} (f : K -> U -> U * Z) xs (u : U) : U * bool :=
  match xs with
  | [] => (u, false)
  | k :: xs' => let '(u', r) := f k u in if (r =? 0)%Z then svisit f xs' u' else (u', true)
  end.

(** same elements up to compare *)
Definition sequal cmp xs ys : Prop := forall k, smem cmp k xs = smem cmp k ys.
End Spec.
