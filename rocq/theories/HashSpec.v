(** Specification vocabulary for hash tables and sets, independent of the model:
    association lists whose keys are compared with the user's [cmp]. *)
From Verif Require Import Base.

Section Spec.
Context {K D : Type}.
Implicit Types (cmp : K -> K -> Z).

(** What the user must provide: "compare returns 0" is an equivalence, and equal
    keys hash equally. *)
Record good_cmp (hash : K -> N) cmp : Prop := {
  gc_refl : forall a, cmp a a = 0%Z;
  gc_sym : forall a b, cmp a b = 0%Z -> cmp b a = 0%Z;
  gc_trans : forall a b c, cmp a b = 0%Z -> cmp b c = 0%Z -> cmp a c = 0%Z;
  gc_hash : forall a b, cmp a b = 0%Z -> hash a = hash b }.

(** The datum stored under a key equal to [k], if any. *)
Fixpoint afind cmp (k : K) (m : list (K * D)) : option D :=
  match m with
  | [] => None
  | (k', d) :: m' => if (cmp k' k =? 0)%Z then Some d else afind cmp k m'
  end.

(** The map without the key [k]. *)
Definition aremove cmp (k : K) (m : list (K * D)) : list (K * D) :=
  filter (fun kd => (cmp kd.1 k =? 0)%Z = false) m.

(** No two keys equal. *)
Definition adistinct cmp (m : list (K * D)) : Prop :=
  ForallOrdPairs (fun x y => cmp x.1 y.1 <> 0%Z) m.

(** Calling an iterator [f] on each pair in turn until it returns non-zero:
    final user state, and whether it was stopped. *)
Fixpoint visit {U} (f : K -> D -> U -> U * Z) (m : list (K * D)) (u : U) : U * bool :=
  match m with
  | [] => (u, false)
  | (k, d) :: m' => let '(u', r) := f k d u in
                    if (r =? 0)%Z then visit f m' u' else (u', true)
  end.

(** [kd] belongs to bucket [h] of a table of [p] buckets. *)
Definition in_row (hf : K -> N) (p : N) (h : nat) (kd : K * D) : Prop :=
  N.to_nat (hf kd.1 mod p) = h.
Global Instance in_row_dec hf p h kd : Decision (in_row hf p h kd).
Proof. unfold in_row. apply _. Defined.

(** Number of keys in each of the [p] buckets, computed from the contents. *)
Definition bucket_counts (hf : K -> N) (p : N) (m : list (K * D)) : list nat :=
  (fun i => length (filter (in_row hf p i) m)) <$> seq 0 (N.to_nat p).

(** [k] equals the first key, in iteration order [m], of its bucket. *)
Definition on_top (hf : K -> N) cmp (p : N) (k : K) (m : list (K * D)) : Prop :=
  exists kd, head (filter (in_row hf p (N.to_nat (hf k mod p))) m) = Some kd /\
             cmp kd.1 k = 0%Z.
End Spec.

Definition count_if (P : nat -> bool) (ns : list nat) : nat := length (filter (fun n => P n = true) ns).
