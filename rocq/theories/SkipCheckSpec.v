(** Vocabulary of the theorems about the consistency check of skip lists. *)
From Verif Require Import Base SkipModel.
Local Open Scope Z_scope.

(** the entries reached from [p] along forward[0] up to NULL *)
Inductive chain (h : gmap positive entry) : positive -> list positive -> Prop :=
| chain_end p e : h !! p = Some e -> forward e !! 0%nat = Some (Some None) -> chain h p []
| chain_next p q e L : h !! p = Some e -> forward e !! 0%nat = Some (Some (Some q)) -> chain h q L -> chain h p (q :: L).

(** the keys of neighbouring entries ascend *)
Definition in_order {K} (cmp : K -> K -> Z) (key : ptr -> K) (h : gmap positive entry) (L : list positive) : Prop :=
  forall i a b ea eb, L !! i = Some a -> L !! S i = Some b -> h !! a = Some ea -> h !! b = Some eb ->
    cmp (key (edatum ea)) (key (edatum eb)) < 0.

(** every forward pointer of every entry, but for the spare slot at the end of its block, was written *)
Definition filled (h : gmap positive entry) : Prop :=
  forall a e, h !! a = Some e -> (2 <= length (forward e))%nat /\
    forall i, (S i < length (forward e))%nat -> exists p, forward e !! i = Some (Some p).
