(** Facts about standard lists used by several modules. *)
From Verif Require Import Base.
Local Open Scope nat_scope.

Lemma concat_delete {A} (L : list (list A)) i l :
  L !! i = Some l -> concat L ≡ₚ l ++ concat (delete i L).
Proof.
  revert i. induction L as [|l0 L IH]; intros [|i] Hi; simpl in *; try done.
  - by injection Hi as ->.
  - rewrite (IH i Hi). rewrite !app_assoc. f_equiv. apply Permutation_app_comm.
Qed.

Lemma concat_insert {A} (L : list (list A)) i l l' :
  L !! i = Some l -> concat (<[i := l']> L) ≡ₚ l' ++ concat (delete i L).
Proof.
  revert i. induction L as [|l0 L IH]; intros [|i] Hi; simpl in *; try done.
  rewrite (IH i Hi). rewrite !app_assoc. f_equiv. apply Permutation_app_comm.
Qed.

Lemma elem_of_concat_delete {A} (L : list (list A)) i j l x :
  L !! j = Some l -> i <> j -> x ∈ l -> x ∈ concat (delete i L).
Proof.
  revert i j. induction L as [|l0 L IH]; intros [|i] [|j] Hj Hne Hx; simpl in *; try done.
  - apply elem_of_list_In, in_concat. exists l. split; apply elem_of_list_In; [|done].
    by eapply elem_of_list_lookup_2.
  - injection Hj as ->. set_solver.
  - apply elem_of_app. right. eapply IH; eauto.
Qed.

Lemma elem_of_concat {A} (L : list (list A)) i l x :
  L !! i = Some l -> x ∈ l -> x ∈ concat L.
Proof.
  intros Hi Hx. rewrite (concat_delete L i l Hi). set_solver.
Qed.

Lemma concat_elem {A} (L : list (list A)) x :
  x ∈ concat L -> exists i l, L !! i = Some l /\ x ∈ l.
Proof.
  intros Hx. apply elem_of_list_In, in_concat in Hx as (l & Hl & Hx).
  apply elem_of_list_In in Hl, Hx. apply elem_of_list_lookup in Hl as [i Hi]. eauto.
Qed.

