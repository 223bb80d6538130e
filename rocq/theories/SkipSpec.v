(** Vocabulary of the skip list theorems, independent of the model.  A skip list is
    the ascending list of its data; [cmp] orders keys, [key] gives a datum's key. *)
From Coq Require Export Sorting.Sorted.
From Verif Require Import Base.
Local Open Scope Z_scope.

Section Spec.
Context {K : Type}.

(** what a compare function must satisfy: antisymmetric signs and transitivity *)
Record order (cmp : K -> K -> Z) : Prop := {
  ord_anti : forall a b, cmp a b < 0 <-> 0 < cmp b a;
  ord_trans : forall a b c, cmp a b <= 0 -> cmp b c <= 0 -> cmp a c <= 0 }.

(** a live list as the calls made so far determine it *)
Record glist := GL { g_cmp : K -> K -> Z; g_key : ptr -> K; g_data : list ptr }.

(** data with the key of [k] *)
Definition present (G : glist) (k : K) (d : ptr) : Prop := d ∈ g_data G /\ g_cmp G (g_key G d) k = 0.
Definition absent (G : glist) (k : K) : Prop := forall d, d ∈ g_data G -> g_cmp G (g_key G d) k <> 0.

(** [d] between the data below it and the data above it *)
Definition g_insert (d : ptr) (G : glist) : glist :=
  let c x := g_cmp G (g_key G x) (g_key G d) in
  GL (g_cmp G) (g_key G) (filter (fun x => c x < 0) (g_data G) ++ d :: filter (fun x => 0 < c x) (g_data G)).
(** without the datum that has the key of [d] *)
Definition g_delete (d : ptr) (G : glist) : glist :=
  GL (g_cmp G) (g_key G) (filter (fun x => g_cmp G (g_key G x) (g_key G d) <> 0) (g_data G)).
(** strictly ascending keys *)
Definition ascending (G : glist) : Prop :=
  StronglySorted (fun x y => g_cmp G (g_key G x) (g_key G y) < 0) (g_data G).
End Spec.
Arguments glist : clear implicits.

(** calling [f] on the data in order until it answers non-zero *)
Fixpoint calls {X W} (f : X -> W -> ptr -> res (X * W * Z)) (s : X) (w : W) (l : list ptr) : res (X * W * Z) :=
  match l with
  | [] => Ret (s, w, 0)
  | d :: l' => '(s', w', r) ← f s w d; if r =? 0 then calls f s' w' l' else Ret (s', w', r)
  end.
