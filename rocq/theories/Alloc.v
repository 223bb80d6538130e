(** A concrete allocator, used only by the examples: one past the largest live
    address. *)
From Verif Require Import Base.

Definition bump {A} (h : gmap positive A) : option positive :=
  Some (map_fold (fun a _ m => Pos.max m (Pos.succ a)) 1%positive h).
Lemma bump_ok {A} : malloc_ok (@bump A).
Proof.
  intros h a [= <-].
  assert (Hlt : forall b x, h !! b = Some x ->
     (b < map_fold (fun a _ m => Pos.max m (Pos.succ a)) 1 h)%positive).
  { apply (map_fold_ind (fun m h => forall b x, h !! b = Some x -> (b < m)%positive)).
    - intros b x. by rewrite lookup_empty.
    - intros i y h' m Hi IH b x Hb. destruct (decide (b = i)) as [->|Hne]; [lia|].
      rewrite lookup_insert_ne in Hb by done. specialize (IH b x Hb). lia. }
  destruct (h !! _) as [x|] eqn:E; [|done]. specialize (Hlt _ _ E). lia.
Qed.
Definition full {A} (h : gmap positive A) : option positive := None.
Lemma full_ok {A} : malloc_ok (@full A).
Proof. intros h a. done. Qed.

(** Running long concrete histories: the result of a call known to return. *)
Definition is_ret {A} (r : res A) : bool := match r with Ret _ => true | _ => false end.
Definition getr {A} (r : res A) (d : A) : A := match r with Ret a => a | _ => d end.
Lemma getr_ok {A} (r : res A) d : is_ret r = true -> r = Ret (getr r d).
Proof. by destruct r. Qed.
Lemma getr_ok2 {A B} (r : res (A * B)) d : is_ret r = true -> r = Ret ((getr r d).1, (getr r d).2).
Proof. destruct r as [[a b]| | | |]; done. Qed.
