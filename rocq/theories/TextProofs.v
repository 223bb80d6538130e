(** Proofs about text.c. *)
From Verif Require Import Base CStr ListLemmas TextModel TextSpec.
Local Open Scope N_scope.

Lemma map_code l : l < 26 -> map_tab !! N.to_nat l = Some (48 + code l).
Proof.
  intros Hl. assert (H : Forall (fun n => map_tab !! n = Some (48 + code (N.of_nat n))) (seq 0 26)).
  { repeat (constructor; [vm_compute; reflexivity|]). constructor. }
  rewrite Forall_forall in H. specialize (H (N.to_nat l) ltac:(apply elem_of_seq; lia)). by rewrite N2Nat.id in H.
Qed.
Lemma letter_spec c : match letter c with
  | Some l => l < 26 /\ ascii_alpha c = true /\ c_toupper c = 65 + l
  | None => ascii_alpha c = false end.
Proof.
  unfold letter, ascii_alpha, c_toupper. destruct (decide (65 <= c <= 90)) as [H|H]; [|destruct (decide (97 <= c <= 122)) as [H'|H']].
  - split; [lia|]. rewrite !(proj2 (N.leb_le _ _)), !(proj2 (N.ltb_lt _ _)), (proj2 (N.leb_gt 97 c)) by lia. cbn. lia.
  - split; [lia|]. rewrite (proj2 (N.ltb_lt c 128)), (proj2 (N.leb_le 65 c)), (proj2 (N.leb_gt c 90)), (proj2 (N.leb_le 97 c)), (proj2 (N.leb_le c 122)) by lia.
    cbn. lia.
  - apply andb_false_iff. right. apply orb_false_iff. split; apply andb_false_iff.
    + destruct (N.le_gt_cases 65 c); [right|left]; apply N.leb_gt; lia.
    + destruct (N.le_gt_cases 97 c); [right|left]; apply N.leb_gt; lia.
Qed.
Definition padded (w : list N) : list N := w ++ replicate (4 - length w) 48.
Lemma padded_set w x t : (length w < 4)%nat -> aset (padded w ++ t) (length w) x = Ret (padded (w ++ [x]) ++ t).
Proof.
  intros Hw. unfold padded. destruct (4 - length w)%nat as [|k] eqn:Ek; [lia|]. cbn [replicate].
  rewrite <- !app_assoc. cbn [app]. rewrite (aset_Some _ _ 48).
  - rewrite insert_app_r_alt, Nat.sub_diag by lia. cbn [insert list_insert]. rewrite app_length. cbn [length].
    replace (4 - (length w + 1))%nat with k by lia. done.
  - by rewrite list_lookup_middle.
Qed.
Lemma digits_after_len p cs : Forall (fun c => c < 7) cs -> Forall (fun c => 0 < c < 7) (digits_after p cs).
Proof.
  revert p. induction cs as [|c cs IH]; intros p H; [constructor|]. apply Forall_cons in H as [Hc H]. cbn [digits_after].
  apply Forall_app. split; [|auto]. destruct (decide _) as [[? ?]|]; [|constructor]. constructor; [lia|constructor].
Qed.
Lemma code_lt l : code l < 7.
Proof.
  unfold code. destruct (list_find _ groups) as [[i g]|] eqn:E; [|lia]. apply list_find_Some in E as (E & _ & _).
  apply elem_of_list_lookup_2 in E. unfold groups in E. repeat (apply elem_of_cons in E as [->|E]; [cbn; lia|]). by apply elem_of_nil in E.
Qed.
Lemma full_loop s rest p r i : (4 <= i)%nat -> soundex_loop (s ++ 0 :: rest) i p r = Ret r.
Proof.
  intros Hi. destruct s as [|c s]; cbn [app soundex_loop]; [done|].
  rewrite (proj2 (Nat.ltb_ge i 4) Hi). cbn [negb]. by rewrite orb_true_r.
Qed.
Definition asc (ds : list N) : list N := (fun d => 48 + d) <$> ds.
Lemma tail_loop t rest s : str_ok s -> forall w p, (1 <= length w <= 4)%nat ->
  soundex_loop (s ++ 0 :: rest) (length w) (48 + p) (padded w ++ t) =
    Ret (padded (take 4 (w ++ asc (digits_after p (code <$> letters s)))) ++ t).
Proof.
  induction 1 as [|c s Hc Hs IH]; intros w p Hw.
  - cbn. rewrite app_nil_r, take_ge by lia. done.
  - destruct (decide (length w = 4)%nat) as [E4|Hn4].
    { rewrite full_loop by lia. rewrite take_app_alt by lia. done. }
    cbn [app soundex_loop]. rewrite (proj2 (N.eqb_neq c 0)), (proj2 (Nat.ltb_lt _ _)) by lia. cbn [orb negb].
    pose proof (letter_spec c) as Hl. unfold letters. cbn [omap list_omap].
    destruct (letter c) as [l|].
    + destruct Hl as (Hl & Ea & Eu). rewrite Ea, Eu. cbn zeta. replace (65 + l - 65) with l by lia.
      unfold aget. rewrite (map_code l Hl). rb. rewrite (proj2 (Nat.eqb_neq _ _)) by lia.
      fold (letters s). cbn [fmap list_fmap digits_after].
      assert (Et : (negb (48 + code l =? 48) && negb (48 + code l =? 48 + p)) = bool_decide (code l <> 0 /\ code l <> p)).
      { destruct (N.eqb_spec (48 + code l) 48), (N.eqb_spec (48 + code l) (48 + p)); cbn; symmetry;
          (apply bool_decide_eq_false_2; lia) || (apply bool_decide_eq_true_2; lia). }
      rewrite Et. destruct (decide (code l <> 0 /\ code l <> p)) as [Hd|Hd].
      * rewrite bool_decide_eq_true_2 by done. rewrite padded_set by lia. rb.
        assert (Hlen : S (length w) = length (w ++ [48 + code l])) by (rewrite app_length; cbn; lia).
        rewrite Hlen. rewrite IH by lia. do 3 f_equal. unfold asc. rewrite fmap_app. cbn [fmap list_fmap]. by rewrite <- app_assoc.
      * rewrite bool_decide_eq_false_2 by done. rb. rewrite IH by lia. done.
    + rewrite Hl. by rewrite IH.
Qed.
Lemma put_ok r : (5 <= length r)%nat -> put r 0 [90; 48; 48; 48; 0] = Ret ([90; 48; 48; 48; 0] ++ drop 5 r).
Proof. intros Hr. destruct r as [|a [|b [|c [|d [|e r]]]]]; cbn in Hr; try lia. done. Qed.
Lemma soundex_ok s rest r : str_ok s -> (5 <= length r)%nat ->
  txt_soundex2 (s ++ 0 :: rest) r = Ret (soundex s ++ 0 :: drop 5 r).
Proof.
  intros Hs Hr. unfold txt_soundex2. rewrite put_ok by done. rb. generalize (drop 5 r) as t. intros t.
  unfold soundex. induction Hs as [|c s Hc Hs IH]; [done|].
  cbn [app soundex_loop]. rewrite (proj2 (N.eqb_neq c 0)) by lia. cbn [orb negb Nat.ltb Nat.leb].
  pose proof (letter_spec c) as Hl. unfold letters. cbn [omap list_omap]. destruct (letter c) as [l|].
  - destruct Hl as (Hl & Ea & Eu). rewrite Ea, Eu. cbn zeta. replace (65 + l - 65) with l by lia.
    unfold aget. rewrite (map_code l Hl). rb. cbn [Nat.eqb]. cbn [aset lookup list_lookup insert list_insert]. rb.
    fold (letters s). change ((65 + l) :: 48 :: 48 :: 48 :: 0 :: t) with (padded [65 + l] ++ 0 :: t).
    change 1%nat with (length [65 + l]). rewrite tail_loop by (done || cbn; lia). f_equal.
    cbn [app firstn]. unfold padded. cbn [length]. rewrite <- app_comm_cons. cbn [app].
    f_equal. rewrite firstn_length. rewrite <- app_assoc. 
    assert (Hx : forall ds : list N, take 3 ds ++ replicate (3 - Nat.min 3 (length ds)) 48 = take 3 (ds ++ [48; 48; 48])).
    { intros ds. destruct ds as [|a [|b [|e ds]]]; done. }
    specialize (Hx (asc (digits_after (code l) (code <$> letters s)))). rewrite app_assoc. f_equal. exact Hx.
  - rewrite Hl. apply IH.
Qed.
