(** Property C46: Soundex. *)
From Verif Require Import Base CStr ListLemmas TextModel TextSpec TextProofs.
Local Open Scope N_scope.

(** For every string and every result buffer of at least five bytes: the code and a NUL are
    written to the first five bytes and nothing else. *)
Theorem C46_soundex s rest result : str_ok s -> (5 <= length result)%nat ->
  txt_soundex2 (s ++ 0 :: rest) result = Ret (soundex s ++ 0 :: drop 5 result) /\ length (soundex s) = 4%nat.
Proof.
  intros Hs Hr. split; [by apply soundex_ok|]. unfold soundex. destruct (letters s); [done|]. cbn [length].
  rewrite take_length, app_length. cbn [length]. lia.
Qed.
(** The code: a capital letter, then digits 0-6, the zeros last. *)
Theorem C46_shape s : exists c ds, soundex s = c :: ds ++ replicate (3 - length ds) 48 /\
  65 <= c <= 90 /\ (length ds <= 3)%nat /\ Forall (fun d => 49 <= d <= 54) ds.
Proof.
  assert (Hlet : Forall (fun l => l < 26) (letters s)).
  { unfold letters. induction s as [|c s IH]; [constructor|]. cbn [omap list_omap]. pose proof (letter_spec c) as H.
    destruct (letter c); [|done]. constructor; [apply H|done]. }
  unfold soundex. destruct (letters s) as [|l ls].
  { exists 90, []. split; [done|]. split; [lia|]. split; [cbn; lia|constructor]. }
  apply Forall_cons in Hlet as [Hl Hls].
  set (ds := (fun d => 48 + d) <$> digits_after (code l) (code <$> ls)). exists (65 + l), (take 3 ds).
  split; [|split; [lia|split; [rewrite take_length; lia|]]].
  - f_equal. destruct ds as [|a [|b [|e ds']]]; done.
  - apply Forall_take. unfold ds. apply Forall_fmap. eapply Forall_impl; [apply digits_after_len|].
    + apply Forall_fmap. apply Forall_true. intros x. apply code_lt.
    + cbn. lia.
Qed.
(** Strings with the same letters, in either case, have the same code. *)
Theorem C46_case_and_non_letters s s' : letters s = letters s' -> soundex s = soundex s'.
Proof. intros E. unfold soundex. by rewrite E. Qed.
Theorem C46_letters s c : letters (s ++ [c]) = letters s ++
  (if (65 <=? c) && (c <=? 90) then [c - 65] else if (97 <=? c) && (c <=? 122) then [c - 97] else []).
Proof.
  unfold letters. rewrite omap_app. f_equal. cbn [omap list_omap]. unfold letter.
  destruct (decide (65 <= c <= 90)) as [H|H].
  - by rewrite !(proj2 (N.leb_le _ _)) by lia.
  - assert (E : (65 <=? c) && (c <=? 90) = false).
    { apply andb_false_iff. destruct (N.le_gt_cases 65 c); [right|left]; apply N.leb_gt; lia. }
    rewrite E. destruct (decide (97 <= c <= 122)) as [H'|H'].
    + by rewrite !(proj2 (N.leb_le _ _)) by lia.
    + assert (E' : (97 <=? c) && (c <=? 122) = false); [|by rewrite E'].
      apply andb_false_iff. destruct (N.le_gt_cases 97 c); [right|left]; apply N.leb_gt; lia.
Qed.
(** txt_soundex hands out the same buffer each time: the code of the last call. *)
Theorem C46_static_buffer s rest s' rest' buf : str_ok s -> str_ok s' -> length buf = 5%nat ->
  exists b1, txt_soundex buf (s ++ 0 :: rest) = Ret b1 /\ b1 = soundex s ++ [0] /\
    txt_soundex b1 (s' ++ 0 :: rest') = Ret (soundex s' ++ [0]).
Proof.
  intros Hs Hs' Hb. destruct (C46_soundex s rest buf Hs ltac:(lia)) as [E Hl]. eexists. split; [exact E|].
  rewrite drop_ge by lia. split; [done|]. unfold txt_soundex.
  destruct (C46_soundex s' rest' (soundex s ++ [0]) Hs') as [E' _]; [rewrite app_length; cbn [length]; lia|].
  rewrite E', drop_ge; [done|rewrite app_length; cbn [length]; lia].
Qed.
Print Assumptions C46_soundex.
Print Assumptions C46_shape.
Print Assumptions C46_case_and_non_letters.
Print Assumptions C46_letters.
Print Assumptions C46_static_buffer.

(** Knuth's examples: Euler E460, Gauss G200, Hilbert H416, Knuth K530, Lloyd L300,
    Lukasiewicz L222; "" Z000.  (Knuth: Lukasiewicz L222.) *)
Example C46_knuth :
  soundex [69;117;108;101;114] = [69;52;54;48] /\ soundex [71;97;117;115;115] = [71;50;48;48] /\
  soundex [72;105;108;98;101;114;116] = [72;52;49;54] /\ soundex [75;110;117;116;104] = [75;53;51;48] /\
  soundex [76;108;111;121;100] = [76;51;48;48] /\
  soundex [76;117;107;97;115;105;101;119;105;99;122] = [76;50;50;50] /\ soundex [49] = [90;48;48;48].
Proof. vm_compute. done. Qed.
Example C46_run : txt_soundex2 ([75;45;78;200;117;116;104] ++ 0 :: [1]) [9;9;9;9;9;9] = Ret ([75;53;51;48;0;9]).
Proof. vm_compute. done. Qed.
