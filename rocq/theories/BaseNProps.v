(** C20, C21: base26.c and base64.c.  A returned pointer is the list of bytes from
    it to the end of the static buffer. *)
From Verif Require Import Base CStr BaseNModel BaseNSpec BaseNProofs.
Local Open Scope N_scope.

(** ** C20.  [b26_reach st]: [st] is a state of the static cache after any
    sequence of b26_encode calls. *)
Theorem C20_encode : forall st val, b26_reach st ->
  exists st' s, b26_encode st val = Ret (st', s ++ [0]) /\
    str_ok s /\ means d26 26 s (val mod 26 ^ 7) /\ shortest d26 s.
Proof.
  intros st val H. destruct (b26_encode_ok st val (b26_reach_inv _ H)) as (st' & s & E & _ & Hm & Hs & Ho & _).
  exists st', s. exact (conj E (conj Ho (conj Hm Hs))).
Qed.
Print Assumptions C20_encode.

Theorem C20_roundtrip : forall st val, b26_reach st -> val < 26 ^ 6 ->
  exists st' p, b26_encode st val = Ret (st', p) /\ b26_decode p = Ret val.
Proof.
  intros st val H Hv. destruct (b26_roundtrip st val [] H Hv) as (st' & s & E & D).
  exists st', (s ++ [0]). exact (conj E D).
Qed.
Print Assumptions C20_roundtrip.

Theorem C20_decode_value : forall s rest v, str_ok s -> (length s <= 6)%nat -> means d26 26 s v ->
  b26_decode (s ++ 0 :: rest) = Ret v.
Proof. exact b26_decode_legal. Qed.
Print Assumptions C20_decode_value.

(** seven digits at the end: int overflow *)
Theorem C20_decode_overflow : forall a c s rest, str_ok (a ++ c :: s) ->
  (Z.of_nat (length (a ++ c :: s)) < 2 ^ 31)%Z ->
  length s = 6%nat -> (exists v, means d26 26 (c :: s) v) ->
  b26_decode ((a ++ c :: s) ++ 0 :: rest) = UB.
Proof. exact b26_decode_long. Qed.
Print Assumptions C20_decode_overflow.

(** an illegal character followed by at most six digits *)
Theorem C20_decode_illegal : forall a c s rest, str_ok (a ++ c :: s) ->
  (Z.of_nat (length (a ++ c :: s)) < 2 ^ 31)%Z ->
  d26 c = None -> (length s <= 6)%nat -> (exists v, means d26 26 s v) ->
  b26_decode ((a ++ c :: s) ++ 0 :: rest) = Abort.
Proof. exact b26_decode_illegal. Qed.
Print Assumptions C20_decode_illegal.

(** ** C21 *)
Theorem C21_encode : forall val, exists s, b64_encode val = Ret (s ++ [0]) /\
  str_ok s /\ means d64 64 s (val mod 2 ^ 32) /\ shortest d64 s.
Proof.
  intros val. destruct (b64_encode_ok val) as (s & E & Hm & Hs & Ho & _).
  exists s. exact (conj E (conj Ho (conj Hm Hs))).
Qed.
Print Assumptions C21_encode.

(** decoding an encoding: exact below 2^31, signed overflow otherwise *)
Theorem C21_roundtrip : forall val, exists p, b64_encode val = Ret p /\
  (val < 2 ^ 31 -> b64_decode p = Ret val) /\
  (2 ^ 31 <= val mod 2 ^ 32 -> b64_decode p = UB).
Proof.
  intros val. destruct (b64_roundtrip val []) as (s & E & D). exists (s ++ [0]). split; [exact E|].
  rewrite D. split; intros H.
  - rewrite N.mod_small by lia. rewrite (proj2 (N.ltb_lt _ _) H). reflexivity.
  - rewrite (proj2 (N.ltb_ge _ _) H). reflexivity.
Qed.
Print Assumptions C21_roundtrip.

Theorem C21_decode_is_decode_buf : forall s rest, str_ok s ->
  b64_decode (s ++ 0 :: rest) = b64_decode_buf (s ++ 0 :: rest) (N.of_nat (length s)).
Proof. exact b64_decode_start. Qed.
Print Assumptions C21_decode_is_decode_buf.

(** b64_decode_buf reads exactly [len] characters, NUL-terminated or not *)
Theorem C21_decode_value : forall s rest v, str_ok s -> (length s <= 6)%nat ->
  means d64 64 s v -> v < 2 ^ 31 -> b64_decode_buf (s ++ rest) (N.of_nat (length s)) = Ret v.
Proof. exact b64_buf_legal. Qed.
Print Assumptions C21_decode_value.

Theorem C21_decode_overflow : forall a s rest, str_ok (a ++ s) ->
  (Z.of_nat (length (a ++ s)) < 2 ^ 31)%Z ->
  (length s = 6%nat /\ (exists v, means d64 64 s v /\ 2 ^ 31 <= v) \/
   length s = 7%nat /\ (exists v, means d64 64 s v)) ->
  b64_decode_buf ((a ++ s) ++ rest) (N.of_nat (length (a ++ s))) = UB.
Proof.
  intros a s rest Hs Hl [[H6 (v & Hv & Hb)]|[H7 Hv]].
  - exact (b64_buf_over a s rest v Hs Hl H6 Hv Hb).
  - exact (b64_buf_long a s rest Hs Hl H7 Hv).
Qed.
Print Assumptions C21_decode_overflow.

Theorem C21_decode_illegal : forall a c s rest w, str_ok (a ++ c :: s) ->
  (Z.of_nat (length (a ++ c :: s)) < 2 ^ 31)%Z ->
  d64 c = None -> (length s <= 6)%nat -> means d64 64 s w -> w < 2 ^ 31 ->
  b64_decode_buf ((a ++ c :: s) ++ rest) (N.of_nat (length (a ++ c :: s))) = Abort.
Proof. exact b64_buf_illegal. Qed.
Print Assumptions C21_decode_illegal.

(** ** Cases: "ba" = 26; the cache hit; "1" is illegal; aaaaaaa overflows *)
Example C20_cases : exists st, (x ← b26_encode b26_init 26; Ret (fst x)) = Ret st /\
  ((snd <$> b26_encode st 26) = Ret [98; 97; 0] /\ (snd <$> b26_encode st 0) = Ret [97; 0] /\
   b26_decode [98; 97; 0] = Ret 26 /\ b26_decode [98; 49; 97; 0] = Abort /\
   b26_decode [97; 97; 97; 97; 97; 97; 97; 0] = UB).
Proof. eexists. split; [vm_compute; reflexivity|]. vm_compute. done. Qed.
Example C21_cases : b64_encode 0 = Ret [65; 0] /\ b64_encode 65 = Ret [66; 66; 0] /\
  b64_encode (2 ^ 32 + 65) = Ret [66; 66; 0] /\ b64_decode [66; 66; 0] = Ret 65 /\
  b64_decode [67; 65; 65; 65; 65; 65; 0] = UB /\ b64_decode_buf [66; 66; 66] 2 = Ret 65 /\
  b64_decode [45; 0] = Abort.
Proof. vm_compute. done. Qed.
