(** Models of maa/base26.c and maa/base64.c.  A returned [char *] into the static
    buffer is the list of bytes from it to the end of the buffer. *)
From Verif Require Import Base CStr.
Local Open Scope N_scope.

(** base26.c:38, base64.c:58 *)
Definition XX : Z := 100%Z.

(** base26.c:35-36, with the terminating NUL: "abcdefghijklmnopqrstuvwxyz" *)
Definition b26_list : list N := (N.of_nat <$> seq 97 26) ++ [0].

(** base26.c:40-57 *)
Definition b26_index : list Z := [
   XX; XX; XX; XX; XX; XX; XX; XX; XX; XX; XX; XX; XX; XX; XX; XX;
   XX; XX; XX; XX; XX; XX; XX; XX; XX; XX; XX; XX; XX; XX; XX; XX;
   XX; XX; XX; XX; XX; XX; XX; XX; XX; XX; XX; XX; XX; XX; XX; XX;
   XX; XX; XX; XX; XX; XX; XX; XX; XX; XX; XX; XX; XX; XX; XX; XX;
   XX; XX; XX; XX; XX; XX; XX; XX; XX; XX; XX; XX; XX; XX; XX; XX;
   XX; XX; XX; XX; XX; XX; XX; XX; XX; XX; XX; XX; XX; XX; XX; XX;
   XX; 0; 1; 2; 3; 4; 5; 6; 7; 8; 9; 10; 11; 12; 13; 14;
   15; 16; 17; 18; 19; 20; 21; 22; 23; 24; 25; XX; XX; XX; XX; XX;
   XX; XX; XX; XX; XX; XX; XX; XX; XX; XX; XX; XX; XX; XX; XX; XX;
   XX; XX; XX; XX; XX; XX; XX; XX; XX; XX; XX; XX; XX; XX; XX; XX;
   XX; XX; XX; XX; XX; XX; XX; XX; XX; XX; XX; XX; XX; XX; XX; XX;
   XX; XX; XX; XX; XX; XX; XX; XX; XX; XX; XX; XX; XX; XX; XX; XX;
   XX; XX; XX; XX; XX; XX; XX; XX; XX; XX; XX; XX; XX; XX; XX; XX;
   XX; XX; XX; XX; XX; XX; XX; XX; XX; XX; XX; XX; XX; XX; XX; XX;
   XX; XX; XX; XX; XX; XX; XX; XX; XX; XX; XX; XX; XX; XX; XX; XX;
   XX; XX; XX; XX; XX; XX; XX; XX; XX; XX; XX; XX; XX; XX; XX; XX]%Z.

(** base64.c:55-56: "A..Za..z0..9+/" and NUL *)
Definition b64_list : list N :=
  (N.of_nat <$> seq 65 26) ++ (N.of_nat <$> seq 97 26) ++ (N.of_nat <$> seq 48 10) ++ [43; 47; 0].

(** base64.c:60-77 *)
Definition b64_index : list Z := [
   XX; XX; XX; XX; XX; XX; XX; XX; XX; XX; XX; XX; XX; XX; XX; XX;
   XX; XX; XX; XX; XX; XX; XX; XX; XX; XX; XX; XX; XX; XX; XX; XX;
   XX; XX; XX; XX; XX; XX; XX; XX; XX; XX; XX; 62; XX; XX; XX; 63;
   52; 53; 54; 55; 56; 57; 58; 59; 60; 61; XX; XX; XX; XX; XX; XX;
   XX; 0; 1; 2; 3; 4; 5; 6; 7; 8; 9; 10; 11; 12; 13; 14;
   15; 16; 17; 18; 19; 20; 21; 22; 23; 24; 25; XX; XX; XX; XX; XX;
   XX; 26; 27; 28; 29; 30; 31; 32; 33; 34; 35; 36; 37; 38; 39; 40;
   41; 42; 43; 44; 45; 46; 47; 48; 49; 50; 51; XX; XX; XX; XX; XX;
   XX; XX; XX; XX; XX; XX; XX; XX; XX; XX; XX; XX; XX; XX; XX; XX;
   XX; XX; XX; XX; XX; XX; XX; XX; XX; XX; XX; XX; XX; XX; XX; XX;
   XX; XX; XX; XX; XX; XX; XX; XX; XX; XX; XX; XX; XX; XX; XX; XX;
   XX; XX; XX; XX; XX; XX; XX; XX; XX; XX; XX; XX; XX; XX; XX; XX;
   XX; XX; XX; XX; XX; XX; XX; XX; XX; XX; XX; XX; XX; XX; XX; XX;
   XX; XX; XX; XX; XX; XX; XX; XX; XX; XX; XX; XX; XX; XX; XX; XX;
   XX; XX; XX; XX; XX; XX; XX; XX; XX; XX; XX; XX; XX; XX; XX; XX;
   XX; XX; XX; XX; XX; XX; XX; XX; XX; XX; XX; XX; XX; XX; XX; XX]%Z.

(** the statics of b26_encode: result[8] and previous (base26.c:64-65) *)
Record b26 := B26 { result : list N; previous : N }.
Definition b26_init : b26 := B26 [97; 97; 97; 97; 97; 97; 97; 0] 0.

(** base26.c:70-73: for (i = n - 1; i >= 0; i--) *)
Fixpoint b26_digits (n : nat) (r : list N) (val : N) : res (list N) :=
  match n with
  | O => Ret r
  | S i => c ← aget b26_list (N.to_nat (val mod 26)); r' ← aset r i c; b26_digits i r' (val / 26)
  end.

(** for (i = 0; i < last; i++) if (result[i] != list[0]) return result + i;
    return result + last;  (base26.c:77-78, base64.c:95-96) *)
Fixpoint strip (n : nat) (i : nat) (zero : N) (r : list N) : res (list N) :=
  match n with
  | O => Ret (drop i r)
  | S n' => c ← aget r i; if negb (c =? zero) then Ret (drop i r) else strip n' (S i) zero r
  end.

(** base26.c:62-79 *)
Definition b26_encode (st : b26) (val : N) : res (b26 * list N) :=
  st' ← (if negb (previous st =? val) then
           r ← b26_digits 7 (result st) val; r' ← aset r 7 0; Ret (B26 r' val)
         else Ret st);
  z ← aget b26_list 0;
  p ← strip 6 0 z (result st');
  Ret (st', p).

(** base26.c:88-98, i counting down from n - 1; [val] is the string *)
Fixpoint b26_loop (n : nat) (val : list N) (v : N) (offset : Z) : res N :=
  match n with
  | O => Ret v
  | S i =>
      c ← aget val i;
      tmp ← aget b26_index (N.to_nat c);
      if (tmp =? XX)%Z then Abort else
      t ← sint (tmp * offset);
      offset' ← sint (offset * 26);
      b26_loop i val (u64 (v + Z.to_N (t mod 2 ^ 64))) offset'
  end.
(** base26.c:81-101; int len = strlen(val) *)
Definition b26_decode (val : list N) : res N :=
  s ← c_string val;
  let len := to_int (Z.of_nat (length s)) in
  b26_loop (Z.to_nat len) val 0 1.

(** base64.c:82-97; a wrong index would read past b64_list *)
Definition b64_encode (val : N) : res (list N) :=
  c0 ← aget b64_list (N.to_nat (N.shiftr (N.land val 0xc0000000) 30));
  c1 ← aget b64_list (N.to_nat (N.shiftr (N.land val 0x3f000000) 24));
  c2 ← aget b64_list (N.to_nat (N.shiftr (N.land val 0x00fc0000) 18));
  c3 ← aget b64_list (N.to_nat (N.shiftr (N.land val 0x0003f000) 12));
  c4 ← aget b64_list (N.to_nat (N.shiftr (N.land val 0x00000fc0) 6));
  c5 ← aget b64_list (N.to_nat (N.land val 0x0000003f));
  z ← aget b64_list 0;
  strip 5 0 z [c0; c1; c2; c3; c4; c5; 0].

(** int << int: undefined for a count outside 0..31 or an unrepresentable result *)
Definition shl_int (x k : Z) : res Z :=
  if ((0 <=? x) && (0 <=? k) && (k <? 32))%Z then sint (x * 2 ^ k) else UB.

(** base64.c:105-114 *)
Fixpoint b64_loop (n : nat) (val : list N) (v : N) (offset : Z) : res N :=
  match n with
  | O => Ret v
  | S i =>
      c ← aget val i;
      tmp ← aget b64_index (N.to_nat c);
      if (tmp =? XX)%Z then Abort else
      t ← shl_int tmp offset;
      offset' ← sint (offset + 6);
      b64_loop i val (N.lor v (Z.to_N (t mod 2 ^ 64))) offset'
  end.
(** base64.c:99-117; the loop counter is int i = len - 1 (size_t arithmetic) *)
Definition b64_decode_buf (val : list N) (len : N) : res N :=
  let i := to_int (Z.of_N (u64_dec len)) in
  b64_loop (Z.to_nat (i + 1)) val 0 0.
(** base64.c:119-122 *)
Definition b64_decode (val : list N) : res N :=
  s ← c_string val; b64_decode_buf val (N.of_nat (length s)).
