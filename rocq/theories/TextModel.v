(** Model of maa/text.c.  [string] holds the bytes from the pointer to the end of its
    object, [result] the bytes of the result buffer (the two do not overlap). *)
From Verif Require Import Base CStr.
Local Open Scope N_scope.

(** isascii(c) && isalpha(c) and toupper(c) on ASCII letters (text.c:56-57) *)
Definition ascii_alpha (c : N) : bool := (c <? 128) && (((65 <=? c) && (c <=? 90)) || ((97 <=? c) && (c <=? 122))).
Definition c_toupper (c : N) : N := if (97 <=? c) && (c <=? 122) then c - 32 else c.
(** static const char map[] (text.c:47), with its terminating NUL *)
Definition map_tab : list N :=
  [48;49;50;51;48;49;50;48;48;50;50;52;53;53;48;49;50;54;50;51;48;49;48;50;48;50;0].
(** strcpy(result, "Z000") (text.c:52) *)
Fixpoint put (r : list N) (i : nat) (bs : list N) : res (list N) :=
  match bs with
  | [] => Ret r
  | b :: bs' => r' ← aset r i b; put r' (S i) bs'
  end.
(** the loop (text.c:54-69): [i] counts the characters written, so pt = result + i *)
Fixpoint soundex_loop (string : list N) (i : nat) (previous : N) (result : list N) : res (list N) :=
  match string with
  | [] => UB                                    (* read past the end of the string *)
  | c :: string' =>
      if (c =? 0) || negb (i <? 4)%nat then Ret result else
      if ascii_alpha c then
        let upper_case := c_toupper c in
        transform ← aget map_tab (N.to_nat (upper_case - 65));
        '(i', result') ←
          (if (i =? 0)%nat then r ← aset result i upper_case; Ret (S i, r)
           else if negb (transform =? 48) && negb (transform =? previous)
                then r ← aset result i transform; Ret (S i, r)
                else Ret (i, result));
        soundex_loop string' i' transform result'
      else soundex_loop string' i previous result
  end.
(** txt_soundex2 (text.c:40-70) *)
Definition txt_soundex2 (string result : list N) : res (list N) :=
  r ← put result 0 [90; 48; 48; 48; 0];
  soundex_loop string 0 0 r.
(** txt_soundex (text.c:72-77): [buf] is the static buffer, whose address is returned *)
Definition txt_soundex (buf string : list N) : res (list N) := txt_soundex2 string buf.
