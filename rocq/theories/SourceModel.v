(** Model of maa/source.c: source lines and tokens.  The line texts live in a string object
    (MemModel), the tokens in an object pool (ObjModel), the file names in the global string
    pool (StrModel), a cpp line is split by arg_argify (ArgModel), symbol names come from
    parse-concrete.c (PrsModel).  The debugging output under MAA_SRC is left out here and
    modelled in DebugSrcModel.v (C91).  Output is the list of bytes printed. *)
From Verif Require Import Base CStr StackModel ObjModel MemModel PrimeModel HashModel HashFnModel HashFnProofs StrModel ArgModel PrsModel.
From Coq Require Import String.
Notation length := List.length.
Local Open Scope Z_scope.

(** struct source (source.c:40-46) *)
Record token := Tok { t_file : ptr; t_line : Z; t_offset : Z; t_length : Z; t_index : Z }.
Global Instance token_eq_dec : EqDecision token.
Proof. solve_decision. Defined.

(** the statics of source.c:50-55 (all zero at the start) and the memory they refer to.  An
    element of Lines is [None] until it is written. *)
Record srcw := SRC {
  v_lines : option (list ptr); v_count : Z; v_used : Z; v_info : token;
  v_strings : ptr; v_tokens : ptr;
  w_text : mworld; w_tok : oworld token; w_prs : prsw; w_arg : aworld }.
Definition src_start : srcw := SRC None 0 0 (Tok None 0 0 0 0) None None mempty oempty prs_start aempty.

(** malloc during one call; [sa_vec n]: does the array of n bytes get its memory *)
Record salloc := SA {
  sa_vec : N -> bool; sa_mem : malloc; sa_obj : oalloc token; sa_str : palloc; sa_arg : aalloc }.

(** source.c:48 *)
Definition INCREMENT : nat := 1000.
(** NULL given to a memory.c routine: its magic check aborts (memory.c:58-76, 237-255) *)
Definition heap_of (p : ptr) : res positive := match p with None => Abort | Some a => Ret a end.
Definition set_info (s : srcw) (i : token) : srcw :=
  SRC (v_lines s) (v_count s) (v_used s) i (v_strings s) (v_tokens s) (w_text s) (w_tok s) (w_prs s) (w_arg s).

(** src_create (source.c:62-70); sizeof(struct source) is 24 on LP64 *)
Definition src_create (al : salloc) (s : srcw) : res srcw :=
  match v_lines s with
  | Some _ => Fatal
  | None =>
      if sa_vec al (8 * N.of_nat INCREMENT) then
        '(m, i) ← mem_create_strings (sa_mem al) (w_text s);
        '(o, j) ← mem_create_objects (sa_obj al) (w_tok s) 24;
        Ret (SRC (Some (replicate INCREMENT None)) (Z.of_nat INCREMENT) (v_used s) (v_info s) (Some i) (Some j)
                 m o (w_prs s) (w_arg s))
      else Fatal
  end.

(** src_destroy (source.c:75-82) *)
Definition src_destroy (s : srcw) : res srcw :=
  match v_lines s with
  | None => Ret s
  | Some _ =>
      j ← heap_of (v_tokens s);
      o ← mem_destroy_objects (w_tok s) j;
      i ← heap_of (v_strings s);
      m ← mem_destroy_strings (w_text s) i;
      Ret (SRC None (v_count s) (v_used s) (v_info s) None None m o (w_prs s) (w_arg s))
  end.

(** the loop of source.c:97: until the NUL; undefined past the end of the object *)
Fixpoint detab (b : list N) : res (list N) :=
  match b with
  | [] => UB
  | c :: b' => if (c =? 0)%N then Ret b
               else r ← detab b'; Ret ((if (c =? 9)%N then 32%N else c) :: r)
  end.
(** src_line (source.c:86-105); the result is Lines[Used - 1] *)
Definition src_line (al : salloc) (s0 : srcw) (line : list N) (len : Z) : res (srcw * positive) :=
  s ← match v_lines s0 with None => src_create al s0 | Some _ => Ret s0 end;
  n ← sint (t_line (v_info s) + 1);
  let i' := Tok (t_file (v_info s)) n 0 (t_length (v_info s)) (v_used s) in
  h ← heap_of (v_strings s);
  '(m, a) ← mem_strncpy (sa_mem al) (w_text s) h line len;
  match v_lines s with
  | None => UB
  | Some v =>
      v1 ← aset v (Z.to_nat (v_used s)) (Some a);
      b ← hget (mblk m) a;
      b' ← detab b;
      u ← sint (v_used s + 1);
      '(c, v2) ← (if u >=? v_count s then
                    c ← sint (v_count s + Z.of_nat INCREMENT);
                    if sa_vec al (size_t (8 * c))
                    then Ret (c, take (Z.to_nat c) v1 ++ replicate (Z.to_nat c - length v1) None) else Fatal
                  else Ret (v_count s, v1));
      r ← aget v2 (Z.to_nat (u - 1));
      match r with
      | None => UB
      | Some p => Ret (SRC (Some v2) c u i' (v_strings s) (v_tokens s)
                           (MW (msh m) (<[a := b']> (mblk m)) (minf m)) (w_tok s) (w_prs s) (w_arg s), p)
      end
  end.

(** src_new_file (source.c:110-113) *)
Definition src_new_file (al : salloc) (s : srcw) (filename : list N) : res srcw :=
  '(w, a) ← str_find (sa_str al) (rw (w_prs s)) filename;
  let i := v_info s in
  Ret (SRC (v_lines s) (v_count s) (v_used s) (Tok (Some a) (t_line i) (t_offset i) (t_length i) (t_index i))
           (v_strings s) (v_tokens s) (w_text s) (w_tok s) (PRS w (rtab (w_prs s))) (w_arg s)).
(** src_new_line (source.c:118-121) *)
Definition src_new_line (s : srcw) (line : Z) : srcw :=
  let i := v_info s in set_info s (Tok (t_file i) line (t_offset i) (t_length i) (t_index i)).
(** src_advance (source.c:126-129) *)
Definition src_advance (s : srcw) (length : Z) : res srcw :=
  let i := v_info s in
  o ← sint (t_offset i + length); Ret (set_info s (Tok (t_file i) (t_line i) o (t_length i) (t_index i))).

(** strncpy: at most n bytes, zeros after the NUL *)
Fixpoint c_strncpy (src : list N) (n : nat) {struct n} : res (list N) :=
  match n with
  | O => Ret []
  | S n' => match src with
            | [] => UB
            | c :: src' => if (c =? 0)%N then Ret (replicate n 0%N) else r ← c_strncpy src' n'; Ret (c :: r)
            end
  end.
(** atoi: white space, a sign, digits; a value that is not an int is undefined *)
Definition is_space (c : N) : bool := (c =? 32)%N || ((9 <=? c)%N && (c <=? 13)%N).
Fixpoint skip_space (b : list N) : list N :=
  match b with c :: b' => if is_space c then skip_space b' else b | [] => [] end.
Definition is_digit (c : N) : bool := (48 <=? c)%N && (c <=? 57)%N.
Fixpoint read_digits (b : list N) (acc : Z) : res Z :=
  match b with
  | [] => UB
  | c :: b' => if is_digit c then read_digits b' (acc * 10 + (Z.of_N c - 48)) else Ret acc
  end.
Definition c_atoi (b : list N) : res Z :=
  match skip_space b with
  | [] => UB
  | c :: b' =>
      if (c =? 45)%N then n ← read_digits b' 0; sint (- n)
      else if (c =? 43)%N then n ← read_digits b' 0; sint n
      else n ← read_digits (c :: b') 0; sint n
  end.
(** the bytes an argument points to *)
Definition arg_bytes (w : aworld) (p : ptr) : res (list N) :=
  match p with None => UB | Some a => hget (mblk (amem w)) a end.
(** src_cpp_line (source.c:131-157); alloca never fails here *)
Definition src_cpp_line (al : salloc) (s : srcw) (line : list N) (length : Z) : res srcw :=
  n ← sint (length + 1);
  if length <? 0 then UB else
  t ← c_strncpy line (Z.to_nat length);
  let tmp := t ++ [0%N] in
  '(w, args) ← arg_argify (sa_arg al) (w_arg s) tmp 0;
  a1 ← arg_get w (Some args) 1;
  b1 ← arg_bytes w a1;
  l ← c_atoi b1;
  let lineno := if l >? 0 then l - 1 else 1 in
  let s1 := src_new_line s lineno in
  c ← arg_count w (Some args);
  s2 ← (if c =? 2 then Ret s1
        else a2 ← arg_get w (Some args) 2; b2 ← arg_bytes w a2; src_new_file al s1 b2);
  w' ← arg_destroy w (Some args);
  Ret (SRC (v_lines s2) (v_count s2) (v_used s2) (v_info s2) (v_strings s2) (v_tokens s2) (w_text s2) (w_tok s2) (w_prs s2) w').

(** src_get (source.c:164-192) *)
Definition src_get (al : salloc) (s : srcw) (length : Z) : res (srcw * positive) :=
  match v_lines s with
  | None => Fatal
  | Some _ =>
      let i := v_info s in
      let i' := Tok (t_file i) (t_line i) (t_offset i) length (t_index i) in
      j ← heap_of (v_tokens s);
      '(o, a) ← mem_get_object (sa_obj al) (w_tok s) j;
      b ← hget (oblk o) a;
      let s' := SRC (v_lines s) (v_count s) (v_used s) i' (v_strings s) (v_tokens s) (w_text s)
                    (OW (osh o) (<[a := i']> (oblk o)) (oinf o)) (w_prs s) (w_arg s) in
      s2 ← src_advance s' length;
      Ret (s2, a)
  end.

(** src_filename, src_linenumber, src_offset, src_length (source.c:197-244).  The result of
    src_filename is a pointer; [inl tt] is the literal "" given for a NULL source *)
Definition field {A} (s : srcw) (source : ptr) (null : A) (f : token -> res A) : res A :=
  match v_lines s with
  | None => Fatal
  | Some _ => match source with None => Ret null | Some a => t ← hget (oblk (w_tok s)) a; f t end
  end.
Definition src_filename (s : srcw) (source : ptr) : res (unit + ptr) := field s source (inl tt) (fun t => Ret (inr (t_file t))).
Definition src_linenumber (s : srcw) (source : ptr) : res Z := field s source 0 (fun t => Ret (t_line t)).
Definition src_offset (s : srcw) (source : ptr) : res Z := field s source 0 (fun t => Ret (t_offset t)).
Definition src_length (s : srcw) (source : ptr) : res Z := field s source 0 (fun t => Ret (t_length t)).
(** Lines[i]; undefined out of range or never written *)
Definition line_at (s : srcw) (i : Z) : res positive :=
  match v_lines s with
  | None => UB
  | Some v => if i <? 0 then UB else e ← aget v (Z.to_nat i); match e with None => UB | Some a => Ret a end
  end.
(** src_source_line (source.c:249-257) *)
Definition src_source_line (s : srcw) (source : ptr) : res (unit + positive) :=
  field s source (inl tt) (fun t => a ← line_at s (t_index t); Ret (inr a)).

(** src_get_stats (source.c:263-290): lines_used, lines_allocated, lines_bytes, tokens_total,
    tokens_reused, tokens_size; [mem]: did xmalloc succeed *)
Definition src_get_stats (mem : bool) (s : srcw) : res (Z * Z * Z * Z * Z * Z) :=
  if mem then
    match v_lines s with
    | None => Ret (0, 0, 0, 0, 0, 0)
    | Some _ =>
        '(_, bytes) ← mem_get_string_stats mem (w_text s) (v_strings s);
        '(total, _, reused, size) ← mem_get_object_stats mem (w_tok s) (v_tokens s);
        Ret (v_used s, v_count s, bytes, total, reused, size)
    end
  else Fatal.

(** ** printing *)
Definition text (s : string) : list N := map (fun c => N.of_nat (Ascii.nat_of_ascii c)) (list_ascii_of_string s).
(** %s *)
Definition str_at (bl : gmap positive (list N)) (p : ptr) : res (list N) :=
  match p with None => UB | Some a => b ← hget bl a; c_string b end.

(** source.c:330: copies until the NUL or the quote; the bytes, and what is left *)
Fixpoint copy_symbol (pt : list N) : res (list N * list N) :=
  match pt with
  | [] => UB
  | c :: pt' => if (c =? 0)%N || (c =? 39)%N then Ret ([], pt)
                else '(b, r) ← copy_symbol pt'; Ret (c :: b, r)
  end.
(** the loop of _src_print_yyerror (source.c:324-340) *)
Fixpoint yy_loop (fuel : nat) (p : prsw) (pt : list N) : res (prsw * list N) :=
  match fuel with
  | O => Diverge
  | S fuel' =>
      c ← aget pt 0;
      if (c =? 0)%N then Ret (p, [])
      else if (c =? 96)%N then
        c1 ← aget pt 1;
        quoted ← (if (c1 =? 96)%N then
                    c2 ← aget pt 2;
                    if (c2 =? 0)%N then Ret false else
                    c3 ← aget pt 3;
                    if negb (c3 =? 39)%N then Ret false else
                    c4 ← aget pt 4; Ret (c4 =? 39)%N
                  else Ret false);
        if (quoted : bool) then
          c2 ← aget pt 2;
          '(p', out) ← yy_loop fuel' p (drop 5 pt);
          Ret (p', [96; c2; 39]%N ++ out)
        else
          symbol ← (if (c1 =? 84)%N then c2 ← aget pt 2; Ret (c2 =? 95)%N else Ret false);
          if (symbol : bool) then
            '(buf, rest) ← copy_symbol (drop 1 pt);
            if (1024 <=? N.of_nat (length buf))%N then UB else        (* char buf[1024] *)
            '(p1, con) ← prs_concrete p (buf ++ [0%N]);
            name ← match con with Some _ => str_at (mblk (pmem (rw p1))) con | None => Ret buf end;
            '(p2, out) ← yy_loop fuel' p1 (drop 1 rest);
            Ret (p2, [96]%N ++ name ++ [39]%N ++ out)
          else
            '(p', out) ← yy_loop fuel' p (drop 1 pt); Ret (p', c :: out)
      else
        '(p', out) ← yy_loop fuel' p (drop 1 pt); Ret (p', c :: out)
  end.
(** _src_print_yyerror (source.c:310-341) *)
Definition print_yyerror (p : prsw) (message : option (list N)) : res (prsw * list N) :=
  match message with
  | None => Ret (p, text "(null)")
  | Some m => yy_loop (S (length m)) p m
  end.

(** "%s:%d: " of source.c:353, 368, 393, 414, 435 *)
Definition label (s : srcw) (t : token) : res (list N) :=
  f ← str_at (mblk (pmem (rw (w_prs s)))) (t_file t); Ret (f ++ text ":" ++ c_itoa (t_line t) ++ text ": ").
(** src_print_line (source.c:347-356) *)
Definition src_print_line (s : srcw) (source : ptr) : res (list N) :=
  match source with
  | None => Ret (text "?:?: <source line not available>" ++ [10%N])
  | Some a =>
      t ← hget (oblk (w_tok s)) a;
      f ← label s t;
      p ← line_at s (t_index t);
      l ← str_at (mblk (w_text s)) (Some p);
      Ret (f ++ l)
  end.
(** _src_print_error (source.c:358-375), fudge is 0 in all calls *)
Definition print_error (s : srcw) (source : ptr) : res (list N) :=
  l ← src_print_line s source;
  match source with
  | None => Ret (l ++ text "?:?: " ++ [10%N])
  | Some a =>
      t ← hget (oblk (w_tok s)) a;
      f ← label s t;
      Ret (l ++ f ++ replicate (Z.to_nat (t_offset t)) 32%N ++ replicate (Z.to_nat (t_length t)) 94%N ++ [10%N])
  end.
Definition head (s : srcw) (source : ptr) : res (list N) :=
  match source with None => Ret (text "?:?: ") | Some a => t ← hget (oblk (w_tok s)) a; label s t end.
Definition set_prs (s : srcw) (p : prsw) : srcw :=
  SRC (v_lines s) (v_count s) (v_used s) (v_info s) (v_strings s) (v_tokens s) (w_text s) (w_tok s) p (w_arg s).
(** src_parse_error (source.c:388-399); stream NULL means stdout: [out_of] *)
Inductive stream := Stdout | Stream (n : nat).
Definition out_of (st : option nat) : stream := match st with None => Stdout | Some n => Stream n end.
Definition src_parse_error (s : srcw) (st : option nat) (source : ptr) (message : option (list N))
  : res (srcw * (stream * list N)) :=
  h ← head s source;
  '(p, m) ← print_yyerror (w_prs s) message;
  let s' := set_prs s p in
  e ← print_error s' source;
  Ret (s', (out_of st, h ++ m ++ [10%N] ++ e)).
(** src_print_error (source.c:406-424); [formatted]: what vfprintf prints, [None] for a NULL
    format.  A NULL stream is not replaced by stdout: writing to it is undefined, and the
    assert of source.c:362 fails. *)
Definition src_print_error (s : srcw) (st : option nat) (source : ptr) (formatted : option (list N))
  : res (stream * list N) :=
  match st with
  | None => match formatted with Some _ => UB | None => Abort end
  | Some n =>
      h ← match formatted with None => Ret [] | Some f => h ← head s source; Ret (h ++ f ++ [10%N]) end;
      e ← print_error s source;
      Ret (Stream n, h ++ e)
  end.
(** src_print_message (source.c:428-444) *)
Definition src_print_message (s : srcw) (st : option nat) (source : ptr) (formatted : option (list N))
  : res (stream * list N) :=
  match formatted with
  | None => Ret (out_of st, [])
  | Some f => match st with None => UB | Some n => h ← head s source; Ret (Stream n, h ++ f ++ [10%N]) end
  end.
(** src_print_stats (source.c:296-308); %d of an int *)
Definition src_print_stats (mem : bool) (s : srcw) (st : option nat) : res (stream * list N) :=
  '(lu, la, lb, tt_, tr, ts) ← src_get_stats mem s;
  b ← sint (tt_ * ts);
  Ret (out_of st,
    text "Statistics for source manager:" ++ [10%N] ++
    text "   " ++ c_itoa lu ++ text " lines using " ++ c_itoa lb ++ text " bytes (" ++ c_itoa la ++ text " allocated)" ++ [10%N] ++
    text "   " ++ c_itoa tt_ ++ text " tokens using " ++ c_itoa b ++ text " bytes (" ++ c_itoa tr ++ text " reused)" ++ [10%N]).
