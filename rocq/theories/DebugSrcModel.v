(** source.c with its debugging output (MAA_SRC).  The functions are those of SourceModel.v; the code
    they share with it is cited there, here are cited the lines that SourceModel.v leaves out.  Output
    is recorded in the trace of LogModel.v, one event for each fprintf, printf or putc. *)
From Verif Require Import Base CStr StackModel ObjModel MemModel PrimeModel HashModel HashFnModel HashFnProofs StrModel ArgModel PrsModel.
From Verif Require Import FlagModel LogModel DebugModel SourceModel.
From Verif Require MaaModel.
From Coq Require Import String.
Notation length := List.length.
Local Open Scope Z_scope.
Notation MAA_SRC := MaaModel.MAA_SRC.
Notation out st bs := (emit (EPrint st bs)).

(** src_line (source.c:86-105); the message is that of line 99, sent before the array grows *)
Definition src_line_d (o : system) (fs : fstate) (al : salloc) (s0 : srcw) (line : list N) (len : Z) : M (srcw * positive) :=
  s <- lift (match v_lines s0 with None => src_create al s0 | Some _ => Ret s0 end) ;
  n <- lift (sint (t_line (v_info s) + 1)) ;
  let i' := Tok (t_file (v_info s)) n 0 (t_length (v_info s)) (v_used s) in
  h <- lift (heap_of (v_strings s)) ;
  ma <- lift (mem_strncpy (sa_mem al) (w_text s) h line len) ;
  match v_lines s with
  | None => lift UB
  | Some v =>
      v1 <- lift (aset v (Z.to_nat (v_used s)) (Some ma.2)) ;
      b <- lift (hget (mblk ma.1) ma.2) ;
      b' <- lift (detab b) ;
      say o fs MAA_SRC (t ← c_string b'; Ret (text "Line " ++ c_itoa (v_used s) ++ text ": " ++ t)) ;>
      u <- lift (sint (v_used s + 1)) ;
      cv <- lift (if u >=? v_count s then
                    c ← sint (v_count s + Z.of_nat INCREMENT);
                    if sa_vec al (size_t (8 * c))
                    then Ret (c, take (Z.to_nat c) v1 ++ replicate (Z.to_nat c - length v1) None) else Fatal
                  else Ret (v_count s, v1)) ;
      r <- lift (aget cv.2 (Z.to_nat (u - 1))) ;
      match r with
      | None => lift UB
      | Some p => ret (SRC (Some cv.2) cv.1 u i' (v_strings s) (v_tokens s)
                           (MW (msh ma.1) (<[ma.2 := b']> (mblk ma.1)) (minf ma.1)) (w_tok s) (w_prs s) (w_arg s), p)
      end
  end.

(** src_cpp_line (source.c:131-157); the messages are those of lines 149 and 151-152 *)
Definition src_cpp_line_d (o : system) (fs : fstate) (al : salloc) (s : srcw) (line : list N) (length : Z) : M srcw :=
  n <- lift (sint (length + 1)) ;
  if length <? 0 then lift UB else
  t <- lift (c_strncpy line (Z.to_nat length)) ;
  let tmp := t ++ [0%N] in
  wa <- lift (arg_argify (sa_arg al) (w_arg s) tmp 0) ;
  a1 <- lift (arg_get wa.1 (Some wa.2) 1) ;
  b1 <- lift (arg_bytes wa.1 a1) ;
  l <- lift (c_atoi b1) ;
  let lineno := if l >? 0 then l - 1 else 1 in
  let s1 := src_new_line s lineno in
  c <- lift (arg_count wa.1 (Some wa.2)) ;
  s2 <- (if c =? 2 then
           say o fs MAA_SRC (a ← arg_get wa.1 (Some wa.2) 1; t ← str_at (mblk (amem wa.1)) a;
                             Ret (text "lineno " ++ t ++ [10%N])) ;>
           ret s1
         else
           say o fs MAA_SRC (a ← arg_get wa.1 (Some wa.2) 1; a' ← arg_get wa.1 (Some wa.2) 2;
                             t ← str_at (mblk (amem wa.1)) a; t' ← str_at (mblk (amem wa.1)) a';
                             Ret (text "lineno " ++ t ++ text " in " ++ t' ++ [10%N])) ;>
           a2 <- lift (arg_get wa.1 (Some wa.2) 2) ; b2 <- lift (arg_bytes wa.1 a2) ; lift (src_new_file al s1 b2)) ;
  w' <- lift (arg_destroy wa.1 (Some wa.2)) ;
  ret (SRC (v_lines s2) (v_count s2) (v_used s2) (v_info s2) (v_strings s2) (v_tokens s2) (w_text s2) (w_tok s2) (w_prs s2) w').

(** src_get (source.c:164-192); lines 180-187 print the token *)
Definition src_get_d (fs : fstate) (al : salloc) (s : srcw) (length : Z) : M (srcw * positive) :=
  match v_lines s with
  | None => lift Fatal
  | Some _ =>
      let i := v_info s in
      let i' := Tok (t_file i) (t_line i) (t_offset i) length (t_index i) in
      j <- lift (heap_of (v_tokens s)) ;
      oa <- lift (mem_get_object (sa_obj al) (w_tok s) j) ;
      b <- lift (hget (oblk oa.1) oa.2) ;
      let s' := SRC (v_lines s) (v_count s) (v_used s) i' (v_strings s) (v_tokens s) (w_text s)
                    (OW (osh oa.1) (<[oa.2 := i']> (oblk oa.1)) (oinf oa.1)) (w_prs s) (w_arg s) in
      say_stdout fs MAA_SRC (f ← str_at (mblk (pmem (rw (w_prs s)))) (t_file i');
                             Ret (f ++ text ":" ++ c_itoa (t_line i') ++ text " @ " ++ c_itoa (t_offset i') ++ text ", " ++
                                  c_itoa (t_length i') ++ text "; " ++ c_itoa (t_index i') ++ [10%N])) ;>
      s2 <- lift (src_advance s' length) ;
      ret (s2, oa.2)
  end.

(** src_print_line (source.c:347-356); [str]: the stream, not NULL *)
Definition src_print_line_d (s : srcw) (str : LogModel.stream) (source : ptr) : M unit :=
  b <- lift (src_print_line s source) ; out str b.
(** _src_print_error (source.c:358-375), fudge is 0 in all calls; the message is that of line 366-367 *)
Definition print_error_d (o : system) (fs : fstate) (s : srcw) (str : LogModel.stream) (source : ptr) : M unit :=
  src_print_line_d s str source ;>
  (match source with
   | None => out str (text "?:?: ")
   | Some a =>
       t <- lift (hget (oblk (w_tok s)) a) ;
       say o fs MAA_SRC (Ret (text "s->offset = " ++ c_itoa (t_offset t) ++ text ", fudge = " ++ c_itoa 0 ++
                              text ", s->length = " ++ c_itoa (t_length t) ++ [10%N])) ;>
       f <- lift (label s t) ;
       out str f ;>
       emits (replicate (Z.to_nat (t_offset t)) (EPrint str [32%N])) ;>
       emits (replicate (Z.to_nat (t_length t)) (EPrint str [94%N]))
   end) ;>
  out str [10%N].
(** src_parse_error (source.c:388-399); a NULL stream means stdout.  _src_print_yyerror prints the
    message in pieces: here they are one. *)
Definition src_parse_error_d (o : system) (fs : fstate) (s : srcw) (st : option LogModel.stream) (source : ptr) (message : option (list N)) : M srcw :=
  let str := default LogModel.Stdout st in
  h <- lift (head s source) ;
  out str h ;>
  pm <- lift (print_yyerror (w_prs s) message) ;
  out str pm.2 ;>
  out str [10%N] ;>
  let s' := set_prs s pm.1 in
  print_error_d o fs s' str source ;>
  ret s'.
(** src_print_error (source.c:406-424).  fflush of a NULL stream flushes all streams, then writing to it
    is undefined, and the assert of line 362 fails. *)
Definition src_print_error_d (o : system) (fs : fstate) (s : srcw) (st : option LogModel.stream) (source : ptr) (formatted : option (list N)) : M unit :=
  match st with
  | None => match formatted with Some _ => lift UB | None => lift Abort end
  | Some str =>
      emit (EFlush str) ;>
      (match formatted with
       | None => ret tt
       | Some f => h <- lift (head s source) ; out str h ;> out str f ;> out str [10%N]
       end) ;>
      print_error_d o fs s str source
  end.
