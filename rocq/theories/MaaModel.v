(** Model of maa/maa.c: the start and the end of a session with the library.  The state is the
    static data of all modules that maa.c touches. *)
From Verif Require Import Base CStr StackModel ObjModel MemModel ListModel SkipModel ArgModel PrModel LogModel.
From Verif Require Import PrimeModel HashModel HashFnModel HashFnProofs NameTab FlagModel TimerModel StrModel PrsModel.
Local Open Scope N_scope.

(** timer.c, error.c, flags.c, debug.c, pr.c, string.c with parse-concrete.c, list.c, sl.c *)
Record maaw (K : Type) := MW {
  m_tim : tstate; m_log : lstate; m_flg : fstate; m_dbg : fstate; m_pr : prw; m_prs : prsw; m_lst : lworld; m_sl : sworld K }.
Arguments MW {K}. Arguments m_tim {K}. Arguments m_log {K}. Arguments m_flg {K}. Arguments m_dbg {K}. Arguments m_pr {K}.
Arguments m_prs {K}. Arguments m_lst {K}. Arguments m_sl {K}.

(** maa.h:74-79: 3U<<30|1<<i *)
Definition MAA_MEMORY := N.lor (N.shiftl 3 30) (N.shiftl 1 29).
Definition MAA_TIME   := N.lor (N.shiftl 3 30) (N.shiftl 1 28).
Definition MAA_PR     := N.lor (N.shiftl 3 30) (N.shiftl 1 27).
Definition MAA_SL     := N.lor (N.shiftl 3 30) (N.shiftl 1 26).
Definition MAA_PARSE  := N.lor (N.shiftl 3 30) (N.shiftl 1 25).
Definition MAA_SRC    := N.lor (N.shiftl 3 30) (N.shiftl 1 24).
(** the literals of maa.c:37-46, without the terminators *)
Definition t_total : list N := [116;111;116;97;108].                       (* total *)
Definition t_memory : list N := [46;109;101;109;111;114;121].              (* .memory *)
Definition t_time : list N := [46;116;105;109;101].                        (* .time *)
Definition t_pr : list N := [46;112;114].                                  (* .pr *)
Definition t_sl : list N := [46;115;108].                                  (* .sl *)
Definition t_src : list N := [46;115;114;99].                              (* .src *)
Definition t_parse : list N := [46;112;97;114;115;101].                    (* .parse *)

(** what the allocator answers: to tim_start, and to the i-th _dbg_register *)
Record maalloc := MA { ma_tim : talloc; ma_dbg : nat -> halloc skey N }.
Fixpoint register_all (al : nat -> halloc skey N) (d : fstate) (l : list (N * list N)) : res fstate :=
  match l with
  | [] => Ret d
  | (f, n) :: l' => d1 ← _dbg_register (al (length l')) d f (Some (n ++ [0])); register_all al d1 l'
  end.
(** maa_init (maa.c:35-47); [c]: the clock during the call *)
Definition maa_init {K} (al : maalloc) (c : clock) (w : maaw K) (programName : option (list N)) : res (maaw K) :=
  t ← tim_start (ma_tim al) (m_tim w) c (Some (t_total ++ [0]));
  '(lg, _) ← err_set_program_name programName (m_log w);
  d ← register_all (ma_dbg al) (m_dbg w)
        [(MAA_MEMORY, t_memory); (MAA_TIME, t_time); (MAA_PR, t_pr); (MAA_SL, t_sl); (MAA_SRC, t_src); (MAA_PARSE, t_parse)];
  Ret (MW t lg (m_flg w) d (m_pr w) (m_prs w) (m_lst w) (m_sl w)).

(** maa_version (maa.c:85-92): %d.%d.%d of the macros given by the Makefile, into char[80] *)
Definition t_libmaa : list N := [76;105;98;109;97;97;32].                  (* "Libmaa " *)
Definition maa_version (major minor teeny : Z) : res (list N) :=
  let s := t_libmaa ++ c_itoa major ++ [46] ++ c_itoa minor ++ [46] ++ c_itoa teeny in
  if (80 <? length s + 1)%nat then UB else Ret s.
(** maa_version_major, _minor, _teeny (maa.c:70-83) *)
Definition maa_version_major (major : Z) : Z := major.
Definition maa_version_minor (minor : Z) : Z := minor.
Definition maa_version_teeny (teeny : Z) : Z := teeny.

(** what maa_shutdown lets the world see: lines on stderr, and what happens to processes.
    [OStats]: "Statistics for global string pool at %p", with NULL also called global; the five
    numbers of str_pool_print_stats (string.c:267-278) *)
Inductive outev := OVersion (s : list N) | OStats (pool : ptr) (count bytes retrievals hits misses : Z) | OSys (e : sysev)
  | OTimers (l : list (list N * (Z * Z * Z))).
Definition str_print_stats (mem : bool) (al : palloc) (w : pworld) : res (list outev) :=
  '(c, b, r, h, m) ← str_pool_get_stats mem al w (glob w); Ret [OStats (glob w) c b r h m].
(** the table nodes that were not freed: of the string pool, of the timers, of flags.c and of debug.c *)
Record leftover := LO { lo_str : bheap key ptr; lo_tim : bheap skey ptr; lo_flg : bheap skey N; lo_dbg : bheap skey N }.
(** maa_shutdown (maa.c:49-68).  [mem], [pal]: the allocator when the statistics are made; [ans]: the
    answers of waitpid; [c]: the clock when the timer is stopped *)
Definition maa_shutdown {K} (version : Z * Z * Z) (mem : bool) (pal : palloc) (tal : talloc) (c : clock) (ans : list wres)
    (w : maaw K) : res (maaw K * list outev * leftover) :=
  let '(major, minor, teeny) := version in
  m ← dbg_test (m_dbg w) MAA_MEMORY;
  tm ← (if negb (m =? 0)%Z then Ret 1%Z else dbg_test (m_dbg w) MAA_TIME);
  o1 ← (if negb (tm =? 0)%Z then s ← maa_version major minor teeny; Ret [OVersion s] else Ret []);
  m2 ← dbg_test (m_dbg w) MAA_MEMORY;
  o2 ← (if negb (m2 =? 0)%Z then str_print_stats mem pal (rw (m_prs w)) else Ret []);
  '(p, sys) ← pr_shutdown (m_pr w) ans;
  '(s, h1) ← str_destroy (rw (m_prs w));
  l ← lst_shutdown (m_lst w);
  k ← sl_shutdown (m_sl w);
  t1 ← tim_stop tal (m_tim w) c (Some (t_total ++ [0]));
  pt ← dbg_test (m_dbg w) MAA_TIME;
  '(t2, o3) ← (if negb (pt =? 0)%Z then '(t', out) ← tim_print_timers tal t1; Ret (t', [OTimers out]) else Ret (t1, []));
  '(t3, h2) ← tim_shutdown t2;
  '(f, h3) ← flg_destroy (m_flg w);
  '(d, h4) ← dbg_destroy (m_dbg w);
  Ret (MW t3 (m_log w) f d p (PRS s (rtab (m_prs w))) l k, o1 ++ o2 ++ (OSys <$> sys) ++ o3, LO h1 h2 h3 h4).
