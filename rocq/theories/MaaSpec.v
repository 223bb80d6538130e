(** A session with the library: what the user knows about each module. *)
From Verif Require Import Base CStr StackModel ObjModel MemModel ListModel ListProofs ListHist SkipModel SkipSpec SkipHist ArgModel PrModel PrSpec PrHist LogModel.
From Verif Require Import PrimeModel HashModel HashFnModel HashFnProofs NameTab FlagModel FlagSpec FlagHist TimerModel TimerSpec StrModel StrProofs StrHist PrsModel PrsSpec MaaModel.
From Coq Require Import String Ascii.
Notation length := List.length.

(** text as bytes *)
Definition bytes (s : string) : list N := N_of_ascii <$> list_ascii_of_string s.

(** the debugging flags of the library *)
Definition library_flags : list (list N * N) :=
  [(bytes ".memory", fl 3 29); (bytes ".time", fl 3 28); (bytes ".pr", fl 3 27);
   (bytes ".sl", fl 3 26); (bytes ".parse", fl 3 25); (bytes ".src", fl 3 24)].

(** [k_tim]: the timers; [k_ul], [k_ue]: names of user flags and what was done to them; [k_dl],
    [k_de]: the same for debugging flags; [k_reg], [k_kids]: registered descriptors, children;
    [k_pools]: string pools; [k_conc]: the registered concrete names; [k_lst], [k_sl]: lists,
    skip lists (and how many objects were made) *)
Record know (K : Type) := Kn { k_tim : timers; k_ul : names; k_ue : list fevent; k_dl : names; k_de : list fevent;
  k_reg : gmap Z Z; k_kids : list (Z * image); k_pools : gmap positive pgh; k_conc : list (list N * list N);
  k_lst : lgh; k_sl : gmap positive (glist K); k_sln : nat }.
Arguments Kn {K}. Arguments k_tim {K}. Arguments k_ul {K}. Arguments k_ue {K}. Arguments k_dl {K}. Arguments k_de {K}.
Arguments k_reg {K}. Arguments k_kids {K}. Arguments k_pools {K}. Arguments k_conc {K}. Arguments k_lst {K}. Arguments k_sl {K}. Arguments k_sln {K}.

(** the modules do not share state (but for strings and concrete names): any interleaving of
    their calls is a history of each *)
Record session {K} (w : maaw K) (k : know K) : Prop := {
  ss_tim : tim_history (m_tim w) (k_tim k);
  ss_flg : flag_history false (m_flg w) (k_ul k) (k_ue k);
  ss_dbg : flag_history true (m_dbg w) (k_dl k) (k_de k);
  ss_pr : pr_history (PS (m_pr w) (k_reg k) (k_kids k));
  ss_prs : prs_history (m_prs w) (k_pools k) (k_conc k);
  ss_lst : lst_history (m_lst w) (k_lst k);
  ss_sl : sl_history (m_sl w) (k_sl k) (k_sln k) }.

(** a process that has not used the library yet *)
Definition maa_start {K} (t : ftab) : maaw K :=
  MW tstart lstart fempty fempty (PrHist.started t) prs_start lempty sempty_world.
(** no loop over the global string pool is active *)
Definition pool_idle {K} (w : maaw K) (k : know K) : Prop :=
  forall p g, glob (rw (m_prs w)) = Some p -> k_pools k !! p = Some g -> q_ro g = 0%Z.
Definition small_pool {K} (w : maaw K) (k : know K) : Prop :=
  forall p g, glob (rw (m_prs w)) = Some p -> k_pools k !! p = Some g -> (N.of_nat (length (q_int g)) < 2 ^ 32)%N.
(** the pools without the global one *)
Definition without_global (w : pworld) (G : gmap positive pgh) : gmap positive pgh :=
  match glob w with Some p => delete p G | None => G end.
