(** C98: every number in the statistics is a function of the calls: string pools. *)
From Verif Require Import Base Alloc Trace CStr StackModel StackProofs ObjModel ObjProofs MemModel MemProofs MemHist.
From Verif Require Import PrimeModel HashModel HashSpec HashProofs HashOps HashOps2 HashIter HashHist HashTop HashGrow HashOrder HashStat.
From Verif Require Import HashFnModel HashFnProofs StrModel StrProofs StrHist StrTrace StrOrder StrProps TraceProps2 StrOrderProps.
Local Open Scope nat_scope.

(** At the end of every program, over any number of pools and all eleven calls,
    str_pool_get_stats of every live pool reports the number of strings and of
    bytes stored and the retrievals, hits and misses of [pospec] (StrOrder.v):
    a find and an exists ask once, a find of a new string and a finish enter a
    string, nothing else asks.  The numbers are unsigned long, cut to int. *)
Theorem C98_pool_programs : forall cs, lawful pospec (fun sp => plegal sp.1) ([], []) cs ->
  refines eq pcan
    (fun st sp => forall i p P o, st.1.1 !! i = Some p -> sp.1 !! i = Some (Some P) -> sp.2 !! i = Some o -> (N.of_nat (length o.1.2) < 2 ^ 32)%N ->
       forall al, str_pool_get_stats true al st.2 (Some p) =
         if blk_alloc (pa_hash al) 72 then
           Ret (Z.of_nat (length (objs P)), nbytes P,
                to_int (Z.of_N (u64 (n_asked o.2))), to_int (Z.of_N (u64 (n_front o.2))), to_int (Z.of_N (u64 (n_failed o.2))))
         else Fatal) cs
    (run pstep ([], [], pempty) cs) (run pospec ([], []) cs).
Proof.
  intros cs Hl. eapply refines_Q; [|exact (orders_ok cs Hl)]. intros [[vs ns] w] [L Os] ((G & R) & Hlen & Hord). cbn [fst snd] in *.
  intros i p P o Hp HP Ho Hb al. pose proof R as [Hh Hn _ _ _ _]. cbn [fst snd] in *.
  destruct (nm_get _ _ _ Hn i P HP) as (p' & Hp' & HG). rewrite Hp in Hp'. injection Hp' as <-. rewrite lookup_fmap in HG. apply fmap_Some in HG as (g & HG & ->).
  destruct (Hord i p _ o Hp HP Ho) as (x & Hx & M & HI & Hpr & Hsl & _ & N1 & N2 & N3 & N4).
  destruct (pool_history_inv w G Hh) as [GM I]. destruct (wi_pool _ _ _ I p g HG) as (x' & Hx' & Hok). rewrite Hx in Hx'. injection Hx' as <-.
  unfold str_pool_get_stats. rewrite (hget_Some _ _ _ Hx). rb. rewrite (sh_stats _ _ (wi_mem _ _ _ I) _ _ (po_mem _ _ _ Hok)). rb.
  rewrite <- Hsl, fmap_length in Hb. rewrite (hsh_get_stats_spec penv (pa_hash al) (phash x) M HI Hb).
  destruct (blk_alloc (pa_hash al) 72); [|done]. rb. cbn [s_retrievals s_hits s_misses]. rewrite N2, N3, N4.
  unfold absp. cbn [objs nbytes]. by rewrite fmap_length.
Qed.
Print Assumptions C98_pool_programs.

(** the program of StrOrderProps.v: retrievals, hits and misses of its first pool *)
Example C98_pool_numbers :
  match (run pospec ([], []) (ex_ocalls ex_pal [])).2 with
  | Ret (_, Os) => (fun o : N * list (list N) * counts => o.2) <$> Os !! 0 = Some (Cnt 2 7 1 5)
  | _ => False
  end.
Proof. vm_compute. reflexivity. Qed.
