(** C85: handles that are NULL, and statistics without memory. *)
From Verif Require Import Base StackModel ObjModel MemModel CStr HashModel StrModel StrHist SourceModel SourceHist Alloc StrProps.
Local Open Scope Z_scope.

(** str_pool_destroy(NULL) is a fatal error ... *)
Theorem C85_pool_destroy : forall w, str_pool_destroy w None = Fatal.
Proof. reflexivity. Qed.
Print Assumptions C85_pool_destroy.
(** ... and every other call on a NULL pool dereferences it *)
Theorem C85_pool_calls : forall w al s len,
  str_pool_exists w None s = UB /\ str_pool_find al w None s = UB /\ str_pool_copy al w None s = UB /\
  str_pool_copyn al w None s len = UB /\ str_pool_grow al w None s len = UB /\ str_pool_finish al w None = UB /\
  str_pool_init_position w None = UB /\
  forall X (f : X -> pworld -> ptr -> res (X * pworld * Z)) n x, str_pool_iterate f n w None x = UB.
Proof. intros w al s len. repeat split. Qed.
Print Assumptions C85_pool_calls.

(** the statistics of the memory allocators: the result is allocated first, so lack of
    memory is a fatal error even for NULL; otherwise NULL aborts.  A live allocator has only the first failure *)
Theorem C85_memory_stats : forall mem (w : mworld) B (o : oworld B) a b,
  is_Some (minf w !! a) -> is_Some (oinf o !! b) ->
  mem_get_string_stats mem w None = (if mem then Abort else Fatal) /\
  mem_get_object_stats mem o None = (if mem then Abort else Fatal) /\
  (mem_get_string_stats mem w (Some a) = Fatal <-> mem = false) /\
  (mem_get_object_stats mem o (Some b) = Fatal <-> mem = false).
Proof.
  intros mem w B o a b [i Hi] [j Hj]. unfold mem_get_string_stats, mem_get_object_stats, hget. rewrite Hi, Hj.
  destruct mem; repeat split; done.
Qed.
Print Assumptions C85_memory_stats.
Theorem C85_stats_without_memory : forall al w p s, str_pool_get_stats false al w p = Fatal /\ src_get_stats false s = Fatal.
Proof. split; reflexivity. Qed.
Print Assumptions C85_stats_without_memory.
Example ex_stats : exists w a, mem_create_strings (pa_mem ex_pal) mempty = Ret (w, a) /\ is_Some (minf w !! a) /\ mem_get_string_stats true w (Some a) = Ret (0, 0).
Proof. eexists _, _. split; [vm_compute; reflexivity|]. split; [eexists; vm_compute; reflexivity|vm_compute; reflexivity]. Qed.
