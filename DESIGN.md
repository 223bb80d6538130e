# libmaa in Rocq: design

All Coq files are in `rocq/theories` (logical name `Verif`). For a C module `x.c`
there are up to three files:

* `XModel.v` - executable Gallina model, function by function, each definition
  citing the lines of `/repo/maa/x.c` it models. No proofs.
* `XSpec.v` / spec section at the head of `XProps.v` - the small independent
  specification (finite map, list, ...), readable without the model.
* `XProofs.v` - invariants, refinement lemmas.
* `XProps.v` - only `Theorem ... Proof. exact lemma. Qed.` and
  `Print Assumptions`, plus `Example`s showing hypotheses are satisfiable.

## Execution model

* Target: LP64 (`int` 32, `long` 64, pointers 64), gcc-like C, `MAA_MAGIC=1`,
  `SL_DEBUG=0` (C101 has the code compiled otherwise), `SIZEOF_LONG=8` (the 32-bit branch of `bit_cnt` is modelled too).
* `res A` (Base.v): `Ret a` normal, `Fatal` (err_fatal, exit status 1),
  `Abort` (err_internal, abort(), and failed assert()), `UB` (undefined
  behaviour: NULL/dangling dereference, out-of-range index, signed overflow,
  bad shift), `Diverge` (provably infinite loop). Nothing runs after anything
  but `Ret`: err_* are `noreturn` and their text output is modelled separately
  (LogModel.v).
* Pointers are `option positive` (`None` = NULL). Each struct type has its own
  store `gmap positive struct` (Burstall-style memory: distinct struct types
  never overlap). Reading/writing an address not in the store is `UB`; `free`
  removes the address, so use after free and double free are `UB`.
* `malloc` is an arbitrary function from the current store to `option
  positive`, universally quantified in every theorem, assumed only to return
  addresses not live in that store (`malloc_ok`). Address reuse and failure are
  thus both covered. `xmalloc` turns failure into `Fatal`; raw `malloc` into a
  NULL pointer.
* Each table/set/stack/... instance owns its node store. Two instances share no
  node store, except lists (one global pool, modelled as such). Operations
  taking two sets go through a `world` of sets addressed by handle so that the
  aliased call is expressible.
* Loops chasing pointers run on fuel = (number of live nodes + 1) at loop entry;
  exhausting it means a cycle, reported as `Diverge`. Theorems exclude it.
* Unsigned arithmetic wraps explicitly (mod 2^32 / 2^64); signed overflow is UB.
* Callbacks (hash, compare, key, iterator) are Gallina functions. hash/compare
  are pure and total; iterators are state transformers that may themselves call
  the modelled API where the property needs it.
* `MAA_MAGIC` checks: a handle is represented by the structure itself, so the
  magic test on a valid handle always passes and is omitted, handles to freed or
  foreign structures are not modelled unless stated.

## Trusted base

* The kernel of Coq 8.16.1, `vm_compute` included; std++ (definitions and lemmas).
* Axioms: none.  `Print Assumptions` follows every theorem and is printed by the build; for each
  theorem named in MANIFEST.json it says "Closed under the global context".  (Loading std++ loads
  `Coq.ssr.ssrunder`, whose sealed module `Under_rel` has seven parameters; a listing of the whole
  environment shows them, no theorem depends on them.)
* Our reading of the C source, that is, the definitions in the files below.

| source (maa/) | model | remarks |
|---|---|---|
| xmalloc.c | XmallocModel.v | all functions; the allocator is any function (see above) |
| hash.c | HashModel.v, HashFnModel.v, PrintModel.v | all functions and the HSH_* macros; `hsh_iterate_arg` is `hsh_iterate` with a callback that has a state |
| set.c | SetModel.v, PrintModel.v | all functions and the SET_* macros; `set_iterate_arg` likewise |
| stack.c | StackModel.v | all functions |
| list.c | ListModel.v, PrintModel.v | all functions and the LST_* macros; `lst_iterate_arg` likewise |
| memory.c | ObjModel.v, MemModel.v, PrintModel.v | all functions; the obstack is a store of byte blocks |
| string.c | StrModel.v, PrintModel.v | all functions and STR_ITERATE |
| error.c, log.c | LogModel.v | all functions; system calls are events, their answers arguments; the `_va` forms get the formatted message |
| flags.c, debug.c | FlagModel.v, DebugModel.v | all functions and PRINTF |
| maa.c | MaaModel.v | all functions |
| prime.c, bit.c, base26.c, base64.c, text.c | PrimeModel.v, BitModel.v, BaseNModel.v, TextModel.v | all functions |
| timer.c | TimerModel.v | all functions; the clocks are arguments; printed text as numbers |
| arg.c | ArgModel.v | all functions and the transition table |
| pr.c | PrModel.v, DebugPrModel.v | all functions; descriptor tables, system calls with arbitrary answers; messages |
| sl.c | SkipModel.v, SkipCheckModel.v, SkipMagicModel.v, SkipMsgModel.v | all functions, with SL_DEBUG off and on; random() is an arbitrary argument |
| source.c, parse-concrete.c | SourceModel.v, DebugSrcModel.v, PrsModel.v | all functions; `printf`-style arguments arrive formatted |
| alloca.c | alloca, find_stack_direction (AllocaModel.v) | not in SRCS of maa/Makefile; the Cray functions are not modelled |
| rnd.c | RndModel.v, RndTable.v | test support, not in SRCS of maa/Makefile; doubles as integers over 2^200, rounded to 53 bits |
| mkrnd.c | not modelled | the program that printed the table of rnd.c |

The magic-number checks (`_hsh_check`, `_lst_check`, `_sl_check`, `_pr_check`, `_mem_magic_*`, ...) are
modelled by what they do: NULL aborts, a live object of the right kind passes, anything else is undefined
(C102: a destroyed skip list, whose memory stays in the pool, is caught).

## The upstream tests, replayed on the model

As evidence that the model says what the code does, `Replay*.v` writes 17 of the 18 programs under
/repo/tests against the model; the kernel computes the text each writes and finds it equal to the test's
`expect.out` (after the same normalisation as mk/test.mk, tests/err/test.mk and tests/log/logtest.sh).
That includes the order in which hash tables and sets iterate, the exact text of error messages and log
lines, the exit statuses, and that nothing is left allocated.  These are checks on literals, not claims,
and nothing in MANIFEST.json rests on them.

| test | where | left out or changed |
|---|---|---|
| arg | ReplayArg.v | nothing |
| base | ReplayBase.v | the values from 100 on that the test does not print |
| basics | ReplayLog.v | the version numbers, which the test normalises |
| bit, prime, prm, stack | ReplayNum.v | nothing |
| debug | ReplayLog.v | nothing; two more command lines tried |
| err, log | ReplayLog.v | date, host and pid are placeholders, as in the expected output |
| hash | ReplayHash.v | the random keys, about which a passing test prints nothing |
| list | ReplayList.v | the last loop pushes 500, not 10000 |
| memobj, memstr, string, sl | ReplayMem.v | nothing; sl for one choice of random() |
| set | ReplaySet.v | the random keys are read from expect.out |
| pr | — | not replayed: its output is that of the children |

## Findings (places where the code violates its own documentation)

1. `prm_is_prime(1)=1`; hence `prm_next_prime(0)=1` and every fresh hash table or
   set has 1 bucket. `prm_is_prime(4294967291)=0` though prime (wrapping
   `square`), so `prm_next_prime(s)=1` for s > 4294967279.   (C16, C17)
2. `bit_tst` returns 0 for bits 32..63 (int truncation).     (C18)
3. `b26_decode` overflows int on 7-character input; `b64_decode` on values with
   bit 31 set (and shifts out of range for > 6 characters).  (C20, C21)
4. `stk_push` has no malloc check.                            (C22)
5. `mem_strncpy` copies len+1 bytes and adds no NUL.          (C27)
6. `lst_truncate(l,n)` dereferences NULL for all 2 <= n < length: the loop never
   increments `i`.                                            (C30)
7. `set_add(s,s)` / `set_del(s,s)` use freed memory.          (C12)
8. `hsh_iterate` with an iterator retrieving other keys can skip entries.  (C06)
9. Position loops force readonly to 0.                        (C07)
10. `str_pool_iterate` leaves the pool readonly on early stop. (C39)
11. `str_pool_finish` returns a non-interned duplicate.       (C37)
12. `str_unique`/`str_exists`/`str_copyn` dereference NULL without a global pool. (C38)
13. Flag set 2 is stored in word 2, tested in word 3; `usedFlags` is never set so
    duplicate flags are never rejected; `dbg_set("Xfoo")` clears foo.  (C43-C45)
14. `DIFFTIME` divides integers: no sub-second resolution.    (C49)
15. `src_destroy` does not reset `Used`.                      (C51)
16. `pr_readwrite` treats a full buffer as EOF; never closes `in` if inLen=0. (C57)
17. `_pr_shutdown` signals an already reaped pid.             (C58)
18. `_prs_shutdown` leaves the table pointer dangling.        (C59)
19. `sl_create` aborts on a NULL key function, doc says it is optional.
20. The macro `str_pool_readonly` (maa.h) hands the pool pointer to `hsh_readonly`
    (wrong object), and `STR_ITERATE_END` names a function that does not exist.
21. `arg_addn` (through `mem_strncpy`) copies length + 1 bytes of its source and adds no NUL,
    contrary to its documentation: the item is unterminated unless source[length] is NUL,
    and a source of exactly length bytes is read out of bounds.  (C40)
22. Flags of 2^32 and more pass registration and then index `setFlags` out of bounds. (C43)
23. `dbg_set("")` looks up the bytes behind the terminator.       (C45)
24. `log_file` with a name that expands to nothing opens no file, counts as open and leaks
    two buffers at the next open. (C52)
25. An expansion of the log name longer than its buffer leaves the buffer indeterminate. (C53)
26. `log_set_facility("kern")` is fatal: the entry is under `#if LOG_KERN`, which is 0. (C54)
27. `err_fatal_errno(NULL, ...)` passes NULL to %s; it logs two messages. (C48)
28. A short write to the log file is not completed. (C52)
29. `src_line` indexes with a counter that `src_destroy` does not reset: out of bounds after 1000 lines and a
    new `src_create`. (C51)
30. `src_print_error` and `src_print_message` do not replace a NULL stream by stdout. (C69)
31. `_src_print_yyerror` runs past the NUL for an unclosed `T_ and overflows a 1024-byte buffer. (C70)
32. `src_source_line` of a token made before the first line reads an element never written. (C50)
33. `src_cpp_line` with one word aborts in arg_get. (C67)
34. `pr_readwrite`: a full output buffer is taken for the end of output: longer output is cut off silently if all input was
    written, and ends the program otherwise; `select` interrupted by a signal ends the program. (C57)
35. `pr_readwrite`/`pr_filter` with inLen = 0 never closes the input descriptor: a child that waits for the end of its input
    hangs, and afterwards the descriptor is left open and registered. (C57_empty_input, C57_filter)
36. `pr_readwrite` with a descriptor >= FD_SETSIZE: FD_SET outside the set. (C57_fd_setsize)
37. `_pr_shutdown` kills a child once per registered descriptor, so again after it was reaped (its pid may be another's by
    then), and closes no descriptor. (C58)
38. `pr_spawn` children inherit the registered pipe ends; `pr_open` children do not. (C74)
39. `pr_open`: the table of pids has the size of the limit at the first call; with a raised limit a later pipe is recorded
    outside it. CREATE with NULL likewise. (C75_overrun)
40. `pr_open` with one descriptor as stdout and stderr, with the process's own 1 or 2, or in a process with stdin closed, gives
    the child a wrong or closed stream. (C75)
41. `pr_wait` returns 0 for success, for SIGPIPE and for a child already reaped. (C56_ambiguous)
42. `maa_shutdown` never calls `_prs_shutdown`: the table of concrete names keeps keys in the freed global pool. (C80_concrete)
43. `maa_shutdown` without `maa_init`, or called twice, aborts (timer "total" unknown); also after a string-pool loop that was left
    early. (C79)
44. `maa_shutdown` frees the node memory of lists and skip lists that are still alive; entries of skip lists leak. (C80)
45. `str_copyn` does not create the global pool as `str_copy` does: with none it dereferences NULL. (C84)
46. `STR_ITERATE_END` expands to `str_readonly`, which does not exist, and `str_pool_readonly` passes the pool to
    `hsh_readonly` as if it were a table; so a pool left read-only by a loop cannot be made writable again. (C39)
47. `src_get` with MAA_SRC on, before any file was named: `printf("%s", NULL)`. (C91_get_unnamed)
48. `pr_open`/`pr_open2`/`pr_spawn` of a command without words with MAA_PR on: `argv[0]` is NULL and printed by %s. (C92_empty_command)
49. `pr_readwrite` with MAA_PR on tests `FD_ISSET(in)` even when there is no input and `in` was never put in a set: undefined for
    descriptors of 1024 or more. (C92_fd)
50. In a pipeline of `pr_open(..., PR_USE_STDIN|PR_CREATE_STDOUT, ...)` only the last child stays registered: handing a descriptor to the
    next child clears its entry, so the earlier children are never waited for (zombies until the program ends), nor killed by shutdown. (C96_forgotten)

## Plan per property

| id | model | method |
|----|-------|--------|
| C01-C08 | HashModel.v: bucket nodes in a store, array of chain heads, resize, move-to-front at pointer level | representation predicate `chain`, refinement to an association list, induction over operation lists |
| C09 | HashFnModel.v | direct; byte lists, mod 2^64 |
| C01, C10, C22, C28, C33, C36 programs | Trace.v, HashTrace.v, SetTrace.v, StackTrace.v, ListTrace.v, SkipTrace.v, StrTrace.v: lists of calls run on the model and on a pure specification (finite map, finite sets, sequences, sorted sequences, numbered byte strings) | forward simulation, induction on the program |
| C86 | HashTop.v: the order in which the chains are iterated over, before and after a lookup | the lookup proof of HashOps2.v with the position of the entry; concatenation of buckets |
| C87 | GlobTrace.v: programs on the global pool against a pure specification | simulation (Trace.run_refines) over the invariant of string-pool histories |
| C85 | the statistics calls of memory.c, string.c and source.c, NULL arguments | computation |
| C10-C15 | SetModel.v (as HashModel without datum; world of sets) | refinement to a list-set; binary operations by induction over chains; aliasing refuted by vm_compute witness |
| C16-C17 | PrimeModel.v, wrapping loop on binary fuel | loop invariant on divisor/square; primality from Znumtheory; witness root of 2^32-7 |
| C18-C19 | BitModel.v | N.testbit extensionality; blockwise lemmas + finite byte sweep |
| C20-C21 | BaseNModel.v | positional-numeral lemmas; invariant for the static cache |
| C22 | StackModel.v | refinement to list |
| C88 | ObjTrace.v, TraceProps3.v | the free stack of a pool as a list, followed through every call |
| C90 | HashFrame.v (frame of every function of hash.c), HashMem.v: programs over tables in one memory | frame lemmas; the memory as disjoint pieces; simulation |
| C93 | SetFrame.v (frame of every function of set.c), SetMem.v: programs over sets in one memory | simulation by the model with private memories, composed with its refinement |
| C94 | HashGrow.v: which allocations an insertion makes; a history relation with the entries copied and the buckets walked | comparison with an allocator that never fails; invariant of the history (3^r <= buckets, 4 copied <= buckets + 4 r) |
| C97 | StrOrder.v: string pools with the order of iteration, without memory | the order of a table of (string, pointer) is that of a table of strings (map lemmas over HashOrder.v); refinement over whole programs |
| C98 | HashStat.v: counters of what was asked, beside the ordered specifications of C95 and C97 (SetOrder.v, StrOrder.v) | each call changes the table's counters as the specification says; refinement over whole programs that ask for the statistics |
| C103 | SkipMsgModel.v: the calls of SkipMagicModel.v in the output and log of LogModel.v, with the field print | the history of C102 with the print functions; the check of the mark, the search (where_is) and the dump (chain of SkipCheckSpec.v) decide which report of C48 is made |
| C102 | SkipMagicModel.v: the field magic beside the model of C33 | the mark of a list is live or freed according to the last of sl_create and sl_destroy on its address; the test comes before anything else |
| C101 | SkipCheckModel.v, SkipCheckSpec.v: the checks of the SL_DEBUG build | the chain of entries is determined by the heap, so the loop's answer is a function of it; the invariant of C33 gives order and count; that every slot is written is a separate invariant |
| C100 | RndModel.v, RndSpec.v: doubles as scaled integers | rounding to nearest and its relative error; the three errors together are below 10^-6, so only an integer point can be missed |
| C99 | AllocaModel.v, AllocaSpec.v: functions on a stack, and the blocks they got | the chain of headers is sorted by depth (invariant), so the loop that stops at the first block not deeper frees all deeper ones |
| C96 | PipeSpec.v: the loop that builds a pipeline, and a record of who holds what | PrPipe.v: one stage from C55, then induction over the commands; isolation from C72 over histories |
| C95 | HashOrder.v, SetOrder.v: ordered specifications of hash tables and sets without memory | the rows of a table are determined by bucket count and order; refinement, over whole programs |
| C91, C92 | DebugSrcModel.v, DebugPrModel.v: source.c and pr.c with their messages, in the state of the log; DebugSpec.v, DebugPrSpec.v: what is said | each function follows the one without messages step by step (DebugFollow.v) |
| C89 | DebugModel.v (PRINTF), DebugTrace.v: programs of debug.c + log.c + error.c + PRINTF | the product of the flag and log simulations |
| C23-C27 | MemModel.v on top of StackModel | invariant live/free/allocated; byte-block store; whole programs against pure specifications (ObjTrace.v, MemTrace.v, TraceProps3.v) |
| C28-C32 | ListModel.v on top of the object pool | world invariant: disjoint chains, free stack disjoint |
| C33-C35 | SkipModel.v: entries with forward arrays of possibly uninitialised slots | tower invariant (level lists are sublists), random level an arbitrary argument |
| C36-C39, C61, C62 | StrModel.v = HashModel + MemModel; keys are addresses, every table call first checks that the memory still holds the strings | interning invariant over histories of calls (`pcall`), pigeonhole for str_unique |
| C40-C42 | ArgModel.v on MemModel, transition table from arggram.txt | simulation of the automaton by a direct tokenizer spec; whole programs in ArgTrace.v |
| C43-C45, C63 | FlagModel.v on the hash map (NameTab.v: string-keyed tables) | words = events seen so far (`flag_history`), bit lemmas; whole programs in FlagTrace.v |
| C46 | TextModel.v, TextSpec.v | done: induction on the string against a specification on the list of letters |
| C47-C48 | LogModel.v, LogSpec.v (error.c and log.c call each other) | done: output trace; invariant over histories |
| C49, C64, C65 | TimerModel.v, TimerSpec.v on the string table, HashSim.v (simulation of iterations) | done: Z.quot arithmetic, clock values arbitrary; invariant over histories; whole programs in TimerTrace.v |
| C50-C51, C66-C71 | SourceModel.v, SourceSpec.v on the string object, object pool, string pools, argument lists and concrete names | done: invariant over histories of all calls; massage of messages as a relation on strings; whole programs in SrcTrace.v |
| C52-C54 | LogModel.v, LogSpec.v | done: state machine with OS calls as trace events, system answers as an argument; invariant over histories; whole programs in LogTrace.v |
| C55-C58, C72-C75 | PrModel.v | descriptor tables of parent and children (what each descriptor refers to) + OS oracle arguments (pipe, fork, open, waitpid, select/read/write answers); open_effect as a relational spec; invariant over all histories of calls; schedules as lists of syscall answers, induction on the schedule |
| C59 | PrsModel.v, PrsSpec.v on HashModel and the string pools (StrHist) | done: invariant over histories, keys and data are interned strings |
| C76-C81 | MaaModel.v: record of all modules' static state; MaaSpec.v: session = history of each module | composition of the modules' theorems |
| C84 | StrModel.v | the pool theorems; induction on the bytes for strncpy |
| C82-C83 | PrintModel.v, PrintSpec.v on the models of the printed objects | output as a list of bytes, addresses and quotients; the get_stats theorems and induction on keys and elements |
| C60 | XmallocModel.v (and MemModel.v) | done: direct, arbitrary allocator |

Not modelled: the Cray-only part of alloca.c, mkrnd.c, actual file/process/syslog effects beyond
the trace of calls, the spelling of %p and %.1f, failing writes to a stream.
