{
 "C01": {
  "note": "every history of calls, and (C01_programs) every program of calls against a finite map with a readonly flag; hash/compare pure with equal keys hashing equally; allocator arbitrary"
 },
 "C03": {
  "note": "entry count below 2^32 because the bucket counter is an unsigned int"
 },
 "C04": {
  "note": "as long as 3 * (largest size at an insertion) <= 4294967279"
 },
 "C06": {
  "note": "positive part for iterators touching keys already visited; the two failure modes are Examples C06_retrieve_other_key_skips and C06_inserting_iterator_reads_freed_memory"
 },
 "C07": {
  "note": "flag forced to 0 also when the user had set it: Example C07_flag_forced_to_zero"
 },
 "C16": {
  "note": "with the two exceptions of the code (1 and 4294967291) stated and proved"
 },
 "C10": {
  "note": "any number of sets, all calls of set.c in the history; set_count is the cardinality below 2^31 (int); C10_programs compares whole programs with finite sets"
 },
 "C12": {
  "note": "one set as both arguments: C12_set_del_self, C12_set_del_self_empty, C12_set_add_self and C12_set_add_self_due cover every set; UB is the read of a freed node"
 },
 "C13": {
  "note": "cardinalities below 2^64"
 },
 "C15": {
  "note": "cardinality below 2^64 for statistics"
 },
 "C33": {
  "note": "compare/key are pure functions satisfying `order`; fewer than 2^31-2 data per list and 2^31-1 lists per pool lifetime (int counters); C33_programs compares whole programs with sorted sequences"
 },
 "C34": {
  "note": "memory faults are UB in the model and excluded by the ok/Ret results of C33-C35; this property adds the entry count, the level bound, the count of lists in the pool, destroy and shutdown"
 },
 "C35": {
  "note": "no assumption on the callback; alloca space is not bounded in the model"
 },
 "C36": {
  "note": "room: int counters of the string memory do not overflow; keys_live makes any use of a table whose key memory was freed or changed undefined behaviour; C36_programs compares whole programs on any number of pools (create, destroy, find, exists, copy, copyn, grow, finish, reading the strings, iterating, statistics) with lists of byte strings and finite maps"
 },
 "C37": {
  "note": "refutes the documented equivalence with str_pool_find: a fresh pointer is always returned"
 },
 "C38": {
  "note": "counter + number of interned strings below 2^31"
 },
 "C39": {
  "note": "iterators: arbitrary state, arbitrary stop, any lookups in the pool; the order does not depend on the iterator"
 },
 "C61": {
  "note": "hits (entries found at the front of their bucket) is the table counter of C03, not restated here"
 },
 "C40": {
  "note": "item count below 2^30-2 and total bytes below 2^31 (beyond, the int counters overflow); arg_addn stores length+1 source bytes, refuting its doc (no NUL is added). C40_programs (TraceProps4.v, ArgTrace.v): every whole program of arg_* calls, arg_argify included, gives the results of a pure specification on lists of byte strings; pointers from arg_get stay good until their list is destroyed; no memory remains once all lists are destroyed."
 },
 "C41": {
  "note": "string shorter than 2^30-3; grammar in ArgSpec.v, proved total and unambiguous"
 },
 "C42": {
  "note": "default style"
 },
 "C43": {
  "note": "flags < 2^32 (wider ones are undefined behaviour on set, C43_wide_flag); set 2 shown broken (C43_set2). C43_programs (TraceProps5.v, FlagTrace.v): every whole program of calls of flags.c or of debug.c gives the results of a pure specification (names with their flags, a truth value per bit of each set); it also covers C44, C45 and C63"
 },
 "C44": {
  "note": "the reuse check never fires: C44_register has no such premise, C44_reuse_accepted"
 },
 "C45": {
  "note": "names of at least one byte; dbg_set(\"\") reads past the end (C45_dbg_empty_name)"
 },
 "C63": {
  "note": "printed text modelled as the list of names with the (builtin) mark"
 },
 "C46": {
  "note": "txt_soundex / txt_soundex2 for every C string of bytes 0..255 in the C locale: the result equals an independently stated code (letters only; first letter; codes 1-6 of later letters that differ from the code of the previous letter; three at most, padded with 0); shape (a capital letter, digits 1-6, then zeros); case and non-letters do not matter; the static buffer is overwritten by each call. Non-C locales are out; bytes above 127 fail isascii and are skipped."
 },
 "C47": {
  "note": "the bytes after the last '/', uniquely determined; in every history of log/error calls err_program_name gives the one last set. The pointer stays into the caller's string (contents kept in the model)."
 },
 "C48": {
  "note": "exact output trace of each routine (stderr, flushes, log sinks) in every reachable log state; exit status 1 / abort / return; if the log file must be switched and cannot be opened, every routine incl. err_warning exits 1 instead; err_fatal_errno logs two messages and hands a NULL routine to %s. Messages are given already formatted."
 },
 "C52": {
  "note": "ghost sinks over arbitrary histories of log_file/log_stream/log_syslog/log_close/log_option/log_set_facility/log_error/log_info/err_warning; exact events delivered. Files opened with an empty expansion are counted (g) but open nothing and leak two buffers. One os answer record per API call; write/open results arbitrary; partial writes are not completed by the code. C52_programs (TraceProps7.v, LogTrace.v): every whole program of calls of log.c and error.c does, call by call, exactly what a pure specification says, including the failing paths; it also covers C47, C48, C53 and C54."
 },
 "C53": {
  "note": "mkdir of exactly the proper ancestors, outermost first (list uniquely determined), then open; at a message an EOpen/EClose occurs iff the strftime expansion changed; too-long expansion = UB; failed open = exit 1, with the exact report (C53_cannot_switch_text, C53_cannot_open_text)."
 },
 "C54": {
  "note": "over the 19 names compiled in (HAVE_SYSLOG_NAMES undefined; <syslog.h> values of Linux); kern is rejected."
 },
 "C49": {
  "note": "in every history of timer calls and for all clock readings; times recorded as integers (a double holds them exactly below 2^53). The documented microsecond resolution does not hold: finding 14.. C49_programs (TraceProps5.v, TimerTrace.v): every whole program of timer calls gives the results of a pure specification (map from names to times); it also covers C64 and C65"
 },
 "C64": {
  "note": "in every history; the iterator's own lookups go through the table being iterated (read-only then) and are modelled as such."
 },
 "C65": {
  "note": "in every history; the heap of entries and the table's nodes are empty afterwards."
 },
 "C59": {
  "note": "in every history of registrations, lookups and string-pool calls, for both evaluation orders of the two str_find calls, as long as the global pool is not destroyed after a registration (the table keeps pointers into it). The dangling table after _prs_shutdown is finding 18."
 },
 "C60": {
  "note": "for every allocator outcome; NULL results do not exist in the model's result type because every path with a NULL from malloc/calloc/realloc ends in err_fatal."
 },
 "C50": {
  "note": "for every history of source, string-pool and concrete-name calls in which the global string pool is not destroyed once a file or concrete name was given. The text of a token made before the first src_line is undefined (C50_no_line) and later the first line stored (example C50_early), so k_text is then None and nothing is claimed. C50_programs (TraceProps6.v, SrcTrace.v): every whole program of calls of source.c and parse-concrete.c gives the results of a pure specification (current place; lines and tokens since src_create; registrations); it also covers C51, C59, C66, C67, C70 and C71."
 },
 "C51": {
  "note": "C51_line is exact: out of bounds exactly for the first line since src_create when 1000 or more lines were stored before; C51_reachable gives such a history for every number of lines."
 },
 "C66": {
  "note": "the massage is a separate relation on strings; out-of-memory cannot occur while printing."
 },
 "C67": {
  "note": "Fatal with a third word covers running out of memory in the string pool."
 },
 "C68": {
  "note": "whether or not the array has room."
 },
 "C69": {
  "note": "direct from the code: only src_parse_error replaces NULL by stdout, the documentation says all three do."
 },
 "C70": {
  "note": "stated for messages whose NUL is the last byte of their object, so that what follows is out of bounds."
 },
 "C71": {
  "note": "sizeof(struct source) is 24 on LP64."
 },
 "C55": {
  "note": "pr_open2/pr_open for every legal flag word, every table and every OS choice of fresh descriptors: open_effect (PrSpec) states the parent's and the child's tables, the exec'd words, the registration. Also: illegal flags abort first; close; close of an unregistered descriptor aborts; outside the table UB. Proper use is a hypothesis (C75 shows what happens otherwise)."
 },
 "C56": {
  "note": "All exit codes and signals of the Linux wait status, any number of EINTR, ECHILD -> 0, other errors -> -1; and which outcomes the caller cannot tell apart."
 },
 "C57": {
  "note": "Every schedule of select/write/read answers the kernel may give; the result, buffers, truncation, fatal cases, empty input, FD_SETSIZE; pr_filter end to end. Reachable cases in PrEx.v."
 },
 "C58": {
  "note": "Full trace of kill/waitpid, in descriptor order; termination given enough answers; the double kill. Descriptors are left open."
 },
 "C72": {
  "note": "Over all histories; children as they were at execvp (what they do later is not modelled)."
 },
 "C73": {
  "note": "Over all histories."
 },
 "C74": {
  "note": "Over all histories."
 },
 "C75": {
  "note": "What pr_open does outside the 'proper' use assumed by C55."
 },
 "C76": {
  "note": "session = any interleaving of calls of all the modules (their histories, which share no state but strings/concrete names); find_in gives the flag a name is bound to."
 },
 "C77": {
  "note": "ok P F: the call returns with P or ends the program with F. Banner and numbers are what maa_version and str_get_stats give; formatting of the lines is not modelled. The hits number of the pool is not stated (it depends on the order of chains)."
 },
 "C78": {
  "note": "The hypotheses are that nothing is left: no lists, skip lists, concrete names, registered descriptors. Pools created by the user with str_pool_create survive."
 },
 "C79": {
  "note": "q_ro <> 0 is reached by a loop over the pool that is left early (C39) or from within a loop."
 },
 "C80": {
  "note": "prs_concrete: the chain of a registered symbol holds a key in freed memory which is compared (UB)."
 },
 "C81": {
  "note": "decimal: sign, at least one digit, value."
 },
 "C82": {
  "note": "prints items out (PrintSpec.v): out is the text of the items, numbers in decimal without leading zeros. %p and %.1f are kept as symbols (address, quotient) and not spelled out. Failing writes are not modelled (the code ignores them)."
 },
 "C83": {
  "note": "in_lines: the keys in some order of all of them, split into lines that reach 60 columns with their last key. Keys of 2^31-62 bytes or more are excluded (the column counter is an int). The dump of skip lists (_sl_dump) is in C31-C34's model."
 },
 "C84": {
  "note": "first_bytes: the first len bytes of the argument, or fewer if a NUL comes first. fresh_pool: a pool with no strings. str_copyn and str_exists are the only ones that do not create the pool."
 },
 "C22": {
  "note": "every history of calls on any number of stacks; C22_programs compares whole programs with lists"
 },
 "C28": {
  "note": "every history; C28_programs compares whole programs (all calls of list.c that take a list) with sequences"
 },
 "C85": {
  "note": "NULL handles of the other modules are in their own claims (C28_null, C33_null, C35_null, C40_null, C49_null, C50_null)"
 },
 "C86": {
  "note": "the order is the order of iteration; hits is the counter the statistics report (C03, C15, C61_hits)"
 },
 "C87": {
  "note": "C87_programs: any sequence of str_find, str_findn, str_exists, str_copy, str_copyn, str_grow, str_finish, str_unique, str_destroy, str_get_stats and reads of the strings handed out, from the start of the program, gives the results of the pure specification gspec (an optional pool: contents of the strings in order, a finite map of the interned ones, the bytes being grown; and the next number of str_unique), and ends as it does, unless a call runs out of memory; with the pool destroyed no memory of it is left. C87_decimal, C87_first_free, C87_first_bytes say independently what the specification's numeral, first free number and string of the first bytes are. Assumes malloc returns fresh addresses, no failure of the stack-node malloc that is not checked (C25), and the int counters have room. Private pools in the same program: C36_programs."
 },
 "C23": {
  "note": "C23_programs (TraceProps3.v, ObjTrace.v): every whole program of calls on any number of pools gives the results of a pure specification; a hand-out is the object returned last (with its bytes), else a new one; a program that destroys its pools leaves no memory."
 },
 "C25": {
  "note": "C25_programs (TraceProps3.v, MemTrace.v): every whole program of string-memory calls gives the results of a pure specification on lists of byte strings."
 },
 "C88": {
  "note": "Whole programs: C23_programs (the specification keeps the returned objects of a pool as a stack)."
 },
 "C89": {
  "note": "PRINTF as composed of dbg_test (C43-C45) and log_info (C52-C54): off = no effect at all (C89_off), on = delivered to every open sink and nowhere else (C89_on); whole programs of debug.c, log.c, error.c calls and PRINTF (C89_programs). A flag of more than 32 bits is excluded (dbg_test is then undefined: C43_wide_flag). The message is given already formatted."
 },
 "C90": {
  "note": "One memory holds the nodes of all tables (HashMem.v); programs create, use, copy (hsh_iterate over one table inserting into another) and destroy any number of tables. C90_frame: a call on one table leaves every other node in memory unchanged, whatever it belongs to. The table structures themselves and the bucket arrays are not in the shared memory (they are separate blocks, only their allocation is modelled)."
 },
 "C91": {
  "note": "DebugSrcModel.v is source.c with its PRINTF and printf calls; `does` (DebugSpec.v) relates it to SourceModel.v from every state of the log that calls can reach. The exception is C91_get_unnamed (finding 47). Messages are given formatted; lets_write: the log file can be written and reopened (what happens otherwise is C53)."
 },
 "C92": {
  "note": "DebugPrModel.v is pr.c with its PRINTF and printf calls, the warning of pr_readwrite and the perror of the waits. C92_empty_command and C92_fd are the two calls that debugging changes (findings 48 and 49). The select answers printed are arbitrary. Only the parent speaks; stdio buffers copied by fork are not modelled."
 },
 "C93": {
  "note": "One memory holds the nodes of all sets (SetMem.v, operations modelled again on it from set.c); the programs have every set call including set_add, set_del, set_union, set_inter, set_diff, set_equal on any live sets. C93_frame: a call on one set leaves every other node in memory unchanged, and after set_destroy only the others are left. The set structures and bucket arrays are not in the shared memory (separate blocks; only their allocation is modelled)."
 },
 "C94": {
  "note": "History theorems: memory needed by an insertion (enough and not enough), when the table grows, and the total work of growing over any history"
 },
 "C95": {
  "note": "The order is given by a specification that knows no memory (ospec in HashOrder.v, sospec in SetOrder.v: buckets in order, rehash reverses each bucket, a new pair goes in front, a found pair is moved to the front by a lookup). C95_insert, C95_delete and C95_looking treat one call after any history, C95_programs whole programs, C95_addresses_do_not_show two runs of one program with different allocators; C95_set_insert, C95_set_delete, C95_set_programs and C95_set_addresses_do_not_show say the same of programs over any number of sets (the sets being named alike in the two runs)."
 },
 "C96": {
  "note": "The loop of tests/pr/prtest.c:63-67 for any number of commands, by induction over the commands on top of C55; children as they were at execvp."
 },
 "C97": {
  "note": "The order is that of a specification without memory (pospec in StrOrder.v: the number of buckets and the list of strings, reordered by the same functions as hash tables in HashOrder.v). C97_programs: every result of every program over any number of pools (create, destroy, find, exists, copy, copyn, grow, finish, read, iterate, stats), listings in their order, is that of the specification, and at the end every live pool is listed in that order; C97_same_calls: two runs of the same calls with different allocators, and different bytes behind the arguments, give equal results. Strings are named by their number in the order of being handed out."
 },
 "C98": {
  "note": "The numbers are those of a specification without memory: four counters (grown, asked, key in front of its bucket, key missing; HashStat.v) next to the ordered specification of C95/C97. C98_programs: programs over a hash table that ask for the statistics at any moment, all nine numbers; C98_addresses_do_not_show: two such runs with different allocators give the same numbers; C98_set_programs: after every program over any number of sets, set_get_stats of every live set, including what set_inter, set_diff and set_equal ask of their second set; C98_pool_programs: after every program over any number of string pools, str_pool_get_stats of every live pool. Counters are unsigned long (wrap at 2^64), those of pools cut to int; hash tables and pools with fewer than 2^32 entries, where the 32-bit loop counters of hsh_get_stats do not wrap."
 },
 "C99": {
  "note": "AllocaModel.v models alloca() and find_stack_direction of maa/alloca.c in the configuration without __GNUC__ >= 2, emacs, CRAY and STACK_DIRECTION (direction found at run time); the Cray-only functions are not modelled. The file is in the source tree but not among the library's SRCS. Stack addresses are integers, a function on the stack is the address at which its calls of alloca find the stack; that all calls from one function find it at the same address is an assumption of the program rules (alegal, AllocaSpec.v), and C99_pitfall shows it is needed. C99_memory: the malloc'ed blocks are exactly those a simple rule says; C99_live: blocks of functions that have not returned stay, and are apart; C99_call: one call, exactly what it frees and returns; C99_main: alloca(0) in the outermost function leaves just its own blocks; C99_programs: every program; C99_loop_keeps_all: the blocks of functions called in a loop pile up."
 },
 "C100": {
  "note": "RndModel.v models init_rand and get_rand of maa/rnd.c; RndTable.v holds its 5000 decimals. The file is in the source tree for test programs, not among the library's SRCS. Doubles are modelled exactly, as integers over 2^200, with IEEE rounding to nearest (C100_doubles, C100_ties: rd gives a double, none is nearer, and of two equally near ones it takes the one with the even significand); double arithmetic is taken to be binary64 without extended precision. C100_get_rand: one call; C100_session: 4998 calls after init_rand; C100_exhausted: the next aborts; C100_backwards, C100_never_outside: wrong bounds abort, nothing outside the bounds is ever returned; C100_rounded_down: the case where rounding errors give the integer before the exact one does happen."
 },
 "C101": {
  "note": "SkipCheckModel.v models the code of sl.c under SL_DEBUG: _sl_check, the calls that make it (_sl_locate, sl_insert, sl_delete, sl_iterate, sl_iterate_arg) and the longer dump. Proved for every sl_history of C33: the check passes on each live list, and the checking build's insert, delete, find and iterate return exactly what the plain build's do (iterate: for callbacks that keep the list alive; the Example shows that destroying it inside the callback is undefined in the checking build only). C101_check_exact and C101_check_sound hold in arbitrary worlds, reachable or not: the check passes iff neighbouring keys ascend and the stored count is right. C101_dump: the dump reads only slots that were written and prints the data in order."
 },
 "C102": {
  "note": "SkipMagicModel.v adds the field magic of struct _sl_List to the model of C33: the memory of a destroyed list stays in the pool of lists, so _sl_check_list reads it and stops the program. Proved for every history in which lists are also destroyed: every call on a destroyed list aborts (and so reads nothing freed), until sl_create returns its address again or the library is shut down; live lists are never among the destroyed ones, and on them the calls are those of C33 to C35. Nothing is claimed for other objects: lists, sets, tables, stacks and pools are given back to free(), and reading them afterwards is undefined."
 },
 "C103": {
  "note": "SkipMsgModel.v adds the field print to the lists of C102 and runs the calls in the output and log of LogModel.v, so that a refusal is err_internal of C48. What printf makes of %p and %d and of one line of the dump is a parameter; the dump is recorded as one output. The duplicate test of sl_insert and sl_delete is modelled by the same search, made a second time inside the call of C33. The callback of sl_iterate does not call the library here (C35 has that case). malloc failures are as in C33: the message of xmalloc.c is not spelled out in this file. The addresses of the entries are left open."
 }
}