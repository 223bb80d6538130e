{
 "claims": [
  {
   "property": "C01",
   "status": "proved",
   "theorems": [
    "C01_hsh_create",
    "C01_hsh_insert",
    "C01_hsh_delete",
    "C01_hsh_retrieve",
    "C01_programs",
    "C01_programs_memory"
   ],
   "note": "every history of calls, and (C01_programs) every program of calls against a finite map with a readonly flag; hash/compare pure with equal keys hashing equally; allocator arbitrary"
  },
  {
   "property": "C02",
   "status": "proved",
   "theorems": [
    "C02_readonly_refuses",
    "C02_hsh_readonly"
   ],
   "note": ""
  },
  {
   "property": "C03",
   "status": "proved",
   "theorems": [
    "C03_hsh_get_stats",
    "C03_hits",
    "C03_resizings"
   ],
   "note": "entry count below 2^32 because the bucket counter is an unsigned int"
  },
  {
   "property": "C04",
   "status": "proved",
   "theorems": [
    "C04_half_full"
   ],
   "note": "as long as 3 * (largest size at an insertion) <= 4294967279"
  },
  {
   "property": "C05",
   "status": "proved",
   "theorems": [
    "C05_hsh_iterate"
   ],
   "note": ""
  },
  {
   "property": "C06",
   "status": "proved",
   "theorems": [
    "C06_iterate_modifying"
   ],
   "note": "positive part for iterators touching keys already visited; the two failure modes are Examples C06_retrieve_other_key_skips and C06_inserting_iterator_reads_freed_memory"
  },
  {
   "property": "C07",
   "status": "proved",
   "theorems": [
    "C07_HSH_ITERATE",
    "C07_HSH_ITERATE_END"
   ],
   "note": "flag forced to 0 also when the user had set it: Example C07_flag_forced_to_zero"
  },
  {
   "property": "C08",
   "status": "proved",
   "theorems": [
    "C08_nodes_and_destroy"
   ],
   "note": ""
  },
  {
   "property": "C09",
   "status": "proved",
   "theorems": [
    "C09_string_hash",
    "C09_string_compare",
    "C09_string_null",
    "C09_pointer_hash",
    "C09_pointer_compare",
    "C09_pointer_compare_sign",
    "C09_pointer_compare_trans",
    "C09_defaults_good",
    "C09_string_env"
   ],
   "note": ""
  },
  {
   "property": "C10",
   "status": "proved",
   "theorems": [
    "C10_set_create",
    "C10_functions",
    "C10_set_insert",
    "C10_set_delete",
    "C10_set_member",
    "C10_contents",
    "C10_set_count",
    "C10_programs"
   ],
   "note": "any number of sets, all calls of set.c in the history; set_count is the cardinality below 2^31 (int); C10_programs compares whole programs with finite sets"
  },
  {
   "property": "C11",
   "status": "proved",
   "theorems": [
    "C11_set_union",
    "C11_set_inter",
    "C11_set_diff",
    "C11_mismatch_fatal"
   ],
   "note": ""
  },
  {
   "property": "C12",
   "status": "proved",
   "theorems": [
    "C12_set_add",
    "C12_set_del",
    "C12_readonly_aborts",
    "C12_set_del_self",
    "C12_set_del_self_empty",
    "C12_set_add_self",
    "C12_set_add_self_due"
   ],
   "note": "one set as both arguments: C12_set_del_self, C12_set_del_self_empty, C12_set_add_self and C12_set_add_self_due cover every set; UB is the read of a freed node"
  },
  {
   "property": "C13",
   "status": "proved",
   "theorems": [
    "C13_set_equal"
   ],
   "note": "cardinalities below 2^64"
  },
  {
   "property": "C14",
   "status": "proved",
   "theorems": [
    "C14_set_iterate",
    "C14_modifying_iterator_aborts",
    "C14_SET_ITERATE",
    "C14_SET_ITERATE_END"
   ],
   "note": ""
  },
  {
   "property": "C15",
   "status": "proved",
   "theorems": [
    "C15_set_readonly",
    "C15_readonly_refuses",
    "C15_nodes",
    "C15_set_destroy",
    "C15_set_get_stats",
    "C15_counters"
   ],
   "note": "cardinality below 2^64 for statistics"
  },
  {
   "property": "C16",
   "status": "proved",
   "theorems": [
    "C16_prm_is_prime",
    "C16_prm_is_prime_wrong_at_4294967291",
    "C16_prm_is_prime_wrong_at_1"
   ],
   "note": "with the two exceptions of the code (1 and 4294967291) stated and proved"
  },
  {
   "property": "C17",
   "status": "proved",
   "theorems": [
    "C17_prm_next_prime",
    "C17_prm_next_prime_outside"
   ],
   "note": ""
  },
  {
   "property": "C18",
   "status": "proved",
   "theorems": [
    "C18_bit_set",
    "C18_bit_clr",
    "C18_bit_tst",
    "C18_outside_undefined"
   ],
   "note": ""
  },
  {
   "property": "C19",
   "status": "proved",
   "theorems": [
    "C19_bit_cnt_64",
    "C19_bit_cnt_32"
   ],
   "note": ""
  },
  {
   "property": "C20",
   "status": "proved",
   "theorems": [
    "C20_encode",
    "C20_roundtrip",
    "C20_decode_value",
    "C20_decode_overflow",
    "C20_decode_illegal"
   ],
   "note": ""
  },
  {
   "property": "C21",
   "status": "proved",
   "theorems": [
    "C21_encode",
    "C21_roundtrip",
    "C21_decode_is_decode_buf",
    "C21_decode_value",
    "C21_decode_overflow",
    "C21_decode_illegal"
   ],
   "note": ""
  },
  {
   "property": "C22",
   "status": "proved",
   "theorems": [
    "C22_top",
    "C22_isempty",
    "C22_pop",
    "C22_push",
    "C22_create",
    "C22_destroy",
    "C22_no_leak",
    "C22_programs"
   ],
   "note": "every history of calls on any number of stacks; C22_programs compares whole programs with lists"
  },
  {
   "property": "C23",
   "status": "proved",
   "theorems": [
    "C23_get",
    "C23_live_blocks",
    "C23_free",
    "C23_stats",
    "C23_destroy",
    "C23_pools_disjoint",
    "C23_create",
    "C23_no_leak",
    "C23_programs"
   ],
   "note": "C23_programs (TraceProps3.v, ObjTrace.v): every whole program of calls on any number of pools gives the results of a pure specification; a hand-out is the object returned last (with its bytes), else a new one; a program that destroys its pools leaves no memory."
  },
  {
   "property": "C24",
   "status": "proved",
   "theorems": [
    "C24_get_empty"
   ],
   "note": ""
  },
  {
   "property": "C25",
   "status": "proved",
   "theorems": [
    "C25_stable",
    "C25_distinct",
    "C25_strcpy",
    "C25_stats",
    "C25_create",
    "C25_destroy",
    "C25_no_leak",
    "C25_programs"
   ],
   "note": "C25_programs (TraceProps3.v, MemTrace.v): every whole program of string-memory calls gives the results of a pure specification on lists of byte strings."
  },
  {
   "property": "C26",
   "status": "proved",
   "theorems": [
    "C26_grow_finish",
    "C26_grow",
    "C26_finish"
   ],
   "note": ""
  },
  {
   "property": "C27",
   "status": "proved",
   "theorems": [
    "C27_strncpy",
    "C27_terminated_iff",
    "C27_overread"
   ],
   "note": ""
  },
  {
   "property": "C28",
   "status": "proved",
   "theorems": [
    "C28_create",
    "C28_append",
    "C28_push",
    "C28_pop",
    "C28_reads",
    "C28_nth_set",
    "C28_iterate",
    "C28_null",
    "C28_programs"
   ],
   "note": "every history; C28_programs compares whole programs (all calls of list.c that take a list) with sequences"
  },
  {
   "property": "C29",
   "status": "proved",
   "theorems": [
    "C29_disjoint",
    "C29_destroy",
    "C29_pool_used",
    "C29_total_allocated",
    "C29_shutdown"
   ],
   "note": ""
  },
  {
   "property": "C30",
   "status": "proved",
   "theorems": [
    "C30_truncate"
   ],
   "note": ""
  },
  {
   "property": "C31",
   "status": "proved",
   "theorems": [
    "C31_truncate_position",
    "C31_null_position",
    "C31_restore"
   ],
   "note": ""
  },
  {
   "property": "C32",
   "status": "proved",
   "theorems": [
    "C32_positions",
    "C32_set_position",
    "C32_LST_ITERATE",
    "C32_LST_ITERATE2"
   ],
   "note": ""
  },
  {
   "property": "C33",
   "status": "proved",
   "theorems": [
    "C33_create",
    "C33_insert",
    "C33_insert_duplicate",
    "C33_delete",
    "C33_delete_absent",
    "C33_find",
    "C33_null",
    "C33_programs"
   ],
   "note": "compare/key are pure functions satisfying `order`; fewer than 2^31-2 data per list and 2^31-1 lists per pool lifetime (int counters); C33_programs compares whole programs with sorted sequences"
  },
  {
   "property": "C34",
   "status": "proved",
   "theorems": [
    "C34_entries",
    "C34_pool_used",
    "C34_level_and_dump",
    "C34_destroy",
    "C34_shutdown"
   ],
   "note": "memory faults are UB in the model and excluded by the ok/Ret results of C33-C35; this property adds the entry count, the level bound, the count of lists in the pool, destroy and shutdown"
  },
  {
   "property": "C35",
   "status": "proved",
   "theorems": [
    "C35_iterate",
    "C35_ascending",
    "C35_null"
   ],
   "note": "no assumption on the callback; alloca space is not bounded in the model"
  },
  {
   "property": "C36",
   "status": "proved",
   "theorems": [
    "C36_find",
    "C36_same_iff_equal",
    "C36_stable",
    "C36_stable_copies",
    "C36_exists",
    "C36_copy",
    "C36_programs"
   ],
   "note": "room: int counters of the string memory do not overflow; keys_live makes any use of a table whose key memory was freed or changed undefined behaviour; C36_programs compares whole programs on any number of pools (create, destroy, find, exists, copy, copyn, grow, finish, reading the strings, iterating, statistics) with lists of byte strings and finite maps"
  },
  {
   "property": "C37",
   "status": "proved",
   "theorems": [
    "C37_grow_finish",
    "C37_finish_not_find"
   ],
   "note": "refutes the documented equivalence with str_pool_find: a fresh pointer is always returned"
  },
  {
   "property": "C38",
   "status": "proved",
   "theorems": [
    "C38_starts_at_1",
    "C38_unique",
    "C38_results_differ",
    "C38_no_pool"
   ],
   "note": "counter + number of interned strings below 2^31"
  },
  {
   "property": "C39",
   "status": "proved",
   "theorems": [
    "C39_iterate",
    "C39_readonly",
    "C39_STR_ITERATE"
   ],
   "note": "iterators: arbitrary state, arbitrary stop, any lookups in the pool; the order does not depend on the iterator"
  },
  {
   "property": "C40",
   "status": "proved",
   "theorems": [
    "C40_create",
    "C40_add",
    "C40_addn",
    "C40_addn_overread",
    "C40_grow",
    "C40_finish",
    "C40_vector",
    "C40_get",
    "C40_get_range",
    "C40_stable",
    "C40_independent",
    "C40_destroy",
    "C40_no_leak",
    "C40_null",
    "C40_programs"
   ],
   "note": "item count below 2^30-2 and total bytes below 2^31 (beyond, the int counters overflow); arg_addn stores length+1 source bytes, refuting its doc (no NUL is added). C40_programs (TraceProps4.v, ArgTrace.v): every whole program of arg_* calls, arg_argify included, gives the results of a pure specification on lists of byte strings; pointers from arg_get stay good until their list is destroyed; no memory remains once all lists are destroyed."
  },
  {
   "property": "C41",
   "status": "proved",
   "theorems": [
    "C41_argify",
    "C41_total",
    "C41_unambiguous"
   ],
   "note": "string shorter than 2^30-3; grammar in ArgSpec.v, proved total and unambiguous"
  },
  {
   "property": "C42",
   "status": "proved",
   "theorems": [
    "C42_round_trip",
    "C42_quoting_exists"
   ],
   "note": "default style"
  },
  {
   "property": "C43",
   "status": "proved",
   "theorems": [
    "C43_test",
    "C43_set_flag",
    "C43_unset_flag",
    "C43_none_all",
    "C43_set2",
    "C43_wide_flag",
    "C43_programs"
   ],
   "note": "flags < 2^32 (wider ones are undefined behaviour on set, C43_wide_flag); set 2 shown broken (C43_set2). C43_programs (TraceProps5.v, FlagTrace.v): every whole program of calls of flags.c or of debug.c gives the results of a pure specification (names with their flags, a truth value per bit of each set); it also covers C44, C45 and C63"
  },
  {
   "property": "C44",
   "status": "proved",
   "theorems": [
    "C44_malformed",
    "C44_reserved",
    "C44_register",
    "C44_dbg_register",
    "C44_reuse_accepted"
   ],
   "note": "the reuse check never fires: C44_register has no such premise, C44_reuse_accepted"
  },
  {
   "property": "C45",
   "status": "proved",
   "theorems": [
    "C45_flg_set",
    "C45_dbg_set",
    "C45_flg_set_invalid",
    "C45_dbg_any_prefix",
    "C45_dbg_sign_ignored",
    "C45_no_table",
    "C45_dbg_empty_name"
   ],
   "note": "names of at least one byte; dbg_set(\"\") reads past the end (C45_dbg_empty_name)"
  },
  {
   "property": "C46",
   "status": "proved",
   "theorems": [
    "C46_soundex",
    "C46_shape",
    "C46_case_and_non_letters",
    "C46_letters",
    "C46_static_buffer"
   ],
   "note": "txt_soundex / txt_soundex2 for every C string of bytes 0..255 in the C locale: the result equals an independently stated code (letters only; first letter; codes 1-6 of later letters that differ from the code of the previous letter; three at most, padded with 0); shape (a capital letter, digits 1-6, then zeros); case and non-letters do not matter; the static buffer is overwritten by each call. Non-C locales are out; bytes above 127 fail isascii and are skipped."
  },
  {
   "property": "C47",
   "status": "proved",
   "theorems": [
    "C47_set_program_name",
    "C47_basename_unique",
    "C47_program_name"
   ],
   "note": "the bytes after the last '/', uniquely determined; in every history of log/error calls err_program_name gives the one last set. The pointer stays into the caller's string (contents kept in the model)."
  },
  {
   "property": "C48",
   "status": "proved",
   "theorems": [
    "C48_fatal",
    "C48_fatal_errno",
    "C48_fatal_errno_null",
    "C48_internal",
    "C48_warning",
    "C48_never_return",
    "C48_cannot_write"
   ],
   "note": "exact output trace of each routine (stderr, flushes, log sinks) in every reachable log state; exit status 1 / abort / return; if the log file must be switched and cannot be opened, every routine incl. err_warning exits 1 instead; err_fatal_errno logs two messages and hands a NULL routine to %s. Messages are given already formatted."
  },
  {
   "property": "C49",
   "status": "proved",
   "theorems": [
    "C49_difftime",
    "C49_start",
    "C49_stop",
    "C49_reset",
    "C49_get",
    "C49_unknown",
    "C49_null",
    "C49_programs"
   ],
   "note": "in every history of timer calls and for all clock readings; times recorded as integers (a double holds them exactly below 2^53). The documented microsecond resolution does not hold: finding 14.. C49_programs (TraceProps5.v, TimerTrace.v): every whole program of timer calls gives the results of a pure specification (map from names to times); it also covers C64 and C65"
  },
  {
   "property": "C50",
   "status": "proved",
   "theorems": [
    "C50_get",
    "C50_token",
    "C50_line_get",
    "C50_place",
    "C50_file",
    "C50_null",
    "C50_no_manager",
    "C50_no_line",
    "C50_programs"
   ],
   "note": "for every history of source, string-pool and concrete-name calls in which the global string pool is not destroyed once a file or concrete name was given. The text of a token made before the first src_line is undefined (C50_no_line) and later the first line stored (example C50_early), so k_text is then None and nothing is claimed. C50_programs (TraceProps6.v, SrcTrace.v): every whole program of calls of source.c and parse-concrete.c gives the results of a pure specification (current place; lines and tokens since src_create; registrations); it also covers C51, C59, C66, C67, C70 and C71."
  },
  {
   "property": "C51",
   "status": "proved",
   "theorems": [
    "C51_line",
    "C51_overrun",
    "C51_reachable"
   ],
   "note": "C51_line is exact: out of bounds exactly for the first line since src_create when 1000 or more lines were stored before; C51_reachable gives such a history for every number of lines."
  },
  {
   "property": "C52",
   "status": "proved",
   "theorems": [
    "C52_step",
    "C52_message",
    "C52_info",
    "C52_none_open",
    "C52_count",
    "C52_open_twice",
    "C52_open",
    "C52_close",
    "C52_close_closed",
    "C52_null_closes",
    "C52_close_all",
    "C52_buffers",
    "C52_open_twice_text",
    "C52_programs"
   ],
   "note": "ghost sinks over arbitrary histories of log_file/log_stream/log_syslog/log_close/log_option/log_set_facility/log_error/log_info/err_warning; exact events delivered. Files opened with an empty expansion are counted (g) but open nothing and leak two buffers. One os answer record per API call; write/open results arbitrary; partial writes are not completed by the code. C52_programs (TraceProps7.v, LogTrace.v): every whole program of calls of log.c and error.c does, call by call, exactly what a pure specification says, including the failing paths; it also covers C47, C48, C53 and C54."
  },
  {
   "property": "C53",
   "status": "proved",
   "theorems": [
    "C53_open",
    "C53_rollover",
    "C53_cannot_switch",
    "C53_cannot_open",
    "C53_too_long",
    "C53_ancestors_unique",
    "C53_cannot_switch_text",
    "C53_cannot_open_text",
    "C53_parents"
   ],
   "note": "mkdir of exactly the proper ancestors, outermost first (list uniquely determined), then open; at a message an EOpen/EClose occurs iff the strftime expansion changed; too-long expansion = UB; failed open = exit 1, with the exact report (C53_cannot_switch_text, C53_cannot_open_text)."
  },
  {
   "property": "C54",
   "status": "proved",
   "theorems": [
    "C54_names",
    "C54_round_trip",
    "C54_get",
    "C54_unknown",
    "C54_kern",
    "C54_unknown_text"
   ],
   "note": "over the 19 names compiled in (HAVE_SYSLOG_NAMES undefined; <syslog.h> values of Linux); kern is rejected."
  },
  {
   "property": "C55",
   "status": "proved",
   "theorems": [
    "C55_open2",
    "C55_open",
    "C55_registered",
    "C55_illegal",
    "C55_close_nowait",
    "C55_close",
    "C55_close_other",
    "C55_close_wild"
   ],
   "note": "pr_open2/pr_open for every legal flag word, every table and every OS choice of fresh descriptors: open_effect (PrSpec) states the parent's and the child's tables, the exec'd words, the registration. Also: illegal flags abort first; close; close of an unregistered descriptor aborts; outside the table UB. Proper use is a hypothesis (C75 shows what happens otherwise)."
  },
  {
   "property": "C56",
   "status": "proved",
   "theorems": [
    "C56_wait",
    "C56_reaped",
    "C56_error",
    "C56_stopped",
    "C56_waits",
    "C56_spawn",
    "C56_ambiguous"
   ],
   "note": "All exit codes and signals of the Linux wait status, any number of EINTR, ECHILD -> 0, other errors -> -1; and which outcomes the caller cannot tell apart."
  },
  {
   "property": "C57",
   "status": "proved",
   "theorems": [
    "C57_transfer",
    "C57_output",
    "C57_returns",
    "C57_full_early",
    "C57_empty_input",
    "C57_fd_setsize",
    "C57_not_open",
    "C57_filter"
   ],
   "note": "Every schedule of select/write/read answers the kernel may give; the result, buffers, truncation, fatal cases, empty input, FD_SETSIZE; pr_filter end to end. Reachable cases in PrEx.v."
  },
  {
   "property": "C58",
   "status": "proved",
   "theorems": [
    "C58_shutdown",
    "C58_returns",
    "C58_double_kill"
   ],
   "note": "Full trace of kill/waitpid, in descriptor order; termination given enough answers; the double kill. Descriptors are left open."
  },
  {
   "property": "C59",
   "status": "proved",
   "theorems": [
    "C59_register",
    "C59_concrete",
    "C59_first",
    "C59_shutdown"
   ],
   "note": "in every history of registrations, lookups and string-pool calls, for both evaluation orders of the two str_find calls, as long as the global pool is not destroyed after a registration (the table keeps pointers into it). The dangling table after _prs_shutdown is finding 18."
  },
  {
   "property": "C60",
   "status": "proved",
   "theorems": [
    "C60_xmalloc",
    "C60_xcalloc",
    "C60_xrealloc",
    "C60_xfree",
    "C60_xstrdup"
   ],
   "note": "for every allocator outcome; NULL results do not exist in the model's result type because every path with a NULL from malloc/calloc/realloc ends in err_fatal."
  },
  {
   "property": "C61",
   "status": "proved",
   "theorems": [
    "C61_hits",
    "C61_stats",
    "C61_null",
    "C61_counts"
   ],
   "note": "hits (entries found at the front of their bucket) is the table counter of C03, not restated here"
  },
  {
   "property": "C62",
   "status": "proved",
   "theorems": [
    "C62_create",
    "C62_destroy",
    "C62_global",
    "C62_no_leak",
    "C62_first_use"
   ],
   "note": ""
  },
  {
   "property": "C63",
   "status": "proved",
   "theorems": [
    "C63_flg_name",
    "C63_flg_list",
    "C63_dbg_list",
    "C63_list_none",
    "C63_destroy"
   ],
   "note": "printed text modelled as the list of names with the (builtin) mark"
  },
  {
   "property": "C64",
   "status": "proved",
   "theorems": [
    "C64_print_timer",
    "C64_print_timers"
   ],
   "note": "in every history; the iterator's own lookups go through the table being iterated (read-only then) and are modelled as such."
  },
  {
   "property": "C65",
   "status": "proved",
   "theorems": [
    "C65_shutdown"
   ],
   "note": "in every history; the heap of entries and the table's nodes are empty afterwards."
  },
  {
   "property": "C66",
   "status": "proved",
   "theorems": [
    "C66_parse_error",
    "C66_parse_error_null",
    "C66_null_message",
    "C66_prints",
    "C66_massaged",
    "C66_massaged_once"
   ],
   "note": "the massage is a separate relation on strings; out-of-memory cannot occur while printing."
  },
  {
   "property": "C67",
   "status": "proved",
   "theorems": [
    "C67_cpp_line",
    "C67_number"
   ],
   "note": "Fatal with a third word covers running out of memory in the string pool."
  },
  {
   "property": "C68",
   "status": "proved",
   "theorems": [
    "C68_unterminated"
   ],
   "note": "whether or not the array has room."
  },
  {
   "property": "C69",
   "status": "proved",
   "theorems": [
    "C69_null_stream"
   ],
   "note": "direct from the code: only src_parse_error replaces NULL by stdout, the documentation says all three do."
  },
  {
   "property": "C70",
   "status": "proved",
   "theorems": [
    "C70_runaway"
   ],
   "note": "stated for messages whose NUL is the last byte of their object, so that what follows is out of bounds."
  },
  {
   "property": "C71",
   "status": "proved",
   "theorems": [
    "C71_stats",
    "C71_print_stats",
    "C71_destroy"
   ],
   "note": "sizeof(struct source) is 24 on LP64."
  },
  {
   "property": "C72",
   "status": "proved",
   "theorems": [
    "C72_isolation",
    "C72_eof"
   ],
   "note": "Over all histories; children as they were at execvp (what they do later is not modelled)."
  },
  {
   "property": "C73",
   "status": "proved",
   "theorems": [
    "C73_pid"
   ],
   "note": "Over all histories."
  },
  {
   "property": "C74",
   "status": "proved",
   "theorems": [
    "C74_spawn_inherits"
   ],
   "note": "Over all histories."
  },
  {
   "property": "C75",
   "status": "proved",
   "theorems": [
    "C75_overrun",
    "C75_closed_stdin",
    "C75_same_twice",
    "C75_own_stream"
   ],
   "note": "What pr_open does outside the 'proper' use assumed by C55."
  },
  {
   "property": "C76",
   "status": "proved",
   "theorems": [
    "C76_init",
    "C76_flag"
   ],
   "note": "session = any interleaving of calls of all the modules (their histories, which share no state but strings/concrete names); find_in gives the flag a name is bound to."
  },
  {
   "property": "C77",
   "status": "proved",
   "theorems": [
    "C77_shutdown"
   ],
   "note": "ok P F: the call returns with P or ends the program with F. Banner and numbers are what maa_version and str_get_stats give; formatting of the lines is not modelled. The hits number of the pool is not stated (it depends on the order of chains)."
  },
  {
   "property": "C78",
   "status": "proved",
   "theorems": [
    "C78_again"
   ],
   "note": "The hypotheses are that nothing is left: no lists, skip lists, concrete names, registered descriptors. Pools created by the user with str_pool_create survive."
  },
  {
   "property": "C79",
   "status": "proved",
   "theorems": [
    "C79_no_total",
    "C79_twice",
    "C79_loop"
   ],
   "note": "q_ro <> 0 is reached by a loop over the pool that is left early (C39) or from within a loop."
  },
  {
   "property": "C80",
   "status": "proved",
   "theorems": [
    "C80_concrete",
    "C80_lists",
    "C80_skip_lists"
   ],
   "note": "prs_concrete: the chain of a registered symbol holds a key in freed memory which is compared (UB)."
  },
  {
   "property": "C81",
   "status": "proved",
   "theorems": [
    "C81_version"
   ],
   "note": "decimal: sign, at least one digit, value."
  },
  {
   "property": "C82",
   "status": "proved",
   "theorems": [
    "C82_hash",
    "C82_set",
    "C82_strings",
    "C82_objects",
    "C82_pool",
    "C82_pool_null",
    "C82_global",
    "C82_global_none",
    "C82_no_null"
   ],
   "note": "prints items out (PrintSpec.v): out is the text of the items, numbers in decimal without leading zeros. %p and %.1f are kept as symbols (address, quotient) and not spelled out. Failing writes are not modelled (the code ignores them)."
  },
  {
   "property": "C83",
   "status": "proved",
   "theorems": [
    "C83_key_strings",
    "C83_lst_dump",
    "C83_null"
   ],
   "note": "in_lines: the keys in some order of all of them, split into lines that reach 60 columns with their last key. Keys of 2^31-62 bytes or more are excluded (the column counter is an int). The dump of skip lists (_sl_dump) is in C31-C34's model."
  },
  {
   "property": "C84",
   "status": "proved",
   "theorems": [
    "C84_global",
    "C84_findn",
    "C84_findn_bad",
    "C84_no_pool",
    "C84_with_pool",
    "C84_copyn",
    "C84_copyn_overread",
    "C84_grow"
   ],
   "note": "first_bytes: the first len bytes of the argument, or fewer if a NUL comes first. fresh_pool: a pool with no strings. str_copyn and str_exists are the only ones that do not create the pool."
  },
  {
   "property": "C85",
   "status": "proved",
   "theorems": [
    "C85_pool_destroy",
    "C85_pool_calls",
    "C85_memory_stats",
    "C85_stats_without_memory"
   ],
   "note": "NULL handles of the other modules are in their own claims (C28_null, C33_null, C35_null, C40_null, C49_null, C50_null)"
  },
  {
   "property": "C86",
   "status": "proved",
   "theorems": [
    "C86_retrieve",
    "C86_again",
    "C86_insert",
    "C86_set_member",
    "C86_pool"
   ],
   "note": "the order is the order of iteration; hits is the counter the statistics report (C03, C15, C61_hits)"
  },
  {
   "property": "C87",
   "status": "proved",
   "theorems": [
    "C87_decimal",
    "C87_first_free",
    "C87_first_bytes",
    "C87_programs"
   ],
   "note": "C87_programs: any sequence of str_find, str_findn, str_exists, str_copy, str_copyn, str_grow, str_finish, str_unique, str_destroy, str_get_stats and reads of the strings handed out, from the start of the program, gives the results of the pure specification gspec (an optional pool: contents of the strings in order, a finite map of the interned ones, the bytes being grown; and the next number of str_unique), and ends as it does, unless a call runs out of memory; with the pool destroyed no memory of it is left. C87_decimal, C87_first_free, C87_first_bytes say independently what the specification's numeral, first free number and string of the first bytes are. Assumes malloc returns fresh addresses, no failure of the stack-node malloc that is not checked (C25), and the int counters have room. Private pools in the same program: C36_programs."
  },
  {
   "property": "C88",
   "status": "proved",
   "theorems": [
    "C88_last_returned_first"
   ],
   "note": "Whole programs: C23_programs (the specification keeps the returned objects of a pool as a stack)."
  },
  {
   "property": "C89",
   "status": "proved",
   "theorems": [
    "C89_off",
    "C89_on",
    "C89_no_log",
    "C89_programs"
   ],
   "note": "PRINTF as composed of dbg_test (C43-C45) and log_info (C52-C54): off = no effect at all (C89_off), on = delivered to every open sink and nowhere else (C89_on); whole programs of debug.c, log.c, error.c calls and PRINTF (C89_programs). A flag of more than 32 bits is excluded (dbg_test is then undefined: C43_wide_flag). The message is given already formatted."
  },
  {
   "property": "C90",
   "status": "proved",
   "theorems": [
    "C90_programs",
    "C90_frame"
   ],
   "note": "One memory holds the nodes of all tables (HashMem.v); programs create, use, copy (hsh_iterate over one table inserting into another) and destroy any number of tables. C90_frame: a call on one table leaves every other node in memory unchanged, whatever it belongs to. The table structures themselves and the bucket arrays are not in the shared memory (they are separate blocks, only their allocation is modelled)."
  },
  {
   "property": "C91",
   "status": "proved",
   "theorems": [
    "C91_line",
    "C91_cpp_line",
    "C91_get",
    "C91_get_unnamed",
    "C91_parse_error",
    "C91_print_error",
    "C91_null"
   ],
   "note": "DebugSrcModel.v is source.c with its PRINTF and printf calls; `does` (DebugSpec.v) relates it to SourceModel.v from every state of the log that calls can reach. The exception is C91_get_unnamed (finding 47). Messages are given formatted; lets_write: the log file can be written and reopened (what happens otherwise is C53)."
  },
  {
   "property": "C92",
   "status": "proved",
   "theorems": [
    "C92_numbers",
    "C92_wait",
    "C92_close",
    "C92_open2",
    "C92_open",
    "C92_spawn",
    "C92_empty_command",
    "C92_readwrite",
    "C92_fd",
    "C92_filter"
   ],
   "note": "DebugPrModel.v is pr.c with its PRINTF and printf calls, the warning of pr_readwrite and the perror of the waits. C92_empty_command and C92_fd are the two calls that debugging changes (findings 48 and 49). The select answers printed are arbitrary. Only the parent speaks; stdio buffers copied by fork are not modelled."
  },
  {
   "property": "C93",
   "status": "proved",
   "theorems": [
    "C93_programs",
    "C93_frame"
   ],
   "note": "One memory holds the nodes of all sets (SetMem.v, operations modelled again on it from set.c); the programs have every set call including set_add, set_del, set_union, set_inter, set_diff, set_equal on any live sets. C93_frame: a call on one set leaves every other node in memory unchanged, and after set_destroy only the others are left. The set structures and bucket arrays are not in the shared memory (separate blocks; only their allocation is modelled)."
  },
  {
   "property": "C94",
   "status": "proved",
   "theorems": [
    "C94_enough_memory",
    "C94_not_enough",
    "C94_when",
    "C94_amortised",
    "C94_every_history",
    "C94_set_enough_memory",
    "C94_set_not_enough"
   ],
   "note": "History theorems: memory needed by an insertion (enough and not enough), when the table grows, and the total work of growing over any history"
  },
  {
   "property": "C95",
   "status": "proved",
   "theorems": [
    "C95_insert",
    "C95_delete",
    "C95_looking",
    "C95_programs",
    "C95_addresses_do_not_show",
    "C95_set_insert",
    "C95_set_delete",
    "C95_set_programs",
    "C95_set_addresses_do_not_show"
   ],
   "note": "The order is given by a specification that knows no memory (ospec in HashOrder.v, sospec in SetOrder.v: buckets in order, rehash reverses each bucket, a new pair goes in front, a found pair is moved to the front by a lookup). C95_insert, C95_delete and C95_looking treat one call after any history, C95_programs whole programs, C95_addresses_do_not_show two runs of one program with different allocators; C95_set_insert, C95_set_delete, C95_set_programs and C95_set_addresses_do_not_show say the same of programs over any number of sets (the sets being named alike in the two runs)."
  },
  {
   "property": "C96",
   "status": "proved",
   "theorems": [
    "C96_pipeline",
    "C96_close",
    "C96_forgotten"
   ],
   "note": "The loop of tests/pr/prtest.c:63-67 for any number of commands, by induction over the commands on top of C55; children as they were at execvp."
  },
  {
   "property": "C97",
   "status": "proved",
   "theorems": [
    "C97_programs",
    "C97_same_calls"
   ],
   "note": "The order is that of a specification without memory (pospec in StrOrder.v: the number of buckets and the list of strings, reordered by the same functions as hash tables in HashOrder.v). C97_programs: every result of every program over any number of pools (create, destroy, find, exists, copy, copyn, grow, finish, read, iterate, stats), listings in their order, is that of the specification, and at the end every live pool is listed in that order; C97_same_calls: two runs of the same calls with different allocators, and different bytes behind the arguments, give equal results. Strings are named by their number in the order of being handed out."
  },
  {
   "property": "C98",
   "status": "proved",
   "theorems": [
    "C98_programs",
    "C98_addresses_do_not_show",
    "C98_set_programs",
    "C98_pool_programs"
   ],
   "note": "The numbers are those of a specification without memory: four counters (grown, asked, key in front of its bucket, key missing; HashStat.v) next to the ordered specification of C95/C97. C98_programs: programs over a hash table that ask for the statistics at any moment, all nine numbers; C98_addresses_do_not_show: two such runs with different allocators give the same numbers; C98_set_programs: after every program over any number of sets, set_get_stats of every live set, including what set_inter, set_diff and set_equal ask of their second set; C98_pool_programs: after every program over any number of string pools, str_pool_get_stats of every live pool. Counters are unsigned long (wrap at 2^64), those of pools cut to int; hash tables and pools with fewer than 2^32 entries, where the 32-bit loop counters of hsh_get_stats do not wrap."
  },
  {
   "property": "C99",
   "status": "proved",
   "theorems": [
    "C99_memory",
    "C99_live",
    "C99_call",
    "C99_main",
    "C99_programs",
    "C99_loop_keeps_all",
    "C99_pitfall"
   ],
   "note": "AllocaModel.v models alloca() and find_stack_direction of maa/alloca.c in the configuration without __GNUC__ >= 2, emacs, CRAY and STACK_DIRECTION (direction found at run time); the Cray-only functions are not modelled. The file is in the source tree but not among the library's SRCS. Stack addresses are integers, a function on the stack is the address at which its calls of alloca find the stack; that all calls from one function find it at the same address is an assumption of the program rules (alegal, AllocaSpec.v), and C99_pitfall shows it is needed. C99_memory: the malloc'ed blocks are exactly those a simple rule says; C99_live: blocks of functions that have not returned stay, and are apart; C99_call: one call, exactly what it frees and returns; C99_main: alloca(0) in the outermost function leaves just its own blocks; C99_programs: every program; C99_loop_keeps_all: the blocks of functions called in a loop pile up."
  },
  {
   "property": "C100",
   "status": "proved",
   "theorems": [
    "C100_doubles",
    "C100_ties",
    "C100_get_rand",
    "C100_backwards",
    "C100_never_outside",
    "C100_session",
    "C100_exhausted",
    "C100_rounded_down"
   ],
   "note": "RndModel.v models init_rand and get_rand of maa/rnd.c; RndTable.v holds its 5000 decimals. The file is in the source tree for test programs, not among the library's SRCS. Doubles are modelled exactly, as integers over 2^200, with IEEE rounding to nearest (C100_doubles, C100_ties: rd gives a double, none is nearer, and of two equally near ones it takes the one with the even significand); double arithmetic is taken to be binary64 without extended precision. C100_get_rand: one call; C100_session: 4998 calls after init_rand; C100_exhausted: the next aborts; C100_backwards, C100_never_outside: wrong bounds abort, nothing outside the bounds is ever returned; C100_rounded_down: the case where rounding errors give the integer before the exact one does happen."
  },
  {
   "property": "C101",
   "status": "proved",
   "theorems": [
    "C101_check_passes",
    "C101_insert_same",
    "C101_delete_same",
    "C101_find_same",
    "C101_iterate_same",
    "C101_null",
    "C101_check_exact",
    "C101_check_sound",
    "C101_calls_check",
    "C101_disorder_stops",
    "C101_dump"
   ],
   "note": "SkipCheckModel.v models the code of sl.c under SL_DEBUG: _sl_check, the calls that make it (_sl_locate, sl_insert, sl_delete, sl_iterate, sl_iterate_arg) and the longer dump. Proved for every sl_history of C33: the check passes on each live list, and the checking build's insert, delete, find and iterate return exactly what the plain build's do (iterate: for callbacks that keep the list alive; the Example shows that destroying it inside the callback is undefined in the checking build only). C101_check_exact and C101_check_sound hold in arbitrary worlds, reachable or not: the check passes iff neighbouring keys ascend and the stored count is right. C101_dump: the dump reads only slots that were written and prints the data in order."
  },
  {
   "property": "C102",
   "status": "proved",
   "theorems": [
    "C102_destroyed",
    "C102_destroy",
    "C102_create",
    "C102_live",
    "C102_shutdown"
   ],
   "note": "SkipMagicModel.v adds the field magic of struct _sl_List to the model of C33: the memory of a destroyed list stays in the pool of lists, so _sl_check_list reads it and stops the program. Proved for every history in which lists are also destroyed: every call on a destroyed list aborts (and so reads nothing freed), until sl_create returns its address again or the library is shut down; live lists are never among the destroyed ones, and on them the calls are those of C33 to C35. Nothing is claimed for other objects: lists, sets, tables, stacks and pools are given back to free(), and reading them afterwards is undefined."
  },
  {
   "property": "C103",
   "status": "proved",
   "theorems": [
    "C103_duplicate",
    "C103_missing",
    "C103_null",
    "C103_destroyed",
    "C103_create_null",
    "C103_dump",
    "C103_silent",
    "C103_create",
    "C103_shutdown"
   ],
   "note": "SkipMsgModel.v adds the field print to the lists of C102 and runs the calls in the output and log of LogModel.v, so that a refusal is err_internal of C48. What printf makes of %p and %d and of one line of the dump is a parameter; the dump is recorded as one output. The duplicate test of sl_insert and sl_delete is modelled by the same search, made a second time inside the call of C33. The callback of sl_iterate does not call the library here (C35 has that case). malloc failures are as in C33: the message of xmalloc.c is not spelled out in this file. The addresses of the entries are left open."
  }
 ]
}