{"id": "C01", "title": "Hash table is a finite map", "statement": "For any history of hsh_insert/hsh_delete/hsh_retrieve on a table fresh from hsh_create, every return value is the one a plain finite map keyed up to `compare` gives: insert returns 1 and changes nothing iff the key is present, else adds it and returns 0; delete returns 0 and removes it iff present, else 1; retrieve returns the stored datum or NULL. Growing the table and self-organisation are invisible. The only other outcome is a fatal exit when memory is exhausted.", "quantifier": "every finite sequence of API calls, every hash/compare pair where equal keys hash equally, every allocator behaviour (address choice, reuse, failure)", "why_tests_cant": "resizing thresholds, collision patterns and move-to-front orders are unboundedly many", "anchors": ["maa/hash.c:hsh_insert", "maa/hash.c:hsh_delete", "maa/hash.c:hsh_retrieve", "maa/hash.c:_hsh_insert"]}
{"id": "C02", "title": "Readonly tables refuse modification", "statement": "While the readonly flag is set, hsh_insert, hsh_delete and hsh_destroy abort the program instead of modifying the table (so no modified state is ever observable), and hsh_retrieve still answers correctly without changing the iteration order; hsh_readonly returns the previous flag and changes nothing else.", "quantifier": "every reachable table, every key, every flag value", "why_tests_cant": "must hold for every state the table can be in", "anchors": ["maa/hash.c:hsh_readonly", "maa/hash.c:hsh_insert", "maa/hash.c:hsh_delete", "maa/hash.c:hsh_destroy"]}
{"id": "C03", "title": "Hash statistics are truthful", "statement": "hsh_get_stats never aborts on a table built through the API that holds fewer than 2^32 pairs; entries is the number of stored pairs, buckets_used/singletons/maximum_length describe the actual distribution over buckets, retrievals is the number of retrieve calls, misses the number of failed ones, hits the number answered from the top of a list, and resizings counts growths (all modulo 2^64).", "quantifier": "every finite sequence of API calls, every hash/compare pair where equal keys hash equally, every allocator behaviour (address choice, reuse, failure)", "why_tests_cant": "an aggregate over unbounded histories", "anchors": ["maa/hash.c:hsh_get_stats"]}
{"id": "C04", "title": "Table stays at most about half full", "statement": "After any history of calls, 2*entries <= size + 2 and size has never decreased, as long as 3 * (largest size at any insertion) <= 4294967279; the initial size is 1 and every later size is prime.", "quantifier": "every history of calls", "why_tests_cant": "growth policy must hold at every size, tests see a few resizes", "anchors": ["maa/hash.c:hsh_insert", "maa/hash.c:_hsh_create", "maa/prime.c:prm_next_prime"]}
{"id": "C05", "title": "hsh_iterate visits every pair exactly once", "statement": "With an iterator that does not touch the table, hsh_iterate/hsh_iterate_arg calls it once per stored pair, stops right after the first non-zero return and returns 1, else returns 0 after all; the table is unchanged.", "quantifier": "every table, every iterator (as a state transformer)", "why_tests_cant": "all tables, all iterators", "anchors": ["maa/hash.c:hsh_iterate", "maa/hash.c:hsh_iterate_arg"]}
{"id": "C06", "title": "Iteration under modification", "statement": "hsh_iterate tolerates an iterator that deletes the pair it is handed, and one that retrieves the key it is handed (as tim_print_timers does): every pair is still visited exactly once. An iterator that retrieves another key can make the walk skip a pair, and one that inserts can make it read freed memory.", "quantifier": "every table; every iterator of the stated class; witnesses for the failing classes", "why_tests_cant": "depends on pointer-level chain order for all tables", "anchors": ["maa/hash.c:hsh_iterate", "maa/timer.c:_tim_iterator"]}
{"id": "C07", "title": "Position loops (HSH_ITERATE)", "statement": "Starting at hsh_init_position and following hsh_next_position yields each stored pair exactly once, in the order of hsh_iterate, then NULL; the body may look up any keys without disturbing the walk; during the loop the table is readonly, after it writable. For a non-empty table the flag is forced to 0 at the end even if the user had set readonly before the loop (an empty table leaves it unchanged), and a loop left by break leaves it set until HSH_ITERATE_END.", "quantifier": "every table", "why_tests_cant": "all chain layouts", "anchors": ["maa/hash.c:hsh_init_position", "maa/hash.c:hsh_next_position", "maa/hash.c:hsh_get_position", "maa/maa.h:HSH_ITERATE"]}
{"id": "C08", "title": "hsh_destroy releases every internal node", "statement": "hsh_destroy of a writable table frees every bucket node the table ever allocated and not yet freed, exactly once, and touches no keys or data; at every earlier moment the live nodes are exactly one per stored pair (no leak, no dangling).", "quantifier": "every finite sequence of API calls, every hash/compare pair where equal keys hash equally, every allocator behaviour (address choice, reuse, failure)", "why_tests_cant": "leaks/double frees over all histories", "anchors": ["maa/hash.c:hsh_destroy", "maa/hash.c:_hsh_destroy_buckets"]}
{"id": "C09", "title": "Default hash and compare are coherent", "statement": "hsh_string_compare is 0 exactly for equal strings and hsh_string_hash depends only on the string contents, so equal strings hash equally; hsh_pointer_compare is 0 exactly for equal pointers and is antisymmetric/transitive; hsh_pointer_hash is a function of the pointer and always < 2^32; NULL string keys abort.", "quantifier": "every pair of strings / pointers", "why_tests_cant": "infinite domain", "anchors": ["maa/hash.c:hsh_string_hash", "maa/hash.c:hsh_pointer_hash", "maa/hash.c:hsh_string_compare", "maa/hash.c:hsh_pointer_compare"]}
{"id": "C10", "title": "Set is a finite set", "statement": "For any history of set_insert/set_delete/set_member on a set from set_create the results are those of a mathematical finite set up to `compare`; set_count is its cardinality.", "quantifier": "every finite sequence of API calls, every hash/compare pair where equal keys hash equally, every allocator behaviour (address choice, reuse, failure)", "why_tests_cant": "same as C01", "anchors": ["maa/set.c:set_insert", "maa/set.c:set_delete", "maa/set.c:set_member", "maa/set.c:set_count"]}
{"id": "C11", "title": "Union, intersection, difference", "statement": "set_union/set_inter/set_diff return a new set with exactly the elements of the mathematical union/intersection/difference and leave the elements, order and readonly flag of both arguments unchanged (only lookup counters of the second argument move); this also holds when both arguments are the same set.", "quantifier": "every pair of sets (same or distinct)", "why_tests_cant": "all pairs of layouts", "anchors": ["maa/set.c:set_union", "maa/set.c:set_inter", "maa/set.c:set_diff"]}
{"id": "C12", "title": "In-place add and delete", "statement": "For two distinct sets, set_add(s1,s2) makes s1 the union and set_del(s1,s2) makes s1 the difference, s2 unchanged. set_del(s,s) on a non-empty set always reads freed memory. set_add(s,s) changes nothing while twice the number of elements is at most the number of buckets, and otherwise reads freed memory (or runs out of it).", "quantifier": "every pair of distinct sets any history reaches, and every such set as both arguments", "why_tests_cant": "all pairs of layouts; UB is not observable by tests", "anchors": ["maa/set.c:set_add", "maa/set.c:set_del"]}
{"id": "C13", "title": "set_equal decides extensional equality", "statement": "set_equal(s1,s2) returns 1 iff both sets have the same elements up to `compare`, 0 otherwise, leaving elements and readonly flags of both unchanged, including on the early-exit path.", "quantifier": "every pair of sets", "why_tests_cant": "all pairs", "anchors": ["maa/set.c:set_equal"]}
{"id": "C14", "title": "set_iterate and set positions", "statement": "set_iterate calls the iterator once per element, stops at the first non-zero, and restores the previous readonly flag on both paths; inside the iterator set_member on the same set is safe and does not disturb the walk, set_insert/set_delete abort. SET_ITERATE visits each element once.", "quantifier": "every set, every iterator of the stated class", "why_tests_cant": "all layouts and iterators", "anchors": ["maa/set.c:set_iterate", "maa/set.c:set_iterate_arg", "maa/set.c:set_init_position", "maa/set.c:set_next_position"]}
{"id": "C15", "title": "Set readonly/statistics/destroy", "statement": "set_insert/set_delete/set_destroy abort on a readonly set; set_get_stats never aborts and is truthful; set_destroy frees all nodes exactly once.", "quantifier": "every finite sequence of API calls, every hash/compare pair where equal keys hash equally, every allocator behaviour (address choice, reuse, failure)", "why_tests_cant": "all histories", "anchors": ["maa/set.c:set_readonly", "maa/set.c:set_get_stats", "maa/set.c:set_destroy"]}
{"id": "C16", "title": "prm_is_prime", "statement": "For every 32-bit value v, prm_is_prime(v) terminates and returns 1 iff v is prime, with exactly two exceptions: it returns 1 for v=1 and 0 for the prime 4294967291.", "quantifier": "all 2^32 values", "why_tests_cant": "the wrap of `square` only matters near 2^32 where the loop is slow", "anchors": ["maa/prime.c:prm_is_prime"]}
{"id": "C17", "title": "prm_next_prime", "statement": "For 2 <= start <= 4294967279 prm_next_prime returns the smallest odd prime >= start. For start 0 or 1, and for start > 4294967279, it returns 1, which is neither prime nor (for the latter) >= start. It always terminates.", "quantifier": "all 2^32 values", "why_tests_cant": "as above", "anchors": ["maa/prime.c:prm_next_prime"]}
{"id": "C18", "title": "Bit operations", "statement": "bit_set/bit_clr change exactly the named bit for every bit 0..63; bit_tst is non-zero iff the bit is set for bits 0..31, but returns 0 for every bit 32..63 (truncation to int).", "quantifier": "all 64-bit words, all bit numbers", "why_tests_cant": "2^64 words", "anchors": ["maa/bit.c:bit_set", "maa/bit.c:bit_clr", "maa/bit.c:bit_tst"]}
{"id": "C19", "title": "bit_cnt counts ones", "statement": "bit_cnt returns the number of set bits, for 64-bit and for 32-bit longs.", "quantifier": "all 2^64 (2^32) words", "why_tests_cant": "2^64 words", "anchors": ["maa/bit.c:bit_cnt"]}
{"id": "C20", "title": "b26 codec", "statement": "For every val < 26^6, b26_decode(b26_encode(val)) = val with no overflow, whatever calls were made before (the cache is transparent); the encoding is the shortest lower-case big-endian base-26 numeral of val mod 26^7. Decoding any 7-character string overflows int. Illegal characters abort.", "quantifier": "every val, every earlier history of b26_encode calls", "why_tests_cant": "2^64 values times histories", "anchors": ["maa/base26.c:b26_encode", "maa/base26.c:b26_decode"]}
{"id": "C21", "title": "b64 codec", "statement": "For every val < 2^31, b64_decode(b64_encode(val)) = val without overflow; encoding depends only on val mod 2^32 and is the shortest big-endian base-64 numeral. For val with bit 31 set decoding overflows int. Illegal characters abort.", "quantifier": "every val", "why_tests_cant": "values >= 2^31 are not in the tests", "anchors": ["maa/base64.c:b64_encode", "maa/base64.c:b64_decode", "maa/base64.c:b64_decode_buf"]}
{"id": "C22", "title": "Stack is LIFO", "statement": "For any history of stk_push/stk_pop/stk_top/stk_isempty on one stack the results are those of a list used as a stack (NULL on empty); stk_destroy frees all nodes once. If malloc fails stk_push dereferences NULL (no out-of-memory check).", "quantifier": "every history, every allocator behaviour", "why_tests_cant": "all histories; out-of-memory not testable", "anchors": ["maa/stack.c:stk_push", "maa/stack.c:stk_pop", "maa/stack.c:stk_top", "maa/stack.c:stk_destroy"]}
{"id": "C23", "title": "Object pool never aliases live objects", "statement": "For any history of mem_get_object / mem_free_object that frees only live objects, every object handed out differs from all objects currently live; total/used/reused statistics are exactly: distinct blocks allocated, live objects, number of recycled hand-outs; used <= total; mem_destroy_objects frees each block exactly once.", "quantifier": "every legal history, every allocator", "why_tests_cant": "all interleavings of get/free", "anchors": ["maa/memory.c:mem_get_object", "maa/memory.c:mem_free_object", "maa/memory.c:mem_destroy_objects", "maa/memory.c:mem_get_object_stats"]}
{"id": "C24", "title": "mem_get_empty_object zeroes", "statement": "mem_get_empty_object returns a block of the configured size with all bytes zero, whatever the block held before.", "quantifier": "every pool state", "why_tests_cant": "recycled blocks hold arbitrary bytes", "anchors": ["maa/memory.c:mem_get_empty_object"]}
{"id": "C25", "title": "String memory is stable", "statement": "Every string returned by mem_strcpy / mem_finish keeps its address and contents through any later mem_strcpy/mem_strncpy/mem_grow/mem_finish on the same object until mem_destroy_strings; count and bytes statistics equal the number of strings and bytes stored; destroy frees each block once.", "quantifier": "every history (below int overflow)", "why_tests_cant": "all histories, realloc may move", "anchors": ["maa/memory.c:mem_strcpy", "maa/memory.c:mem_grow", "maa/memory.c:mem_finish", "maa/memory.c:mem_get_string_stats"]}
{"id": "C26", "title": "mem_grow/mem_finish concatenates", "statement": "A run of mem_grow calls followed by mem_finish returns one NUL-terminated string that is the concatenation of the pieces, including empty pieces and an empty run.", "quantifier": "every list of pieces, any earlier history", "why_tests_cant": "all splits, realloc moves", "anchors": ["maa/memory.c:mem_grow", "maa/memory.c:mem_finish"]}
{"id": "C27", "title": "mem_strncpy termination", "statement": "mem_strncpy(info,s,len) copies len+1 bytes of s: the result is a NUL-terminated copy of the first len bytes iff s[len] is NUL. Otherwise (documented use on an unterminated prefix) the result is not terminated at len, and when s has exactly len readable bytes it reads out of bounds.", "quantifier": "every source buffer and length", "why_tests_cant": "needs specific buffer layouts", "anchors": ["maa/memory.c:mem_strncpy", "maa/arg.c:arg_addn", "maa/string.c:str_pool_copyn"]}
{"id": "C28", "title": "List is a sequence", "statement": "For any history of append/push/pop/top/nth_get/nth_set/member/length/iterate/position calls on a list, results are those of a mathematical sequence (append at tail, push/pop at head, 1-based nth, NULL when absent, fatal exit for nth_set out of range), with no undefined behaviour; lst_length is the length mod 2^32.", "quantifier": "every history with fewer than 2^32 elements; fewer than 2^31-1 element allocations per pool lifetime (beyond that the int counters of the pool overflow)", "why_tests_cant": "all histories", "anchors": ["maa/list.c:lst_append", "maa/list.c:lst_push", "maa/list.c:lst_pop", "maa/list.c:lst_nth_get", "maa/list.c:lst_nth_set", "maa/list.c:lst_member"]}
{"id": "C29", "title": "Lists do not interfere", "statement": "Although all lists recycle nodes through one shared pool, an operation on one list never changes the observable contents of another, and lst_destroy returns exactly the nodes of that list to the pool.", "quantifier": "every interleaving of operations on any number of lists", "why_tests_cant": "all interleavings", "anchors": ["maa/list.c:mem", "maa/list.c:lst_destroy", "maa/memory.c:mem_get_object"]}
{"id": "C30", "title": "lst_truncate", "statement": "lst_truncate(l,n) keeps the whole list if n >= length, and the first n elements for n = 0 or n = 1; for every 2 <= n < length it dereferences NULL (the search loop never increments its index).", "quantifier": "every list and n", "why_tests_cant": "tests only use some n; the claim covers all", "anchors": ["maa/list.c:lst_truncate"]}
{"id": "C31", "title": "lst_truncate_position restores", "statement": "lst_truncate_position(l,p) for a position p in the list keeps exactly the elements up to p; in particular truncating to a marker taken with lst_last_position undoes any later appends, and a NULL position empties the list.", "quantifier": "every list, position and sequence of later appends", "why_tests_cant": "all histories", "anchors": ["maa/list.c:lst_truncate_position", "maa/list.c:lst_last_position"]}
{"id": "C32", "title": "List positions", "statement": "LST_ITERATE visits the elements in order; lst_nth_position/get_position/set_position address the nth element, set_position changes exactly it.", "quantifier": "every list", "why_tests_cant": "all lists", "anchors": ["maa/list.c:lst_init_position", "maa/list.c:lst_next_position", "maa/list.c:lst_nth_position", "maa/list.c:lst_set_position"]}
{"id": "C33", "title": "Skip list is an ordered map", "statement": "For any history of sl_insert (new keys) / sl_delete (present keys) / sl_find and any outcome of the random level choice, sl_find returns the datum with that key iff it is present; inserting a duplicate key or deleting an absent key aborts.", "quantifier": "every history, every random level sequence, every strict total order on keys, every allocator", "why_tests_cant": "random levels and pointer towers", "anchors": ["maa/sl.c:sl_insert", "maa/sl.c:sl_delete", "maa/sl.c:sl_find", "maa/sl.c:_sl_locate", "maa/sl.c:_sl_random_level"]}
{"id": "C34", "title": "Skip list memory safety", "statement": "No history of legal skip-list calls reads an out-of-range level, a NULL or a freed entry; list level stays <= 16; live entries are exactly one per datum plus the head; sl_destroy frees each exactly once. The library's pool counts as used exactly the live lists.", "quantifier": "as C33", "why_tests_cant": "pointer-level safety for all towers", "anchors": ["maa/sl.c:sl_insert", "maa/sl.c:sl_delete", "maa/sl.c:sl_destroy"]}
{"id": "C35", "title": "sl_iterate is an ordered snapshot", "statement": "sl_iterate calls f on the data present at call time, in ascending key order, stops at and returns the first non-zero result, even if f inserts into or deletes from the list.", "quantifier": "every list, every callback", "why_tests_cant": "callbacks that mutate", "anchors": ["maa/sl.c:sl_iterate", "maa/sl.c:sl_iterate_arg"]}
{"id": "C36", "title": "String interning", "statement": "In any history of str_pool_find calls two calls return the same pointer iff the strings are equal; the returned pointer holds an equal string forever; str_pool_exists tells whether the string was interned.", "quantifier": "every history", "why_tests_cant": "all histories", "anchors": ["maa/string.c:str_pool_find", "maa/string.c:str_pool_exists"]}
{"id": "C37", "title": "str_pool_finish is not str_pool_find", "statement": "str_pool_grow*/str_pool_finish returns a string equal to the concatenation; if that string was not in the pool it is interned as by str_pool_find, but if it was already present a second, different pointer is returned, contradicting the documented equivalence.", "quantifier": "every pool and pieces", "why_tests_cant": "needs pointer identity over histories", "anchors": ["maa/string.c:str_pool_finish", "maa/string.c:str_pool_grow"]}
{"id": "C38", "title": "str_unique is unique", "statement": "When the global pool exists, str_unique(prefix) terminates and returns an interned string prefix followed by a decimal number that was not in the pool before, so all its results are distinct. Without a global pool it dereferences NULL.", "quantifier": "every pool, counter value below int overflow, prefix", "why_tests_cant": "all pools", "anchors": ["maa/string.c:str_unique", "maa/string.c:str_exists"]}
{"id": "C39", "title": "str_pool_iterate and the readonly flag", "statement": "str_pool_iterate(_arg) calls the iterator once per interned string; str_pool_iterate_arg leaves the pool writable on every path; str_pool_iterate leaves it readonly when the iterator stops early, so the next str_pool_find of a new string, or str_pool_destroy, aborts.", "quantifier": "every pool, every iterator", "why_tests_cant": "all pools and stop points", "anchors": ["maa/string.c:str_pool_iterate", "maa/string.c:str_pool_iterate_arg"]}
{"id": "C40", "title": "Argument vector", "statement": "For any history of arg_add/arg_addn/arg_grow/arg_finish, the vector from arg_get_vector has exactly arg_count strings followed by NULL, all writes are within the allocation, arg_get(i) is the i-th string added and aborts out of range.", "quantifier": "every history", "why_tests_cant": "growth at all sizes", "anchors": ["maa/arg.c:arg_add", "maa/arg.c:arg_finish", "maa/arg.c:arg_get", "maa/arg.c:arg_get_vector"]}
{"id": "C41", "title": "arg_argify tokenises as specified", "statement": "For every string and quote style, arg_argify terminates and returns exactly the words of the quoting grammar (blanks separate; single and double quotes group literally; backslash outside quotes escapes one character; styles can disable each).", "quantifier": "every NUL-terminated string, every style", "why_tests_cant": "infinite inputs", "anchors": ["maa/arg.c:arg_argify", "maa/arg.c:char2char_type", "maa/arggram.txt"]}
{"id": "C42", "title": "arg_argify round trip", "statement": "For every list of NUL-free words there is a quoting (backslash or quotes) such that arg_argify of the blank-joined quoted words returns the list.", "quantifier": "every list of words", "why_tests_cant": "infinite inputs", "anchors": ["maa/arg.c:arg_argify"]}
{"id": "C43", "title": "dbg/flg flag sets", "statement": "For flags of set 0, 1 and 3 (top two of 32 bits), dbg_set_flag/dbg_unset_flag/dbg_set/flg_set followed by test behaves as an independent boolean per flag; 'none' clears all, 'all' sets all. Flags of set 2 are stored in one word and tested in another, so setting them is not visible to the test.", "quantifier": "every 32-bit flag and every history", "why_tests_cant": "all flags and histories", "anchors": ["maa/debug.c:TEST", "maa/debug.c:dbg_set_flag", "maa/debug.c:dbg_test", "maa/flags.c:TEST", "maa/flags.c:flg_set"]}
{"id": "C44", "title": "Flag registration", "statement": "Registering a malformed flag (not exactly one of the low 30 bits, or for dbg_register both top bits) is a fatal error and changes nothing; a well-formed registration makes the name settable; but reuse of a flag value under a second name is never rejected (contrary to the message), and re-registering a name keeps the first flag.", "quantifier": "every flag value and name history", "why_tests_cant": "all values", "anchors": ["maa/debug.c:_dbg_register", "maa/debug.c:dbg_register", "maa/flags.c:flg_register"]}
{"id": "C45", "title": "Name parsing of dbg_set and flg_set", "statement": "flg_set(name) is fatal unless name, or name without a leading + or -, is registered; dbg_set accepts more: any one-character prefix of a registered name clears that flag, and +/- of an unregistered name is silently ignored.", "quantifier": "every name", "why_tests_cant": "all strings", "anchors": ["maa/debug.c:dbg_set", "maa/flags.c:flg_set"]}
{"id": "C46", "title": "Soundex", "statement": "txt_soundex2 always writes exactly 4 characters and a NUL into its 5-byte buffer; the value is the documented Soundex code: first letter upper-cased, then up to three codes 1-6 of later letters skipping zeros and repeats of the previous letter's code, padded with 0; Z000 when there is no letter; case and non-letters do not matter.", "quantifier": "every string", "why_tests_cant": "infinite inputs", "anchors": ["maa/text.c:txt_soundex2", "maa/text.c:txt_soundex"]}
{"id": "C47", "title": "Program name", "statement": "err_set_program_name(p) makes err_program_name return the part after the last '/', or NULL for NULL.", "quantifier": "every string", "why_tests_cant": "infinite inputs", "anchors": ["maa/error.c:err_set_program_name", "maa/error.c:err_program_name"]}
{"id": "C48", "title": "Error routines never return", "statement": "err_fatal and err_fatal_errno print the message with the program/routine prefix and exit with status 1; err_internal aborts; err_warning returns; each sends the message to the log (err_fatal_errno a second one with the system's error text). None of the first three ever returns. If the log file has to be switched at that moment and cannot be opened, all of them exit with status 1.", "quantifier": "every program name/routine/message", "why_tests_cant": "all combinations incl. NULL", "anchors": ["maa/error.c:err_fatal", "maa/error.c:err_internal", "maa/error.c:err_warning"]}
{"id": "C49", "title": "Timers measure whole seconds", "statement": "tim_stop records now.sec - start.sec: the sub-second part is lost to integer division, so the reported time differs from the true one by less than a second but is not microsecond resolution; reset zeroes; stop/get/reset of an unknown timer aborts; timers with different names are independent.", "quantifier": "every pair of times, every history", "why_tests_cant": "all clock values", "anchors": ["maa/timer.c:DIFFTIME", "maa/timer.c:tim_stop", "maa/timer.c:tim_start"]}
{"id": "C50", "title": "Source tokens", "statement": "src_get returns a token with the file, line, offset, length and line text current at the call, kept unchanged by later calls; offsets advance by the token lengths; each src_line increments the line number and resets the offset.", "quantifier": "every history", "why_tests_cant": "all histories", "anchors": ["maa/source.c:src_get", "maa/source.c:src_line", "maa/source.c:src_advance", "maa/source.c:src_cpp_line"]}
{"id": "C51", "title": "src_create after src_destroy", "statement": "The line index is not reset by src_destroy: after at least 1000 stored lines, destroying and storing another line writes out of bounds.", "quantifier": "every number of lines stored before", "why_tests_cant": "needs >= 1000 lines then re-creation", "anchors": ["maa/source.c:src_destroy", "maa/source.c:src_create", "maa/source.c:src_line"]}
{"id": "C52", "title": "Log sinks", "statement": "For any history of log_file/log_stream/log_syslog/log_close, a message is delivered to exactly the sinks that are open; the open count equals the number of open sinks plus the number of log files opened under an empty name; closing a closed sink is a no-op, opening an open one aborts; log_close closes all and frees the name buffers.", "quantifier": "every history", "why_tests_cant": "all histories", "anchors": ["maa/log.c:log_file", "maa/log.c:log_stream", "maa/log.c:log_syslog", "maa/log.c:log_close", "maa/log.c:_log_base_va"]}
{"id": "C53", "title": "Log path creation and rollover", "statement": "Before opening the log file every proper ancestor directory of the expanded name is created, in order; the file is reopened exactly when the strftime expansion changes. If it cannot be opened the old file is already closed, the failure is reported on stderr and to the remaining sinks, and the program exits with status 1.", "quantifier": "every path, every clock sequence", "why_tests_cant": "all paths/times", "anchors": ["maa/log.c:log_mkpath", "maa/log.c:_log_check_filename"]}
{"id": "C54", "title": "log facility names", "statement": "log_set_facility followed by log_get_facility returns the same name for every name in the table; an unknown name is fatal.", "quantifier": "every name", "why_tests_cant": "all strings", "anchors": ["maa/log.c:log_set_facility", "maa/log.c:log_get_facility"]}
{"id": "C55", "title": "pr_open descriptor bookkeeping", "statement": "After pr_open the parent holds exactly one new descriptor per CREATE flag, registered with the child's pid; USE descriptors are closed and unregistered; illegal flag combinations abort before any descriptor or process is created; pr_close of a descriptor not registered aborts.", "quantifier": "every flag word, every descriptor table and OS choice of descriptors", "why_tests_cant": "all combinations", "anchors": ["maa/pr.c:pr_open2", "maa/pr.c:pr_close_nowait", "maa/pr.c:pr_close"]}
{"id": "C56", "title": "pr_wait status", "statement": "pr_wait returns the exit code for a normal exit, 128+signal for a fatal signal except SIGPIPE (0), retries on EINTR, 0 if already reaped.", "quantifier": "every wait status and EINTR sequence", "why_tests_cant": "all statuses", "anchors": ["maa/pr.c:pr_wait", "maa/pr.c:pr_spawn"]}
{"id": "C57", "title": "pr_readwrite transfers faithfully", "statement": "For every schedule of partial reads/writes: when pr_readwrite returns, all input was written in order, the output buffer holds the bytes read in order and the return value is their number, never more than outMaxLen. If the output fills the buffer exactly it is treated as end of output (silent truncation); with inLen = 0 the input descriptor is never closed.", "quantifier": "every schedule of select/read/write results", "why_tests_cant": "schedules", "anchors": ["maa/pr.c:pr_readwrite", "maa/pr.c:pr_filter"]}
{"id": "C58", "title": "_pr_shutdown", "statement": "_pr_shutdown kills and reaps every registered child and clears the table; a child with two registered descriptors is killed a second time after having been reaped.", "quantifier": "every descriptor table", "why_tests_cant": "all tables", "anchors": ["maa/pr.c:_pr_shutdown"]}
{"id": "C59", "title": "prs_concrete", "statement": "prs_concrete returns the first concrete name registered for a symbol, NULL if none; after _prs_shutdown the table pointer is left dangling.", "quantifier": "every history", "why_tests_cant": "all histories", "anchors": ["maa/parse-concrete.c:prs_register_concrete", "maa/parse-concrete.c:prs_concrete", "maa/parse-concrete.c:_prs_shutdown"]}
{"id": "C60", "title": "xmalloc family never returns NULL", "statement": "xmalloc/xcalloc/xrealloc return a non-NULL block or exit fatally; xfree(NULL) is fatal; xstrdup returns a fresh equal string.", "quantifier": "every size and allocator outcome", "why_tests_cant": "out-of-memory", "anchors": ["maa/xmalloc.c:xmalloc", "maa/xmalloc.c:xfree", "maa/xmalloc.c:xstrdup"]}
{"id": "C61", "title": "String pool statistics", "statement": "str_pool_get_stats reports the number of strings handed out, the bytes used, the number of str_pool_find/exists calls and the number of those whose string was not interned (the last two reduced to int).", "quantifier": "every history of pool calls", "why_tests_cant": "all histories", "anchors": ["maa/string.c:str_pool_get_stats"]}
{"id": "C62", "title": "String pools own their memory", "statement": "str_pool_destroy and str_destroy release every string, table node and the pool itself, leave other pools' strings intact, and when no pool is left nothing is allocated; the first str_find creates a fresh global pool.", "quantifier": "every history with any number of pools", "why_tests_cant": "all histories and interleavings", "anchors": ["maa/string.c:str_pool_create", "maa/string.c:str_pool_destroy", "maa/string.c:str_destroy", "maa/string.c:_str_check_global"]}
{"id": "C63", "title": "Flag names, lists and destruction", "statement": "flg_name returns a name currently bound to the flag, 'unknown flag' iff there is none; flg_list/dbg_list print every registered name exactly once (dbg_list user names first, library names after, marked); listing and naming change nothing; destroy frees every node and returns to the initial state.", "quantifier": "every history of flag calls", "why_tests_cant": "all histories and name sets", "anchors": ["maa/flags.c:flg_name", "maa/flags.c:flg_list", "maa/debug.c:dbg_list", "maa/debug.c:_dbg_name", "maa/debug.c:dbg_destroy"]}
{"id": "C64", "title": "All timers are printed once", "statement": "tim_print_timers prints exactly one line for every timer started since the last shutdown and none for other names, with the wall, user and system time that tim_get_* report, and changes no timer.", "quantifier": "every history of timer calls", "why_tests_cant": "all tables and iteration orders, with lookups during the iteration", "anchors": ["maa/timer.c:tim_print_timers", "maa/timer.c:_tim_iterator", "maa/hash.c:hsh_iterate_arg"]}
{"id": "C65", "title": "Shutdown frees all timers", "statement": "_tim_shutdown frees every timer entry and the whole table exactly once and leaves the module as before its first use; it can be used again.", "quantifier": "every history of timer calls", "why_tests_cant": "leaks and double frees over all histories", "anchors": ["maa/timer.c:_tim_shutdown", "maa/timer.c:_tim_freer"]}
{"id": "C66", "title": "Error messages with source lines", "statement": "src_parse_error prints 'file:line: ' and the message, in which ``c'' became `c' and `T_name' became `concrete' when a concrete name is registered (unchanged otherwise), then the source line and, under it, blanks up to the offset of the token and one caret per character of the token; src_print_line, src_print_error and src_print_message print the same parts; nothing the user can observe of tokens, lines or places changes. Every message has exactly one such form or runs away (C70).", "quantifier": "every history, token, message and set of registered names", "why_tests_cant": "all messages and histories", "anchors": ["maa/source.c:src_parse_error", "maa/source.c:_src_print_yyerror", "maa/source.c:src_print_error", "maa/source.c:src_print_message", "maa/source.c:src_print_line"]}
{"id": "C67", "title": "cpp line directives", "statement": "src_cpp_line sets the current line to one less than the number in the second word (1 if that is not positive) and, if there is a third word, the file name to it; with fewer than two words it aborts; a number that is not an int is undefined.", "quantifier": "every line, every length argument, every history", "why_tests_cant": "all lines", "anchors": ["maa/source.c:src_cpp_line"]}
{"id": "C68", "title": "src_line needs a NUL", "statement": "src_line on a buffer with no NUL among its first len + 1 bytes never returns normally: it runs past the end of the stored copy.", "quantifier": "every buffer, length and history", "why_tests_cant": "undefined behaviour", "anchors": ["maa/source.c:src_line", "maa/memory.c:mem_strncpy"]}
{"id": "C69", "title": "NULL stream", "statement": "A NULL stream stands for stdout in src_parse_error; src_print_error and src_print_message, documented to do the same, use the NULL stream (undefined) or fail an assertion.", "quantifier": "every state, source and message", "why_tests_cant": "undefined behaviour", "anchors": ["maa/source.c:src_print_error", "maa/source.c:src_print_message", "maa/source.c:src_parse_error"]}
{"id": "C70", "title": "Runaway symbols in messages", "statement": "A message with `T_ and no closing quote is read past its end, and one with a symbol of 1024 characters or more overflows a buffer.", "quantifier": "every such message", "why_tests_cant": "undefined behaviour", "anchors": ["maa/source.c:_src_print_yyerror"]}
{"id": "C71", "title": "Source statistics and release", "statement": "src_get_stats and src_print_stats report the lines, bytes and tokens stored (lines are counted since the start of the program), and src_destroy always succeeds and gives back all the memory of lines and tokens.", "quantifier": "every history", "why_tests_cant": "all histories", "anchors": ["maa/source.c:src_get_stats", "maa/source.c:src_print_stats", "maa/source.c:src_destroy"]}
{"id": "C72", "title": "Pipe ends are not leaked", "statement": "After any sequence of pr_open/pr_open2/pr_close/pr_spawn/pr_filter calls and of the user's own opens and closes: no end of a pipe made by the library is held by two descriptors of the process, nor by the process and a child, nor by two children, a child holds ends of pipes only as its standard streams, and every end the process holds is registered. Hence after pr_close_nowait nobody holds that end: a child reading its input sees end of file, a child writing gets a broken pipe.", "quantifier": "every history of calls, every choice of descriptors by the OS", "why_tests_cant": "a leak shows only for particular interleavings of opens and closes", "anchors": ["maa/pr.c:pr_open2", "maa/pr.c:pr_open", "maa/pr.c:pr_close_nowait", "maa/pr.c:pr_close"]}
{"id": "C73", "title": "The pid of a descriptor", "statement": "pr_close_nowait (and pr_close, which waits for it) uses the pid of the child that was started with the other end of that very pipe as one of its standard streams, even when descriptor numbers have been reused many times.", "quantifier": "every history of calls", "why_tests_cant": "all histories with descriptor reuse", "anchors": ["maa/pr.c:pr_open2", "maa/pr.c:pr_open", "maa/pr.c:pr_close_nowait", "maa/pr.c:pr_close"]}
{"id": "C74", "title": "pr_spawn inherits everything", "statement": "The child of pr_spawn has exactly the descriptors of the process, including the ends of pipes registered by pr_open (which children of pr_open do not get).", "quantifier": "every history of calls", "why_tests_cant": "all histories", "anchors": ["maa/pr.c:pr_spawn"]}
{"id": "C75", "title": "Pitfalls of pr_open", "statement": "CREATE with a NULL pointer, or descriptors outside the limit read at the first call: memory outside the table is accessed after the fork. If stdin of the process is closed and a pipe gets descriptor 0, the child of CREATE_STDIN has no stdin. One descriptor handed over as stdout and stderr: the child's stderr is the parent's. USE_STDOUT with descriptor 1 (USE_STDERR with 2) closes that stream in both processes.", "quantifier": "every state, every flag word", "why_tests_cant": "all combinations", "anchors": ["maa/pr.c:pr_open2"]}
{"id": "C76", "title": "maa_init", "statement": "maa_init starts the timer total at the current clock (keeping what it reported before, if it existed), sets the program name to the part of the argument after the last slash, and binds the names .memory, .time, .pr, .sl, .src, .parse to the library's flags; a name bound before keeps its flag. It turns no flag on or off and changes nothing else. After a fresh start dbg_set of one of these names turns on exactly that flag.", "quantifier": "every state any interleaving of library calls reaches, every name, clock and allocator", "why_tests_cant": "all histories and all ways memory can run out", "anchors": ["maa/maa.c:maa_init", "maa/debug.c:_dbg_register", "maa/timer.c:tim_start", "maa/error.c:err_set_program_name"]}
{"id": "C77", "title": "maa_shutdown", "statement": "In any session in which maa_init was called, no loop over the global string pool is active and waitpid answers: maa_shutdown prints the version if .memory or .time is on, the global pool's statistics if .memory is on, sends SIGKILL to and waits for the process of each registered descriptor in order of descriptors, and prints one line per timer if .time is on, total being stopped just before. Then timers, both kinds of flags, the table of processes, the global pool with its strings, and the memory of lists and skip lists are all freed without leaving a node of any table; descriptors, log, user's pools and the table of concrete names are untouched. It can end otherwise only because memory for the statistics runs out.", "quantifier": "every state any interleaving of library calls reaches, every clock and answers of waitpid", "why_tests_cant": "all histories", "anchors": ["maa/maa.c:maa_shutdown"]}
{"id": "C78", "title": "A second session", "statement": "If no list, skip list, concrete name or registered descriptor was left, then after maa_shutdown the library is as if never used, except for pools the user created: every property of every module holds of what follows, maa_init included.", "quantifier": "every state", "why_tests_cant": "all histories before and after", "anchors": ["maa/maa.c:maa_shutdown", "maa/maa.c:maa_init"]}
{"id": "C79", "title": "maa_shutdown aborts without maa_init", "statement": "maa_shutdown aborts if the timer total does not exist, hence if maa_init was not called or if it is called twice, and if a loop over the global string pool is active or was left before its end.", "quantifier": "every state", "why_tests_cant": "all histories", "anchors": ["maa/maa.c:maa_shutdown", "maa/timer.c:tim_stop", "maa/hash.c:hsh_destroy"]}
{"id": "C80", "title": "What maa_shutdown leaves dangling", "statement": "The table of concrete names is not shut down although its keys are strings of the global pool: afterwards looking up a registered symbol reads freed memory. A list that was not destroyed keeps its length, refuses (abort) additions, and touching or destroying it is undefined unless empty. Any use of a skip list that was not destroyed is undefined and its entries are never freed.", "quantifier": "every state, list, skip list, symbol", "why_tests_cant": "undefined behaviour may look right in a test; all histories", "anchors": ["maa/maa.c:maa_shutdown", "maa/parse-concrete.c:prs_concrete", "maa/list.c:_lst_shutdown", "maa/sl.c:_sl_shutdown"]}
{"id": "C81", "title": "maa_version", "statement": "maa_version returns Libmaa followed by the three numbers in decimal separated by dots, within its 80-byte buffer, and maa_version_major, _minor and _teeny return these numbers.", "quantifier": "all triples of int", "why_tests_cant": "all numbers", "anchors": ["maa/maa.c:maa_version", "maa/maa.c:maa_version_major"]}
{"id": "C82", "title": "Printed statistics", "statement": "hsh_print_stats, set_print_stats, mem_print_string_stats, mem_print_object_stats, str_pool_print_stats and str_print_stats write to the given stream, or to stdout if it is NULL, exactly the documented lines, in which every number is the one the corresponding get_stats call returns, i.e. the true number of entries, used buckets, strings, bytes, objects, reuses, lookups and failures, in decimal. The quotient is printed only if a bucket is used. A pool is called global iff it is the global pool; for a NULL pool all numbers are 0. Nothing changes; NULL memories abort.", "quantifier": "every object any history of calls reaches, every stream", "why_tests_cant": "all histories and all numbers", "anchors": ["maa/hash.c:hsh_print_stats", "maa/set.c:set_print_stats", "maa/memory.c:mem_print_string_stats", "maa/memory.c:mem_print_object_stats", "maa/string.c:str_pool_print_stats", "maa/string.c:str_print_stats"]}
{"id": "C83", "title": "Printed contents", "statement": "hsh_key_strings prints every key of a table with string keys exactly once, each followed by two blanks, and ends a line as soon as it has at least 60 columns, and at the end; lst_dump prints the data of a list in order, one line each. Neither changes the object.", "quantifier": "every table and list any history of calls reaches", "why_tests_cant": "all histories, keys and orders of chains", "anchors": ["maa/hash.c:hsh_key_strings", "maa/hash.c:_hsh_key_strings", "maa/list.c:lst_dump"]}
{"id": "C84", "title": "Functions on the global string pool", "statement": "str_find, str_findn, str_copy, str_grow and str_finish do what the pool functions do on the global pool, which is created, empty, if it does not exist; the only failure this adds is lack of memory. str_findn looks up the first length bytes (fewer if a NUL comes first), which need not be terminated; a negative length or INT_MAX never returns a string. Without a global pool str_exists and str_copyn dereference NULL, although documented like str_copy, and str_get_stats reports zeros. str_pool_copyn and str_copyn store length + 1 bytes of the argument: the copy is a string of that length only if a NUL follows, and an argument of exactly length bytes is read past its end. str_pool_grow appends to the string under construction and changes nothing else.", "quantifier": "every state any history of pool calls reaches, every argument and allocator", "why_tests_cant": "all histories, lengths and failures of malloc", "anchors": ["maa/string.c:str_find", "maa/string.c:str_findn", "maa/string.c:str_copy", "maa/string.c:str_copyn", "maa/string.c:str_grow", "maa/string.c:str_finish", "maa/string.c:str_pool_copyn", "maa/string.c:str_pool_grow", "maa/string.c:_str_check_global"]}
{"id": "C85", "title": "NULL string pools, and statistics without memory", "statement": "str_pool_destroy(NULL) ends the program with a fatal error and every other str_pool_ call on NULL, except str_pool_get_stats, dereferences it. mem_get_string_stats and mem_get_object_stats abort on NULL. All calls that return statistics in allocated memory end the program with a fatal error exactly when that memory cannot be allocated; they allocate it before they look at their argument.", "quantifier": "every state, argument and allocator", "why_tests_cant": "all states and failures of malloc", "anchors": ["maa/string.c:str_pool_destroy", "maa/string.c:str_pool_get_stats", "maa/memory.c:mem_get_string_stats", "maa/memory.c:mem_get_object_stats", "maa/source.c:src_get_stats"]}
{"id": "C86", "title": "Self-organizing lists", "statement": "hsh_retrieve and set_member move the entry they find to the front of its bucket and leave every other entry where it was, as later iterations show; a lookup that finds nothing, or is made while the object is read-only (as during an iteration), changes no order. A new key goes to the front of its bucket. So a second lookup in a row of a key that is present is counted as a hit, in hash tables and in string pools.", "quantifier": "every table, set and pool any history of calls reaches, every key, hash and comparison function that fit together", "why_tests_cant": "all histories, orders and collisions", "anchors": ["maa/hash.c:hsh_retrieve", "maa/hash.c:hsh_insert", "maa/set.c:set_member", "maa/string.c:str_pool_exists"]}
{"id": "C87", "title": "Programs on the global string pool", "statement": "Any program of calls on the global string pool behaves as a table of strings: the pool appears at the first call that creates it and vanishes with str_destroy; str_find and str_findn return the same string for the same text and a new one for a new text, str_copy, str_copyn and str_finish always a new one, the strings keep their contents until str_destroy, and str_unique gives the prefix followed by the first number from its counter on that makes a new string; the counter starts at 1 and is not reset by str_destroy. Without a pool str_exists, str_copyn and str_unique are undefined, str_destroy does nothing and the statistics are zero. After str_destroy nothing is left allocated.", "quantifier": "every sequence of calls, any arguments, any allocator behaviour", "why_tests_cant": "unbounded sequences of calls with any strings and hash collisions", "anchors": ["maa/string.c:str_find", "maa/string.c:str_findn", "maa/string.c:str_exists", "maa/string.c:str_copy", "maa/string.c:str_copyn", "maa/string.c:str_grow", "maa/string.c:str_finish", "maa/string.c:str_unique", "maa/string.c:str_destroy", "maa/string.c:str_get_stats"]}
{"id": "C88", "title": "Object pools recycle the last returned object first", "statement": "An object given to mem_free_object is the one the next mem_get_object on that pool returns, with every byte of every object unchanged and without asking malloc; over any program, returned objects come back in the opposite order of their return, and a new block is allocated only when none is left.", "quantifier": "every legal history of any number of pools, every allocator, every live object", "why_tests_cant": "all interleavings of get/free over several pools", "anchors": ["maa/memory.c:mem_get_object", "maa/memory.c:mem_free_object", "maa/stack.c:stk_pop", "maa/stack.c:stk_push"]}
{"id": "C89", "title": "Debugging messages appear exactly while their flag is on", "statement": "PRINTF(flag, message) sends the message, exactly as log_info does, to every open log sink if some bit of the flag is on when it runs, and has no effect whatever otherwise; flags registered, set, cleared or destroyed and sinks opened and closed in between never change this.", "quantifier": "every interleaving of calls of debug.c, log.c, error.c and PRINTF, every flag of 32 bits, every behaviour of the clock and the file system", "why_tests_cant": "unbounded interleavings of flag changes and sink changes", "anchors": ["maa/maa.h:PRINTF", "maa/debug.c:dbg_test", "maa/log.c:log_info"]}
{"id": "C90", "title": "Hash tables do not interfere", "statement": "Any number of hash tables in use at the same time, created and destroyed at any time, behave as independent finite maps although all their nodes come from one malloc heap: a call on one table never changes what another contains, also when one table is being copied into another inside hsh_iterate, and the memory holds exactly one node per pair of the live tables.", "quantifier": "every program over any number of tables, every hash and compare function per table, every allocator", "why_tests_cant": "unbounded numbers of tables, interleavings and heap layouts", "anchors": ["maa/hash.c:hsh_insert", "maa/hash.c:hsh_delete", "maa/hash.c:hsh_retrieve", "maa/hash.c:hsh_iterate_arg", "maa/hash.c:hsh_destroy"]}
{"id": "C91", "title": "Debugging source.c changes nothing but adds its messages", "statement": "With MAA_SRC on, src_line, src_cpp_line, src_get, src_parse_error and src_print_error end as they do with it off: same result, same state, same text on the stream; in addition exactly one message is sent per call, with the line number and line, the cpp line number and file, the token position, or the offset and length of the token; with it off nothing is sent. The one exception is src_get before any file was named, which formats a NULL file name when debugging is on.", "quantifier": "every history of source.c calls, every history of flags, every state of the log, every behaviour of clock and files that lets the log be written", "why_tests_cant": "unbounded histories on both sides, and every state of the log sinks", "anchors": ["maa/source.c:src_line", "maa/source.c:src_cpp_line", "maa/source.c:src_get", "maa/source.c:_src_print_error", "maa/maa.h:PRINTF"]}
{"id": "C92", "title": "Debugging pr.c changes nothing but adds its messages", "statement": "With MAA_PR on, pr_wait, pr_close, pr_open, pr_open2, pr_spawn, pr_readwrite and pr_filter end as they do with it off, and send in addition exactly the documented messages in order: the command, the descriptors made or handed over, the pid, each select, write and read of the transfer with its counts, the wait and the exit status. Two calls are different with debugging on: a command without words (its first word is NULL and is printed), and a transfer without input whose input descriptor is 1024 or more (tested in a select set).", "quantifier": "every history of pr.c calls, every command, set of flags, schedule of select/read/write/waitpid answers, every history of debugging flags, every state of the log", "why_tests_cant": "schedules and histories are unbounded", "anchors": ["maa/pr.c:pr_wait", "maa/pr.c:pr_open2", "maa/pr.c:pr_readwrite", "maa/pr.c:pr_spawn", "maa/pr.c:pr_filter", "maa/maa.h:PRINTF"]}
{"id": "C93", "title": "Sets do not interfere", "statement": "Any number of sets in use at the same time, created and destroyed at any time and combined by set_add, set_del, set_union, set_inter, set_diff and set_equal, behave as independent finite sets although all their nodes come from one malloc heap: a call changes only the set it is documented to change, and the memory holds exactly one node per element of the live sets.", "quantifier": "every program over any number of sets, every hash and compare function per set, every allocator", "why_tests_cant": "unbounded numbers of sets, interleavings and heap layouts", "anchors": ["maa/set.c:set_insert", "maa/set.c:set_delete", "maa/set.c:set_member", "maa/set.c:set_union", "maa/set.c:set_inter", "maa/set.c:set_diff", "maa/set.c:set_add", "maa/set.c:set_del", "maa/set.c:set_equal", "maa/set.c:set_destroy"]}
{"id": "C94", "title": "What growing a hash table or a set costs", "statement": "An insertion that finds fewer than two buckets per entry grows the table, copying every node before the old ones are released: memory for twice the entries is enough for it and anything less makes the program die, even if the key is already present; any other insertion needs one node. The same holds of set_insert. Over any history in which the table never had more than p entries and grew r times, growing copied at most 1.5p + r entries and walked at most 3p buckets, and 3^r < 6p.", "quantifier": "every history of calls on a table, every hash and compare function, every allocator", "why_tests_cant": "histories are unbounded, and the memory bound is about every point at which malloc can fail", "anchors": ["maa/hash.c:hsh_insert", "maa/hash.c:_hsh_insert", "maa/hash.c:_hsh_destroy_buckets", "maa/hash.c:hsh_get_stats", "maa/set.c:set_insert", "maa/set.c:_set_insert"]}
{"id": "C95", "title": "Iteration order is a function of the calls", "statement": "The order in which a hash table or a set is iterated is determined by the calls made, the hash function and the compare function: a new key comes first among the keys of its bucket, growing puts the keys into more buckets and reverses them within each, deleting a key leaves the others in their places, a successful lookup in a table that is not read-only brings the key to the front of its bucket, and no other call changes it. In particular two runs of the same calls that find the memory they need give the same results in the same order wherever malloc places the nodes.", "quantifier": "every history of calls, every hash and compare function, every pair of allocators", "why_tests_cant": "histories and hash functions are unbounded, and a test cannot vary where malloc places memory", "anchors": ["maa/hash.c:hsh_insert", "maa/hash.c:hsh_delete", "maa/hash.c:hsh_retrieve", "maa/hash.c:hsh_iterate", "maa/set.c:set_insert", "maa/set.c:set_delete"]}
{"id": "C96", "title": "Pipelines of any length", "statement": "Opening n commands one after the other with pr_open(cmd, PR_USE_STDIN|PR_CREATE_STDOUT, &fdin, &fdout, NULL), each with the output of the one before as its input: each child runs its own command, writes to its own new pipe, reads the pipe of the child before it (the first: the descriptor given, or /dev/null for 0) and has the stderr of the parent and the other descriptors the parent had, without those the library made; the parent is left with exactly one new descriptor, the reading end of the last pipe, and has lost the first input. The writing end of each pipe is held by its child alone and the reading end by the next child alone, so that end of file and broken pipes travel along the pipeline. Closing the last descriptor gives the parent its descriptors back and waits for the last child only; the other children are reached by no later call, shutdown included.", "quantifier": "every number of commands and every command line, every history of calls before, every choice of descriptors and process ids by the OS, every failure of the OS", "why_tests_cant": "the number of commands and the descriptors the OS hands out are unbounded; a leaked end shows only as a hang", "anchors": ["maa/pr.c:pr_open", "maa/pr.c:pr_open2", "maa/pr.c:pr_close", "maa/pr.c:_pr_shutdown", "tests/pr/prtest.c:main"]}
{"id": "C97", "title": "The order of a string pool is a function of the strings", "statement": "Iterating a string pool visits its strings in an order determined by the calls made alone: a string not there yet comes first in its bucket (after the table has grown, which reverses each bucket), asking for a string that is there, by find or exists, moves it to the front of its bucket, copying, growing, reading and iterating change nothing, and no call on one pool changes another. Two runs of the same calls that find the memory they need give the same results in the same order, wherever malloc places the strings and nodes and whatever follows the argument strings in memory.", "quantifier": "every program over any number of string pools, every pair of allocators, all strings", "why_tests_cant": "programs and strings are unbounded, and a test cannot vary where malloc places memory", "anchors": ["maa/string.c:str_pool_find", "maa/string.c:str_pool_exists", "maa/string.c:str_pool_finish", "maa/string.c:str_pool_iterate", "maa/hash.c:hsh_retrieve", "maa/hash.c:hsh_insert"]}
{"id": "C98", "title": "Statistics are a function of the calls", "statement": "Every number in the statistics of a hash table, a set or a string pool is determined by the calls made: resizings counts the insertions that found the table more than half full (an insertion of a key that is there included), retrievals counts the lookups, hits those whose key was the first of its bucket at that moment, misses those whose key was not there; entries, buckets used, singletons and the longest bucket are those of the entries present. set_inter and set_diff look each element of the first set up in the second, set_equal, for sets of equal size, the elements of the first set up to the first one missing, set_add, set_del and set_union nothing; str_pool_find and str_pool_exists look up once, str_pool_finish not at all. Where malloc places memory does not show in any of the numbers.", "quantifier": "every program over a hash table, any number of sets or any number of string pools, at every moment; every hash and compare function, every pair of allocators", "why_tests_cant": "programs are unbounded, and hits depend on the whole history through the order within each bucket", "anchors": ["maa/hash.c:hsh_get_stats", "maa/hash.c:hsh_retrieve", "maa/hash.c:hsh_insert", "maa/set.c:set_get_stats", "maa/set.c:set_inter", "maa/set.c:set_diff", "maa/set.c:set_equal", "maa/string.c:str_pool_get_stats"]}
{"id": "C99", "title": "alloca keeps the blocks of functions that have not returned", "statement": "With the portable alloca, a block stays in memory until the function that got it has returned, whatever it calls in between, and blocks of functions that have not returned do not overlap; the size is the one asked for and alloca(0) gives NULL. A call frees exactly the blocks got further along the stack than the caller, so blocks of functions that returned go away at the next call from further up, and alloca(0) in the outermost function leaves only that function's own blocks; nothing is freed twice or lost. Until then the blocks of a function called in a loop pile up, one per call, and a function whose calls of alloca find the stack at different depths can lose a block while it runs. The direction in which the stack grows is found at the first call.", "quantifier": "every program of calls, returns and allocas on a stack growing in either direction, every allocator", "why_tests_cant": "programs are unbounded, and a test runs on one stack direction and one allocator", "anchors": ["maa/alloca.c:alloca", "maa/alloca.c:find_stack_direction"]}
{"id": "C100", "title": "get_rand gives repeatable numbers within the bounds", "statement": "After init_rand, whatever was called before, the next 4998 calls of get_rand(ll, ul) with ll <= ul and a width that is an int return, and the n-th of them depends only on n and its own bounds: it is ll + r (ul - ll) rounded down, where r is the n-th number of the table (except that, when this is an integer, errors of double arithmetic may give the integer before). The value is at least ll, and less than ul unless ll = ul. The 4999th call aborts, so do bounds the wrong way round, and no call ever returns a value outside its bounds.", "quantifier": "all positions in the table, all pairs of int bounds, all sequences of calls", "why_tests_cant": "There are 2^63 pairs of bounds for each of 5000 positions; the result goes through three roundings of doubles, and a rounding error could leave the interval for some of them.", "anchors": ["maa/rnd.c: init_rand, get_rand, rnd"]}
{"id": "C101", "title": "The skip list's consistency check never fires, and would catch any disorder", "statement": "Compiled with SL_DEBUG, the skip list functions check the list they work on. For calls that obey the rules the check never fires, so insert, delete, find and iterate behave as in the plain build. The check is exact: on any list whose entries form a chain it passes if neighbouring keys ascend and the stored count is the number of entries, and stops the program otherwise. The dump of that build prints the data in order with the forward pointers of their entries, and reads no pointer that was never written.", "quantifier": "all histories of skip list calls, all levels random() may choose, all keys and compare functions; for the check itself all worlds, also corrupted ones", "why_tests_cant": "The checking build is not the one that is tested, and a check that never fires says nothing about the lists it was not run on.", "anchors": ["maa/sl.c: _sl_check, _sl_check_entry, _sl_locate, sl_insert, sl_delete, sl_iterate, sl_iterate_arg, _sl_dump"]}
{"id": "C102", "title": "A call on a destroyed skip list is caught", "statement": "After sl_destroy, every call on that list (insert, delete, find, iterate, dump, a second destroy) stops the program with an internal error instead of using freed memory, whatever is done to other lists in between, until sl_create returns the same address for a new list or the library is shut down. A live list never trips over this check.", "quantifier": "all histories of skip list calls with any number of lists created and destroyed", "why_tests_cant": "Whether the memory of a destroyed list still holds its mark depends on everything the pool of lists did since; tests try one order.", "anchors": ["maa/sl.c: _sl_check_list, sl_create, sl_destroy", "maa/maa.h: SL_LIST_MAGIC, SL_LIST_MAGIC_FREED", "maa/memory.c: mem_get_object, mem_free_object"]}
{"id": "C103", "title": "What a refused skip list call prints", "statement": "Inserting a datum whose key is present, or deleting one whose key is absent, stops the program with abort() after an internal error from sl_insert or sl_delete that names the datum as the list's print function shows it (%p without one); sl_delete dumps the whole list, in order and numbered, on stdout first. A NULL list is reported as \"skip list is null\", a destroyed one by its magic number, missing compare and key functions by name, each with the name of the called function; the report goes to stderr and to the log. All other calls print nothing.", "quantifier": "all histories of skip list calls with any print functions, and all states of the log and its sinks in which the log can be written", "why_tests_cant": "The refusal ends the program, so a test sees one message per run, for one list and one state of the log.", "anchors": ["maa/sl.c: PRINT, _sl_print, _sl_check_list, sl_create, sl_insert, sl_delete, _sl_dump", "maa/error.c: err_internal"]}
