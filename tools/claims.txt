# property | status | note
C01 | partial | C01_unique_keys_stay_unique holds in every state of class wide (every operation but set moves, moves of vaults that sets or references depend on, copies of vaults with unique keys, address reuse and a set's GetRecord into a reference holding a foreign record). Missing: the excluded operations; two _refuted theorems show they really break uniqueness.
C02 | proved | For every reachable state of class wide (Spec.reach false) and every parameter list; C02_create_succeeds_iff gives the exact condition of success. "Nothing leaks" is C18_allocated_iff_used.
C03 | proved | For every reachable state of class wide and every well-typed parameter list.
C04 | partial | Soundness and exactness of every query, for all histories of class wide and all iteration orders. Missing: histories with moves or with a reference holding a foreign record passed to a set's GetRecord; C04_foreign_record_refuted shows the latter breaks the property.
C05 | partial | The claim is false of the code (C05_sharer_lost_refuted: SetData drops every record sharing the old value from the ordered index). C05_setdata_effect_on_index is the exact effect for every state; C05_setdata_keeps_others_partial the part of the claim that holds.
C06 | partial | Equality queries: proved. Ordered queries: false of the code (C06_sharer_lost_refuted); C06_erase_effect_on_ordered_index is the exact effect, C06_others_found_in_order_partial the part that holds.
C07 | partial | Proved for references bound to a vault. Missing: references bound to a record set (returned by a set's GetSortedRecords); C07_set_reference_refuted shows the claim is false for them.
C08 | partial | C08_setdata_answer is the exact answer for every argument, with nothing changed on failure. The "accepted iff free" half is false of the code (C08_unique_free_value_refuted: unique keys can never be changed).
C09 | proved | For every source (vault, or set of class safe), bound, inclusion flag, predicate and iteration order.
C10 | partial | C10_complex_request_exact is the exact result whenever there is one, and C10_undefined_iff the exact condition of undefined behaviour (the request comes to an interval whose ends have different types; C10_mixed_types_refuted is one), so nothing is missing but the tree shapes for which the claim is false.
C11 | partial | Requests: exact. GetRecords/EraseRecords: exact for every limit; limit 0 handles one record, so the claim as stated is refuted there (two _refuted theorems).
C12 | proved | For every reachable state of class wide, key, limit and callback; insertion order of equal values by C12_create_after_equals and C12_setdata_after_equals.
C13 | proved | For every history of class wide.
C14 | proved | For every reachable state of class wide.
C15 | proved | For every reachable state of class wide, including the sets of the vault.
C16 | partial | C16_generated_exact and C16_without_generator give the exact outcome. "The vault is unchanged on failure" is false of the code: an index without key is left behind (C16_failed_leaves_index_refuted).
C17 | partial | Proved for vaults (C17_updatekey_exact, C17_default_in_force). Missing: GetKeyValue of a set, which keeps the old default (C17_set_default_stale_refuted).
C18 | proved | C18_allocated_iff_used for all histories of class wide, C18_ref_ops_defined, and C18_safe_programs_defined: no operation of class safe runs into undefined behaviour.
C19 | proved | For all histories of class wide.
C20 | proved | For all states.
C21 | partial | Proved for sets filled by requests, AddRecord, copy construction and assignment (class safe). Missing: sets built by Join/Union/Intersection, for which the claim is false (C21_joined_set_refuted): C21_set_follows_iff_registered proves for every set of every reachable state that it follows an update exactly when the record is registered with it; C21_join_registers_nothing, C21_intersection_registers_nothing and C21_subtract_keeps_registered say that Join, Intersection, Exclude and Intersect register nothing, C21_union_registers_first that Union registers the records of its first operand only.
C22 | partial | As C21: proved for class safe, refuted for joined sets (C22_joined_set_refuted); exact for every set: C22_set_loses_iff_registered.
C23 | proved | For all sets in all states of class wide, including invalid, foreign and identical operands; in the safe class also what the operations do to the answers of the resulting set (indexes).
C24 | partial | Proved but for one clause: "the removed record does not come back" is false (C24_comes_back_refuted); C24_removed_stays_out proves it for Clear/Reset and for histories without SetData on the record. C24_removal_keeps_registered is the cause: removal leaves the record registered with the set, so a later SetData refiles it there (C21_set_follows_iff_registered).
C25 | partial | Copies: proved. Moves: C25_move_exact gives the exact effect of moving a set to a new variable; the claim that it answers queries like the original is refuted (C25_moved_set_refuted, C25_move_assigned_set_refuted).
C26 | proved | For every reachable state of class wide.
C27 | partial | Values, identities and independence: proved for vaults without unique keys. Uniqueness and updated defaults are not copied (two _refuted theorems).
C28 | partial | The claim is false of the code; exactly where is proved: C28_roundtrip_iff (rows are read back as they were iff every field is quoted by the writer or has no carriage return and no separator in it, and no row ends with an empty field), and C28_reads_back_exact says what is read back of any rows at all. Missing: separators that are a quote or a line end character.
C29 | partial | The claim is false of the code; exactly where is proved, for separator ',': C29_field_count_iff. For other separators C28_reads_back_exact gives the fields read. C29_last_empty_refuted: a row whose last field is empty.
C30 | partial | C30_negative_read_iff is the exact condition under which the chunked reader differs (reads before its buffer); everywhere else the equivalence is proved. C30_negative_read_refuted is a file that meets it.
C31 | proved | For every text.
C32 | partial | The claim is false of the code; exactly where is proved: C32_roundtrip_iff (all types but the 8-bit integers, all values but the least int32 and int64) and C32_otherwise.
C33 | partial | Exact for every text whose number fits; C33_undefined_iff is the exact condition of signed overflow, refuted there.
C34 | partial | Proved for vaults whose names and values survive the CSV format; four _refuted theorems show the conditions are needed.
C35 | partial | C35_loads_exactly_partial and C35_defined are exact for files without over-long rows; five _refuted theorems show where the claim fails.
C36 | partial | Proved for keys and strings that need no escaping (C36_vault_strings etc. give the exact condition); the code never escapes, six _refuted theorems.
C37 | partial | C37_print_exact is the exact text for every content; C37_aligned holds for values without line breaks. Seven _refuted theorems show where the claim fails.
C38 | proved | For every pair of 64-bit numbers.
C39 | partial | Proved for schedules without spurious wake-ups; with one, exclusion fails (C39_spurious_wakeup_refuted). Exactly then: a writer and a reader are inside together only after a spurious wake-up of that writer while that reader was inside (C39_only_after_spurious_wakeup_partial), and after every such wake-up (C39_spurious_wakeup_breaks_partial). Writers exclude each other in every case.
C40 | proved | For every number of threads and every interleaving, with or without spurious wake-ups (see theorem statements).
C41 | partial | Proved for programs in which a thread uses one recursive mutex and nests properly; two _refuted theorems show both conditions are needed.
C42 | partial | Order, stop and report: proved. Atomicity: refuted (C42_not_atomic_refuted).
C43 | proved | For all histories of class wide.
C44 | partial | First half proved exactly in every state (C44_move_exact, C44_move_assign_exact); the second half, that references and sets follow, is false of the code for every reference and set (C44_references_do_not_follow, C44_sets_do_not_follow, C44_moved_vault_refuted).
C45 | proved | For all histories of class wide.
C46 | proved | For all histories of class wide (sets: class safe).
C47 | proved | For all histories of class wide that leave shared values alone (the condition is part of the claim).
C48 | proved | Exact effect of each reference operation in every state of class wide, and C48_changed_only_by_name (no hypothesis on the state at all, all operations including moves).
C49 | proved | Class wide for everything except key types and GetKeyValue of sets, which are for class safe.
C50 | partial | Proved for every program over any number of DataSaver variables: GetData, Str and GetDataType of a DataSaver that holds a value, GetData of an empty one, exact condition for undefined behaviour, frame. Not proved because false: an empty DataSaver reports no type (C50_stale_type_refuted).
C51 | proved | For every program over any number of DataSaver variables (construction, copy, assignment, self-assignment, Swap, SetData, ResetData, destruction). The vector<T> constructors are covered by the same model of SetData.
C52 | partial | Proved: only ResetData calls the function, at most once, with the value being reset. The documented call on destruction does not happen (C52_not_called_by_destructor_refuted), and after a copy it happens twice for one value (C52_called_twice_refuted).
C53 | proved | For every program over one container and any number of DataSaver variables, for the containers with unique keys and the multi-containers. Iteration order of the standard containers is not modelled; which of several equal keys find picks is arbitrary (a parameter of each operation).
C54 | partial | Flag and code: for every operation in every state (no hypothesis), except SetData with an empty list, which is refuted (C54_empty_setdata_refuted). WrongKey/WrongType and "failure changes nothing": every state of class wide (queries on sets: class safe).
C55 | proved | For every separator, file size, quoting and mixture of line ends. Blank lines ended by LF are treated inconsistently (C29_blank_lines_refuted) and are excluded in the quantifier.
C56 | partial | The property is false when records are printed (VaultRecordRef::ToJson, ToStrings, PrintRecord lock the record before the vault): C56_dump_and_set_refuted, C56_dump_and_erase_refuted, C56_dump_read_and_write_refuted. Exactly which programs are safe is proved (C56_finish_exactly_partial): all but those with a standoff (DumpSpec.standoff) - one thread prints a record, another makes a call that takes that record's mutex inside the vault's lock, and that call or a third thread writes; with a standoff some interleaving sticks for good (C56_standoff_partial). Without printing, and without writers, it is proved unconditionally (C56_can_always_finish_partial, C56_only_readers_partial). The lock of the vault is the modelled RecursiveReadWriteMutex itself, without spurious wake-ups; one vault.
C57 | partial | Exactly which programs race is proved (C57_race_exactly_partial): some interleaving has a data race iff two threads make calls in the relation RaceSpec.can_race, a table of what each call reads and writes of the record sets, of the vault's list of sets and of the list of file errors, under which lock (everything else is never raced on: C57_without_sets_partial); any two threads that fill sets race (C57_two_requests_partial). Also proved race-free: every program that keeps to some rules (LockSpec.clean): each record set is used by one thread, one thread at most fills sets by requests or by Intersection, Clear and == are called only on sets that no other thread's calls come across, GetErrorsInLastReadedFile is called only by the thread that reads files and drops the vault. Each exception is a real race: C57_requests_refuted, C57_intersections_refuted, C57_request_and_read_refuted, C57_clear_and_erase_refuted, C57_compare_and_erase_refuted, C57_errors_refuted, C57_drop_refuted. The model is the locking skeleton (LockModel.v): which locks a call takes in which order and which data it touches under them.
C58 | proved | Linearizability over the step-by-step model of the vault's RecursiveReadWriteMutex: inside its lock a writing call may change the memory to anything at all in any number of steps, and a reading call look at it any number of times; what they then answer is assumed to be what the code answers when it runs alone only if nothing they saw was changed by others (C58_answers_stable shows the reading calls are stable in this sense). The functions named in the quantifier only; condition variables do not wake spuriously.
C59 | proved | Step-by-step model of the reference counter of one record (LifeModel.v); the vault's lock is an abstract readers-writer lock there (its implementation is C39-C45). Vault functions are assumed to hold the lock C57 shows them to hold.
C60 | partial | Grammar, accuracy and exact whole numbers are proved for all texts whose parts fit an int (and, for accuracy, at most 37 digits after the point, leading zeros included); other decimal fractions are signed overflow (C60_undefined_iff, C60_overflow_refuted). The number read need not be the nearest one (C60_nearest_refuted). Platform assumptions in DESIGN.md.
C61 | proved | std::to_string is printf's %f, taken to be exact as in glibc; one NaN.
C62 | partial | Proved below 2^31 - 5/10^7; from there on reading the text is signed overflow (C62_unreadable_iff). For doubles the text is stable. For floats it is proved stable below 8, the number itself is exact from 16 on, and between 8 and 16 the text can change (C62_float_text_changes_refuted). Numbers below 5/10^7 become zero (C62_not_identity_refuted).
C63 | proved | Every vault has its own modelled mutex (MultiModel.v), the recursion counters belong to the thread as in the code; no spurious wake-ups. A thread may even call ReadUnlock on a mutex it has not locked, as the code does for a write call on a second vault; the sum of all reader counters over the vaults in question still cannot stay positive while everybody waits.
C64 | partial | Proved when every vault is used by one thread only, or by many threads none of which changes it (then in any nesting, and as the source of assignments), or shared and changed but used only outside calls on other vaults (callbacks may use the same vault again, private vaults and unchanged vaults; the copy constructor may read a shared vault into a private one), with C57's rules on shared vaults. Without that it is false: C64_assign_refuted (A = B takes no lock on B), C64_callback_reads_refuted, C64_callback_writes_refuted, C64_generator_reads_refuted, C64_move_refuted.
C65 | proved | For all calls of the lock models, including ToJson, ToStrings and PrintRecord of references, when every call returned.
C66 | proved | Model of the trace of one thread (the trace is thread_local); the text printed by addr2line is not modelled. C66_undefined_iff: PrintBackTrace outside any traced function (always, in a release build) reads the front of an empty vector, and errors more than 1020 calls deep read beyond the array.
C67 | proved | For every reachable state of class wide; the excluded operations are those excluded everywhere (see C01). Vaults: the objects are equal but for the list of registered sets; sets: equal.
