{
 "claims": [
  {
   "property": "C01",
   "status": "partial",
   "theorems": [
    "C01_unique_keys_stay_unique",
    "C01_moved_vault_refuted",
    "C01_set_getrecord_refuted"
   ],
   "note": "C01_unique_keys_stay_unique holds in every state of class wide (every operation but set moves, moves of vaults that sets or references depend on, copies of vaults with unique keys, address reuse and a set's GetRecord into a reference holding a foreign record). Missing: the excluded operations; two _refuted theorems show they really break uniqueness."
  },
  {
   "property": "C02",
   "status": "proved",
   "theorems": [
    "C02_failed_create_changes_nothing",
    "C02_create_succeeds_iff"
   ],
   "note": "For every reachable state of class wide (Spec.reach false) and every parameter list; C02_create_succeeds_iff gives the exact condition of success. \"Nothing leaks\" is C18_allocated_iff_used."
  },
  {
   "property": "C03",
   "status": "proved",
   "theorems": [
    "C03_create_stores_exactly"
   ],
   "note": "For every reachable state of class wide and every well-typed parameter list."
  },
  {
   "property": "C04",
   "status": "partial",
   "theorems": [
    "C04_request_sound",
    "C04_getrecord_exact",
    "C04_getrecords_exact",
    "C04_foreign_record_refuted"
   ],
   "note": "Soundness and exactness of every query, for all histories of class wide and all iteration orders. Missing: histories with moves or with a reference holding a foreign record passed to a set's GetRecord; C04_foreign_record_refuted shows the latter breaks the property."
  },
  {
   "property": "C05",
   "status": "partial",
   "theorems": [
    "C05_sharer_lost_refuted",
    "C05_setdata_effect_on_index",
    "C05_setdata_keeps_others_partial"
   ],
   "note": "The claim is false of the code (C05_sharer_lost_refuted: SetData drops every record sharing the old value from the ordered index). C05_setdata_effect_on_index is the exact effect for every state; C05_setdata_keeps_others_partial the part of the claim that holds."
  },
  {
   "property": "C06",
   "status": "partial",
   "theorems": [
    "C06_others_found_by_equality",
    "C06_erase_effect_on_ordered_index",
    "C06_others_found_in_order_partial",
    "C06_eraserecord_exact",
    "C06_eraseref_exact",
    "C06_sharer_lost_refuted"
   ],
   "note": "Equality queries: proved. Ordered queries: false of the code (C06_sharer_lost_refuted); C06_erase_effect_on_ordered_index is the exact effect, C06_others_found_in_order_partial the part that holds."
  },
  {
   "property": "C07",
   "status": "partial",
   "theorems": [
    "C07_values_change_only_by_setdata",
    "C07_set_reference_refuted",
    "C07_read_your_write",
    "C07_getdata_exact"
   ],
   "note": "Proved for references bound to a vault. Missing: references bound to a record set (returned by a set's GetSortedRecords); C07_set_reference_refuted shows the claim is false for them."
  },
  {
   "property": "C08",
   "status": "partial",
   "theorems": [
    "C08_unique_free_value_refuted",
    "C08_setdata_answer",
    "C08_setdata_empty_ref"
   ],
   "note": "C08_setdata_answer is the exact answer for every argument, with nothing changed on failure. The \"accepted iff free\" half is false of the code (C08_unique_free_value_refuted: unique keys can never be changed)."
  },
  {
   "property": "C09",
   "status": "proved",
   "theorems": [
    "C09_request_exact",
    "C09_empty_interval",
    "C09_no_overrun",
    "C09_request_set_indexed"
   ],
   "note": "For every source (vault, or set of class safe), bound, inclusion flag, predicate and iteration order."
  },
  {
   "property": "C10",
   "status": "partial",
   "theorems": [
    "C10_undefined_iff",
    "C10_complex_request_exact",
    "C10_mixed_types_refuted",
    "C10_complex_set_indexed"
   ],
   "note": "C10_complex_request_exact is the exact result whenever there is one, and C10_undefined_iff the exact condition of undefined behaviour (the request comes to an interval whose ends have different types; C10_mixed_types_refuted is one), so nothing is missing but the tree shapes for which the claim is false."
  },
  {
   "property": "C11",
   "status": "partial",
   "theorems": [
    "C11_eraserecords_limit",
    "C11_request_limit",
    "C11_getrecords_limit",
    "C11_getrecords_zero_refuted",
    "C11_eraserecords_zero_refuted"
   ],
   "note": "Requests: exact. GetRecords/EraseRecords: exact for every limit; limit 0 handles one record, so the claim as stated is refuted there (two _refuted theorems)."
  },
  {
   "property": "C12",
   "status": "proved",
   "theorems": [
    "C12_sorted_order",
    "C12_reverse_and_limit",
    "C12_unknown_key_empty",
    "C12_sort_by",
    "C12_create_after_equals",
    "C12_setdata_after_equals"
   ],
   "note": "For every reachable state of class wide, key, limit and callback; insertion order of equal values by C12_create_after_equals and C12_setdata_after_equals."
  },
  {
   "property": "C13",
   "status": "proved",
   "theorems": [
    "C13_keys_change_only_by_key_ops",
    "C13_getters_agree",
    "C13_set_keys"
   ],
   "note": "For every history of class wide."
  },
  {
   "property": "C14",
   "status": "proved",
   "theorems": [
    "C14_removekey_exact"
   ],
   "note": "For every reachable state of class wide."
  },
  {
   "property": "C15",
   "status": "proved",
   "theorems": [
    "C15_duplicate_rejected",
    "C15_addkey_exact",
    "C15_sets_get_key"
   ],
   "note": "For every reachable state of class wide, including the sets of the vault."
  },
  {
   "property": "C16",
   "status": "partial",
   "theorems": [
    "C16_generated_exact",
    "C16_without_generator",
    "C16_failed_leaves_index_refuted"
   ],
   "note": "C16_generated_exact and C16_without_generator give the exact outcome. \"The vault is unchanged on failure\" is false of the code: an index without key is left behind (C16_failed_leaves_index_refuted)."
  },
  {
   "property": "C17",
   "status": "partial",
   "theorems": [
    "C17_updatekey_exact",
    "C17_default_in_force",
    "C17_set_default_stale_refuted"
   ],
   "note": "Proved for vaults (C17_updatekey_exact, C17_default_in_force). Missing: GetKeyValue of a set, which keeps the old default (C17_set_default_stale_refuted)."
  },
  {
   "property": "C18",
   "status": "proved",
   "theorems": [
    "C18_allocated_iff_used",
    "C18_ref_ops_defined",
    "C18_safe_programs_defined"
   ],
   "note": "C18_allocated_iff_used for all histories of class wide, C18_ref_ops_defined, and C18_safe_programs_defined: no operation of class safe runs into undefined behaviour."
  },
  {
   "property": "C19",
   "status": "proved",
   "theorems": [
    "C19_invalid_forever",
    "C19_members_change_only_by_create_and_erase"
   ],
   "note": "For all histories of class wide."
  },
  {
   "property": "C20",
   "status": "proved",
   "theorems": [
    "C20_isvalid_exact",
    "C20_equality_meaning",
    "C20_equality_equivalence"
   ],
   "note": "For all states."
  },
  {
   "property": "C21",
   "status": "partial",
   "theorems": [
    "C21_set_follows_iff_registered",
    "C21_join_registers_nothing",
    "C21_subtract_keeps_registered",
    "C21_intersection_registers_nothing",
    "C21_union_registers_first",
    "C21_joined_set_refuted",
    "C21_sets_follow_updates"
   ],
   "note": "Proved for sets filled by requests, AddRecord, copy construction and assignment (class safe). Missing: sets built by Join/Union/Intersection, for which the claim is false (C21_joined_set_refuted): C21_set_follows_iff_registered proves for every set of every reachable state that it follows an update exactly when the record is registered with it; C21_join_registers_nothing, C21_intersection_registers_nothing and C21_subtract_keeps_registered say that Join, Intersection, Exclude and Intersect register nothing, C21_union_registers_first that Union registers the records of its first operand only."
  },
  {
   "property": "C22",
   "status": "partial",
   "theorems": [
    "C22_sets_follow_erasure",
    "C22_sets_hold_valid_records",
    "C22_set_loses_iff_registered",
    "C22_joined_set_refuted"
   ],
   "note": "As C21: proved for class safe, refuted for joined sets (C22_joined_set_refuted); exact for every set: C22_set_loses_iff_registered."
  },
  {
   "property": "C23",
   "status": "proved",
   "theorems": [
    "C23_join_exact",
    "C23_exclude_exact",
    "C23_intersect_exact",
    "C23_union_exact",
    "C23_intersection_exact",
    "C23_equality_meaning",
    "C23_defined",
    "C23_join_answers",
    "C23_union_answers",
    "C23_intersection_answers",
    "C23_exclude_answers",
    "C23_intersect_answers"
   ],
   "note": "For all sets in all states of class wide, including invalid, foreign and identical operands; in the safe class also what the operations do to the answers of the resulting set (indexes)."
  },
  {
   "property": "C24",
   "status": "partial",
   "theorems": [
    "C24_removal_keeps_registered",
    "C24_set_ops_leave_vaults",
    "C24_comes_back_refuted",
    "C24_members_only_by_fill",
    "C24_removed_stays_out",
    "C24_removeref_exact",
    "C24_removerecord_exact",
    "C24_removerecords_exact",
    "C24_clear_exact",
    "C24_reset_exact",
    "C24_add_exact",
    "C24_removal_answers"
   ],
   "note": "Proved but for one clause: \"the removed record does not come back\" is false (C24_comes_back_refuted); C24_removed_stays_out proves it for Clear/Reset and for histories without SetData on the record. C24_removal_keeps_registered is the cause: removal leaves the record registered with the set, so a later SetData refiles it there (C21_set_follows_iff_registered)."
  },
  {
   "property": "C25",
   "status": "partial",
   "theorems": [
    "C25_move_exact",
    "C25_moved_set_refuted",
    "C25_move_assigned_set_refuted",
    "C25_copy_exact",
    "C25_assign_exact"
   ],
   "note": "Copies: proved. Moves: C25_move_exact gives the exact effect of moving a set to a new variable; the claim that it answers queries like the original is refuted (C25_moved_set_refuted, C25_move_assigned_set_refuted)."
  },
  {
   "property": "C26",
   "status": "proved",
   "theorems": [
    "C26_dropdata_exact",
    "C26_dropvault_exact",
    "C26_destroyed_exact"
   ],
   "note": "For every reachable state of class wide."
  },
  {
   "property": "C27",
   "status": "partial",
   "theorems": [
    "C27_copy_exact",
    "C27_assign_exact",
    "C27_independent_step",
    "C27_independent",
    "C27_copy_loses_uniqueness_refuted",
    "C27_copy_loses_default_refuted"
   ],
   "note": "Values, identities and independence: proved for vaults without unique keys. Uniqueness and updated defaults are not copied (two _refuted theorems)."
  },
  {
   "property": "C28",
   "status": "partial",
   "theorems": [
    "C28_roundtrip_partial",
    "C28_roundtrip_iff",
    "C28_reads_back_exact",
    "C28_carriage_return_refuted",
    "C28_other_separator_refuted"
   ],
   "note": "The claim is false of the code; exactly where is proved: C28_roundtrip_iff (rows are read back as they were iff every field is quoted by the writer or has no carriage return and no separator in it, and no row ends with an empty field), and C28_reads_back_exact says what is read back of any rows at all. Missing: separators that are a quote or a line end character."
  },
  {
   "property": "C29",
   "status": "partial",
   "theorems": [
    "C29_fields_read_back",
    "C29_field_count_partial",
    "C29_field_count_iff",
    "C29_last_empty_refuted",
    "C29_blank_lines_refuted"
   ],
   "note": "The claim is false of the code; exactly where is proved, for separator ',': C29_field_count_iff. For other separators C28_reads_back_exact gives the fields read. C29_last_empty_refuted: a row whose last field is empty."
  },
  {
   "property": "C30",
   "status": "partial",
   "theorems": [
    "C30_reader_exact",
    "C30_chunked_equals_whole",
    "C30_negative_read_iff",
    "C30_negative_read_refuted"
   ],
   "note": "C30_negative_read_iff is the exact condition under which the chunked reader differs (reads before its buffer); everywhere else the equivalence is proved. C30_negative_read_refuted is a file that meets it."
  },
  {
   "property": "C31",
   "status": "proved",
   "theorems": [
    "C31_consumes",
    "C31_function_of_rest",
    "C31_finite"
   ],
   "note": "For every text."
  },
  {
   "property": "C32",
   "status": "partial",
   "theorems": [
    "C32_roundtrip_iff",
    "C32_otherwise",
    "C32_roundtrip_partial",
    "C32_min_refuted",
    "C32_eight_bit_refuted",
    "C32_texts_differ",
    "C32_integer_text"
   ],
   "note": "The claim is false of the code; exactly where is proved: C32_roundtrip_iff (all types but the 8-bit integers, all values but the least int32 and int64) and C32_otherwise."
  },
  {
   "property": "C33",
   "status": "partial",
   "theorems": [
    "C33_accepts_exactly_numerals_partial",
    "C33_value",
    "C33_undefined_iff",
    "C33_overflow_refuted",
    "C33_bool"
   ],
   "note": "Exact for every text whose number fits; C33_undefined_iff is the exact condition of signed overflow, refuted there."
  },
  {
   "property": "C34",
   "status": "partial",
   "theorems": [
    "C34_saved_text",
    "C34_save_load_partial",
    "C34_last_empty_refuted",
    "C34_empty_record_lost_refuted",
    "C34_name_with_comma_refuted",
    "C34_no_keys_undefined_refuted"
   ],
   "note": "Proved for vaults whose names and values survive the CSV format; four _refuted theorems show the conditions are needed."
  },
  {
   "property": "C35",
   "status": "partial",
   "theorems": [
    "C35_is_an_operation",
    "C35_loads_exactly_partial",
    "C35_defined",
    "C35_no_file",
    "C35_line_number_refuted",
    "C35_line_break_refuted",
    "C35_empty_row_refuted",
    "C35_extra_field_undefined_refuted",
    "C35_overflow_undefined_refuted"
   ],
   "note": "C35_loads_exactly_partial and C35_defined are exact for files without over-long rows; five _refuted theorems show where the claim fails."
  },
  {
   "property": "C36",
   "status": "partial",
   "theorems": [
    "C36_vault_object_partial",
    "C36_vault_array_partial",
    "C36_set_object_partial",
    "C36_set_array_partial",
    "C36_ref_partial",
    "C36_ref_not_valid",
    "C36_set_not_valid",
    "C36_values_differ",
    "C36_vault_strings",
    "C36_set_strings",
    "C36_ref_strings",
    "C36_quote_refuted",
    "C36_line_break_refuted",
    "C36_key_with_backslash_refuted",
    "C36_same_text_refuted",
    "C36_no_text_refuted",
    "C36_array_of_lost_set_refuted"
   ],
   "note": "Proved for keys and strings that need no escaping (C36_vault_strings etc. give the exact condition); the code never escapes, six _refuted theorems."
  },
  {
   "property": "C37",
   "status": "partial",
   "theorems": [
    "C37_print_exact",
    "C37_set_print_exact",
    "C37_aligned",
    "C37_all_records_shown",
    "C37_set_not_valid",
    "C37_table_of_refs",
    "C37_print_record_partial",
    "C37_unknown_key_refuted",
    "C37_unknown_primary_refuted",
    "C37_line_break_refuted",
    "C37_failed_unique_key_refuted",
    "C37_failed_unique_key_print_refuted",
    "C37_erased_reference_refuted",
    "C37_amount_zero_refuted"
   ],
   "note": "C37_print_exact is the exact text for every content; C37_aligned holds for values without line breaks. Seven _refuted theorems show where the claim fails."
  },
  {
   "property": "C38",
   "status": "proved",
   "theorems": [
    "C38_version_4",
    "C38_randomness",
    "C38_every_uuid",
    "C38_tmp_file_name"
   ],
   "note": "For every pair of 64-bit numbers."
  },
  {
   "property": "C39",
   "status": "partial",
   "theorems": [
    "C39_exclusion_partial",
    "C39_writers_exclude",
    "C39_readers_share",
    "C39_one_waiter",
    "C39_no_new_readers",
    "C39_only_after_spurious_wakeup_partial",
    "C39_spurious_wakeup_breaks_partial",
    "C39_spurious_wakeup_refuted"
   ],
   "note": "Proved for schedules without spurious wake-ups; with one, exclusion fails (C39_spurious_wakeup_refuted). Exactly then: a writer and a reader are inside together only after a spurious wake-up of that writer while that reader was inside (C39_only_after_spurious_wakeup_partial), and after every such wake-up (C39_spurious_wakeup_breaks_partial). Writers exclude each other in every case."
  },
  {
   "property": "C40",
   "status": "proved",
   "theorems": [
    "C40_can_always_finish",
    "C40_some_thread_can_move"
   ],
   "note": "For every number of threads and every interleaving, with or without spurious wake-ups (see theorem statements)."
  },
  {
   "property": "C41",
   "status": "partial",
   "theorems": [
    "C41_holds_exactly",
    "C41_exclusion",
    "C41_operations_defined",
    "C41_can_always_finish",
    "C41_other_mutex_refuted",
    "C41_not_nested_refuted"
   ],
   "note": "Proved for programs in which a thread uses one recursive mutex and nests properly; two _refuted theorems show both conditions are needed."
  },
  {
   "property": "C42",
   "status": "partial",
   "theorems": [
    "C42_setmany_is_sequence",
    "C42_success_stores_all",
    "C42_not_atomic_refuted",
    "C42_default_ref_refuted"
   ],
   "note": "Order, stop and report: proved. Atomicity: refuted (C42_not_atomic_refuted)."
  },
  {
   "property": "C43",
   "status": "proved",
   "theorems": [
    "C43_types_hold"
   ],
   "note": "For all histories of class wide."
  },
  {
   "property": "C44",
   "status": "partial",
   "theorems": [
    "C44_move_exact",
    "C44_references_do_not_follow",
    "C44_sets_do_not_follow",
    "C44_move_assign_exact",
    "C44_moved_vault_refuted"
   ],
   "note": "First half proved exactly in every state (C44_move_exact, C44_move_assign_exact); the second half, that references and sets follow, is false of the code for every reference and set (C44_references_do_not_follow, C44_sets_do_not_follow, C44_moved_vault_refuted)."
  },
  {
   "property": "C45",
   "status": "proved",
   "theorems": [
    "C45_valid_iff_vault_exists",
    "C45_invalid_set_answers",
    "C45_stays_bound"
   ],
   "note": "For all histories of class wide."
  },
  {
   "property": "C46",
   "status": "proved",
   "theorems": [
    "C46_unique_keys_findable",
    "C46_unique_keys_findable_in_sets"
   ],
   "note": "For all histories of class wide (sets: class safe)."
  },
  {
   "property": "C47",
   "status": "proved",
   "theorems": [
    "C47_stays_findable_step",
    "C47_stays_findable",
    "C47_addkey_findable",
    "C47_request_by_value",
    "C47_complex_by_value",
    "C47_getrecords_by_value",
    "C47_sorted_all"
   ],
   "note": "For all histories of class wide that leave shared values alone (the condition is part of the claim)."
  },
  {
   "property": "C48",
   "status": "proved",
   "theorems": [
    "C48_new_exact",
    "C48_delete_exact",
    "C48_reset_exact",
    "C48_copy_exact",
    "C48_move_exact",
    "C48_getrecords_refs",
    "C48_getsorted_refs",
    "C48_changed_only_by_name"
   ],
   "note": "Exact effect of each reference operation in every state of class wide, and C48_changed_only_by_name (no hypothesis on the state at all, all operations including moves)."
  },
  {
   "property": "C49",
   "status": "proved",
   "theorems": [
    "C49_set_getters",
    "C49_check_exact",
    "C49_getkeyvalue_exact",
    "C49_set_getkeyvalue",
    "C49_size_after_create",
    "C49_size_after_erase"
   ],
   "note": "Class wide for everything except key types and GetKeyValue of sets, which are for class safe."
  },
  {
   "property": "C50",
   "status": "partial",
   "theorems": [
    "C50_answers_for_its_content",
    "C50_undefined_iff",
    "C50_from_string_reports",
    "C50_others_untouched",
    "C50_stale_type_refuted"
   ],
   "note": "Proved for every program over any number of DataSaver variables: GetData, Str and GetDataType of a DataSaver that holds a value, GetData of an empty one, exact condition for undefined behaviour, frame. Not proved because false: an empty DataSaver reports no type (C50_stale_type_refuted)."
  },
  {
   "property": "C51",
   "status": "proved",
   "theorems": [
    "C51_each_cell_has_one_owner",
    "C51_nothing_leaks"
   ],
   "note": "For every program over any number of DataSaver variables (construction, copy, assignment, self-assignment, Swap, SetData, ResetData, destruction). The vector<T> constructors are covered by the same model of SetData."
  },
  {
   "property": "C52",
   "status": "partial",
   "theorems": [
    "C52_called_by_reset_only",
    "C52_set_then_reset",
    "C52_not_called_by_destructor_refuted",
    "C52_called_twice_refuted"
   ],
   "note": "Proved: only ResetData calls the function, at most once, with the value being reset. The documented call on destruction does not happen (C52_not_called_by_destructor_refuted), and after a copy it happens twice for one value (C52_called_twice_refuted)."
  },
  {
   "property": "C53",
   "status": "proved",
   "theorems": [
    "C53_container_holds_what_was_stored",
    "C53_reports",
    "C53_undefined_iff",
    "C53_each_cell_has_one_owner",
    "C53_custom_deleters",
    "C53_set_then_erase",
    "C53_unique_containers_are_maps"
   ],
   "note": "For every program over one container and any number of DataSaver variables, for the containers with unique keys and the multi-containers. Iteration order of the standard containers is not modelled; which of several equal keys find picks is arbitrary (a parameter of each operation)."
  },
  {
   "property": "C54",
   "status": "partial",
   "theorems": [
    "C54_equality_is_equality",
    "C54_texts_tell_codes_apart",
    "C54_flag_agrees_with_code",
    "C54_empty_setdata_refuted",
    "C54_wrong_key_or_type",
    "C54_failure_changes_nothing",
    "C54_failure_keeps_vault_data"
   ],
   "note": "Flag and code: for every operation in every state (no hypothesis), except SetData with an empty list, which is refuted (C54_empty_setdata_refuted). WrongKey/WrongType and \"failure changes nothing\": every state of class wide (queries on sets: class safe)."
  },
  {
   "property": "C55",
   "status": "proved",
   "theorems": [
    "C55_foreign_files"
   ],
   "note": "For every separator, file size, quoting and mixture of line ends. Blank lines ended by LF are treated inconsistently (C29_blank_lines_refuted) and are excluded in the quantifier."
  },
  {
   "property": "C56",
   "status": "partial",
   "theorems": [
    "C56_can_always_finish_partial",
    "C56_no_deadlock_partial",
    "C56_dump_and_set_refuted",
    "C56_dump_and_erase_refuted",
    "C56_dump_read_and_write_refuted",
    "C56_finish_exactly_partial",
    "C56_standoff_partial",
    "C56_no_deadlock_with_dumps_partial",
    "C56_only_readers_partial"
   ],
   "note": "The property is false when records are printed (VaultRecordRef::ToJson, ToStrings, PrintRecord lock the record before the vault): C56_dump_and_set_refuted, C56_dump_and_erase_refuted, C56_dump_read_and_write_refuted. Exactly which programs are safe is proved (C56_finish_exactly_partial): all but those with a standoff (DumpSpec.standoff) - one thread prints a record, another makes a call that takes that record's mutex inside the vault's lock, and that call or a third thread writes; with a standoff some interleaving sticks for good (C56_standoff_partial). Without printing, and without writers, it is proved unconditionally (C56_can_always_finish_partial, C56_only_readers_partial). The lock of the vault is the modelled RecursiveReadWriteMutex itself, without spurious wake-ups; one vault."
  },
  {
   "property": "C57",
   "status": "partial",
   "theorems": [
    "C57_no_race_partial",
    "C57_requests_refuted",
    "C57_intersections_refuted",
    "C57_request_and_read_refuted",
    "C57_clear_and_erase_refuted",
    "C57_compare_and_erase_refuted",
    "C57_errors_refuted",
    "C57_drop_refuted",
    "C57_race_exactly_partial",
    "C57_every_clash_races_partial",
    "C57_without_sets_partial",
    "C57_two_requests_partial"
   ],
   "note": "Exactly which programs race is proved (C57_race_exactly_partial): some interleaving has a data race iff two threads make calls in the relation RaceSpec.can_race, a table of what each call reads and writes of the record sets, of the vault's list of sets and of the list of file errors, under which lock (everything else is never raced on: C57_without_sets_partial); any two threads that fill sets race (C57_two_requests_partial). Also proved race-free: every program that keeps to some rules (LockSpec.clean): each record set is used by one thread, one thread at most fills sets by requests or by Intersection, Clear and == are called only on sets that no other thread's calls come across, GetErrorsInLastReadedFile is called only by the thread that reads files and drops the vault. Each exception is a real race: C57_requests_refuted, C57_intersections_refuted, C57_request_and_read_refuted, C57_clear_and_erase_refuted, C57_compare_and_erase_refuted, C57_errors_refuted, C57_drop_refuted. The model is the locking skeleton (LockModel.v): which locks a call takes in which order and which data it touches under them."
  },
  {
   "property": "C58",
   "status": "proved",
   "theorems": [
    "C58_linearizable",
    "C58_answers_stable"
   ],
   "note": "Linearizability over the step-by-step model of the vault's RecursiveReadWriteMutex: inside its lock a writing call may change the memory to anything at all in any number of steps, and a reading call look at it any number of times; what they then answer is assumed to be what the code answers when it runs alone only if nothing they saw was changed by others (C58_answers_stable shows the reading calls are stable in this sense). The functions named in the quantifier only; condition variables do not wake spuriously."
  },
  {
   "property": "C59",
   "status": "proved",
   "theorems": [
    "C59_no_use_after_free",
    "C59_alive_while_used",
    "C59_freed_iff_unused",
    "C59_can_always_finish"
   ],
   "note": "Step-by-step model of the reference counter of one record (LifeModel.v); the vault's lock is an abstract readers-writer lock there (its implementation is C39-C45). Vault functions are assumed to hold the lock C57 shows them to hold."
  },
  {
   "property": "C60",
   "status": "partial",
   "theorems": [
    "C60_accepts_exactly_decimals_partial",
    "C60_undefined_iff",
    "C60_value_partial",
    "C60_whole_numbers_exact",
    "C60_nearest_refuted",
    "C60_overflow_refuted"
   ],
   "note": "Grammar, accuracy and exact whole numbers are proved for all texts whose parts fit an int (and, for accuracy, at most 37 digits after the point, leading zeros included); other decimal fractions are signed overflow (C60_undefined_iff, C60_overflow_refuted). The number read need not be the nearest one (C60_nearest_refuted). Platform assumptions in DESIGN.md."
  },
  {
   "property": "C61",
   "status": "proved",
   "theorems": [
    "C61_text_is_nearest",
    "C61_special",
    "C61_same_text_iff"
   ],
   "note": "std::to_string is printf's %f, taken to be exact as in glibc; one NaN."
  },
  {
   "property": "C62",
   "status": "partial",
   "theorems": [
    "C62_unreadable_iff",
    "C62_whole_numbers",
    "C62_double_partial",
    "C62_float_partial",
    "C62_float_text_changes_refuted",
    "C62_not_identity_refuted"
   ],
   "note": "Proved below 2^31 - 5/10^7; from there on reading the text is signed overflow (C62_unreadable_iff). For doubles the text is stable. For floats it is proved stable below 8, the number itself is exact from 16 on, and between 8 and 16 the text can change (C62_float_text_changes_refuted). Numbers below 5/10^7 become zero (C62_not_identity_refuted)."
  },
  {
   "property": "C63",
   "status": "proved",
   "theorems": [
    "C63_can_always_finish",
    "C63_no_deadlock"
   ],
   "note": "Every vault has its own modelled mutex (MultiModel.v), the recursion counters belong to the thread as in the code; no spurious wake-ups. A thread may even call ReadUnlock on a mutex it has not locked, as the code does for a write call on a second vault; the sum of all reader counters over the vaults in question still cannot stay positive while everybody waits."
  },
  {
   "property": "C64",
   "status": "partial",
   "theorems": [
    "C64_no_race_partial",
    "C64_assign_refuted",
    "C64_callback_reads_refuted",
    "C64_callback_writes_refuted",
    "C64_generator_reads_refuted",
    "C64_move_refuted"
   ],
   "note": "Proved when every vault is used by one thread only, or by many threads none of which changes it (then in any nesting, and as the source of assignments), or shared and changed but used only outside calls on other vaults (callbacks may use the same vault again, private vaults and unchanged vaults; the copy constructor may read a shared vault into a private one), with C57's rules on shared vaults. Without that it is false: C64_assign_refuted (A = B takes no lock on B), C64_callback_reads_refuted, C64_callback_writes_refuted, C64_generator_reads_refuted, C64_move_refuted."
  },
  {
   "property": "C65",
   "status": "proved",
   "theorems": [
    "C65_all_locks_free_in_the_end"
   ],
   "note": "For all calls of the lock models, including ToJson, ToStrings and PrintRecord of references, when every call returned."
  },
  {
   "property": "C66",
   "status": "proved",
   "theorems": [
    "C66_names_the_function_called",
    "C66_undefined_iff"
   ],
   "note": "Model of the trace of one thread (the trace is thread_local); the text printed by addr2line is not modelled. C66_undefined_iff: PrintBackTrace outside any traced function (always, in a release build) reads the front of an empty vector, and errors more than 1020 calls deep read beyond the array."
  },
  {
   "property": "C67",
   "status": "proved",
   "theorems": [
    "C67_sets_isolated",
    "C67_sets_stay_as_they_are",
    "C67_vaults_isolated"
   ],
   "note": "For every reachable state of class wide; the excluded operations are those excluded everywhere (see C01). Vaults: the objects are equal but for the list of registered sets; sets: equal."
  }
 ]
}