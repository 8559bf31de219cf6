{
 "claims": [
  {
   "property": "C01",
   "status": "proved",
   "theorems": [
    "C01_last_writer_wins"
   ],
   "note": "Model of WriteAt, Write, U/D, R on a buffer without stream; histories of any length."
  },
  {
   "property": "C02",
   "status": "partial",
   "theorems": [
    "C02_range_read_partial",
    "C02_range_read_refuted"
   ],
   "note": "False in general: writerR does not clip an entry by later entries that start inside it. Proved for journals in which no entry starts strictly inside an earlier one."
  },
  {
   "property": "C03",
   "status": "proved",
   "theorems": [
    "C03_update_frame"
   ],
   "note": ""
  },
  {
   "property": "C04",
   "status": "proved",
   "theorems": [
    "C04_flatten_content"
   ],
   "note": ""
  },
  {
   "property": "C05",
   "status": "proved",
   "theorems": [
    "C05_flatten_exact"
   ],
   "note": ""
  },
  {
   "property": "C06",
   "status": "proved",
   "theorems": [
    "C06_dedup_invisible"
   ],
   "note": ""
  },
  {
   "property": "C07",
   "status": "partial",
   "theorems": [
    "C07_merge_invisible_partial",
    "C07_merge_refuted"
   ],
   "note": "False in general (three-entry journal). Proved for journals without overlaps and for journals in offset order."
  },
  {
   "property": "C08",
   "status": "proved",
   "theorems": [
    "C08_merge_terminates"
   ],
   "note": ""
  },
  {
   "property": "C09",
   "status": "partial",
   "theorems": [
    "C09_insert_space_partial",
    "C09_insert_space_refuted",
    "C09_insert_hole_refuted"
   ],
   "note": "Proved when at most one journal entry crosses the insertion point; false for two. Without filling, the hole shows old bytes."
  },
  {
   "property": "C10",
   "status": "proved",
   "theorems": [
    "C10_copy_overlay",
    "C10_reads_current",
    "C10_copy_arrays"
   ],
   "note": "The source must read consistently (hypothesis of the property); C10_reads_current gives a sufficient condition on its journal."
  },
  {
   "property": "C11",
   "status": "partial",
   "theorems": [
    "C11_copy_extend_partial",
    "C11_copy_extend_refuted"
   ],
   "note": "Proved when no destination entry crosses the copy position and extend = size; false with a crossing entry."
  },
  {
   "property": "C12",
   "status": "partial",
   "theorems": [
    "C12_len_buf_partial",
    "C12_len_after_write",
    "C12_len_buf_refuted"
   ],
   "note": "Proved for histories of non-empty writes; an empty write far out moves LenBuf beyond the content."
  },
  {
   "property": "C13",
   "status": "proved",
   "theorems": [
    "C13_dup_content",
    "C13_dup_value",
    "C13_independent",
    "C13_copy_shared"
   ],
   "note": "Content by value, independence on the heap model for every interleaving of changes, in-place updates included. The last theorem shows Copy gives no such guarantee; it is not part of the property."
  },
  {
   "property": "C14",
   "status": "proved",
   "theorems": [
    "C14_sequential_write",
    "C14_write_count"
   ],
   "note": ""
  },
  {
   "property": "C15",
   "status": "partial",
   "theorems": [
    "C15_reads_partial",
    "C15_read_at_refuted",
    "C15_read_skips_refuted"
   ],
   "note": "False as stated: the count reported by ReadAt can exceed the room given, and Read then skips bytes. Proved under the hypothesis that no read of the sequence reports more than its room: the pieces delivered follow one another and only lack bytes where the buffer has none."
  },
  {
   "property": "C22",
   "status": "partial",
   "theorems": [
    "C22_encode_decode",
    "C22_little_endian",
    "C22_decode_encode_partial",
    "C22_bool_refuted"
   ],
   "note": "Decode after encode proved for all types; encode after decode for all but bool, where byte 2 decodes to false."
  },
  {
   "property": "C23",
   "status": "proved",
   "theorems": [
    "C23_set_get",
    "C23_set_own_type",
    "C23_from_get"
   ],
   "note": "Nodes whose size is the width of the type, on any buffer in memory whatever its journal."
  },
  {
   "property": "C24",
   "status": "proved",
   "theorems": [
    "C24_conforming_access",
    "C24_vector_field",
    "C24_string_field"
   ],
   "note": "Tables whose vtable precedes them (the property); see C51 for vtables after the table. Buffers without journal."
  },
  {
   "property": "C25",
   "status": "partial",
   "theorems": [
    "C25_unknown_absent_partial",
    "C25_reads_neighbour",
    "C25_unknown_absent_refuted"
   ],
   "note": "Only true beyond the end of the buffer: the vtable length is not consulted."
  },
  {
   "property": "C26",
   "status": "proved",
   "theorems": [
    "C26_fresh_table",
    "C26_fresh_table_len"
   ],
   "note": "For schemas whose vtable fits its 16-bit length."
  },
  {
   "property": "C27",
   "status": "proved",
   "theorems": [
    "C27_fields_are_a_map"
   ],
   "note": "Scalar and struct fields of a free-standing table; the table must fit the 16-bit length. Values come from any buffer that delivers them in one read."
  },
  {
   "property": "C28",
   "status": "partial",
   "theorems": [
    "C28_struct_fields_disjoint",
    "C28_members_are_a_map",
    "C28_value_info_refuted"
   ],
   "note": "Layout and map behaviour of FieldAt/SetFieldAt proved; ValueInfo computes a different range."
  },
  {
   "property": "C29",
   "status": "partial",
   "theorems": [
    "C29_layout_agrees_partial",
    "C29_layout_refuted"
   ],
   "note": "Agrees exactly when every running sum is a multiple of the member's size; padding is not inserted."
  },
  {
   "property": "C30",
   "status": "proved",
   "theorems": [
    "C30_len_rounds_up"
   ],
   "note": ""
  },
  {
   "property": "C51",
   "status": "partial",
   "theorems": [
    "C51_negative_soffset_refuted"
   ],
   "note": "False: the offset is read as uint32. The non-negative case is C24."
  },
  {
   "property": "C52",
   "status": "partial",
   "theorems": [
    "C52_struct_init_partial",
    "C52_struct_init_refuted"
   ],
   "note": "Init writes four bytes into the struct; panics for smaller structs."
  },
  {
   "property": "C53",
   "status": "partial",
   "theorems": [
    "C53_get_after_flatten_partial",
    "C53_split_scalar_refuted"
   ],
   "note": "False when a journal boundary splits the value; true after Flatten."
  },
  {
   "property": "C54",
   "status": "partial",
   "theorems": [
    "C54_set_member_refuted"
   ],
   "note": "False for every struct member."
  },
  {
   "property": "C31",
   "status": "proved",
   "theorems": [
    "C31_at_outside",
    "C31_at_inside",
    "C31_at_table_inside"
   ],
   "note": "Every list node whose length word can be read; for tables the element lies behind the slots in a conforming buffer."
  },
  {
   "property": "C32",
   "status": "proved",
   "theorems": [
    "C32_fixed_elements",
    "C32_table_elements"
   ],
   "note": "Buffers without journal, tables whose vtable precedes them."
  },
  {
   "property": "C33",
   "status": "partial",
   "theorems": [
    "C33_queries_partial",
    "C33_stale_handle_refuted"
   ],
   "note": "Proved when the handle's cached length is the stored one; false for a handle taken before an append."
  },
  {
   "property": "C34",
   "status": "proved",
   "theorems": [
    "C34_search_boundary",
    "C34_search_stops"
   ],
   "note": ""
  },
  {
   "property": "C35",
   "status": "proved",
   "theorems": [
    "C35_swap_tables",
    "C35_own_inverse"
   ],
   "note": "Targets after the slots and within 32-bit reach, as the format requires."
  },
  {
   "property": "C36",
   "status": "partial",
   "theorems": [
    "C36_swap_fixed_refuted",
    "C36_swap_zeroes"
   ],
   "note": "The property is false: both elements become zero, for every list on BaseImpl."
  },
  {
   "property": "C37",
   "status": "proved",
   "theorems": [
    "C37_sort_permutes",
    "C37_sort_sorts",
    "C37_insertion_sorting",
    "C37_compares_exist"
   ],
   "note": "sort.Sort is modelled as any strategy of comparisons and in-range swaps; its contract is proved for the insertion sort used on short lists."
  },
  {
   "property": "C38",
   "status": "proved",
   "theorems": [
    "C38_append_fixed"
   ],
   "note": ""
  },
  {
   "property": "C39",
   "status": "partial",
   "theorems": [
    "C39_append_tables_partial",
    "C39_built_tables_partial",
    "C39_empty_table_refuted"
   ],
   "note": "Proved for tables with inline fields of which at least one is set; false for a table with no field set. Tables holding strings, vectors or tables are not covered."
  },
  {
   "property": "C55",
   "status": "partial",
   "theorems": [
    "C55_set_beyond_partial",
    "C55_swap_beyond_partial",
    "C55_set_negative_refuted",
    "C55_swap_negative_refuted"
   ],
   "note": "Indexes beyond the end are rejected; negative ones are not."
  },
  {
   "property": "C56",
   "status": "partial",
   "theorems": [
    "C56_size_refuted"
   ],
   "note": "False for scalars: the reported size is one element short after an append."
  },
  {
   "property": "C40",
   "status": "partial",
   "theorems": [
    "C40_scalar_partial",
    "C40_vector_scalar_partial",
    "C40_uint8_refuted",
    "C40_named_partial",
    "C40_vector_named_partial",
    "C40_struct_vector_refuted",
    "C40_tail_refuted",
    "C40_bytes_prefix_refuted",
    "C40_panics",
    "C40_short_name_refuted",
    "C40_is_list",
    "C40_is_not_list",
    "C40_is_list_short"
   ],
   "note": "Holds for every scalar but uint8 and for names that cannot be confused with a scalar; false for uint8, for names with a scalar tail, for vectors of structs; names of one byte panic."
  },
  {
   "property": "C41",
   "status": "partial",
   "theorems": [
    "C41_index",
    "C41_back",
    "C41_injective",
    "C41_unknown",
    "C41_stable",
    "C41_pair_partial",
    "C41_same_partial",
    "C41_collision_refuted",
    "C41_unknown_pair_refuted",
    "C41_empty_name_refuted"
   ],
   "note": "Names: proved. Pairs: proved for at most 65536 non-empty names; false beyond that, and unregistered names are not reported."
  },
  {
   "property": "C42",
   "status": "partial",
   "theorems": [
    "C42_applied",
    "C42_order",
    "C42_order_panic_refuted",
    "C42_twice",
    "C42_root"
   ],
   "note": "Proved whenever the initializers do not panic; with a union of a one-byte name whether they panic depends on their order."
  },
  {
   "property": "C50",
   "status": "proved",
   "theorems": [
    "C50_field_tests",
    "C50_one_class"
   ],
   "note": ""
  },
  {
   "property": "C57",
   "status": "proved",
   "theorems": [
    "C57_max",
    "C57_min",
    "C57_sum_order",
    "C57_sum_app"
   ],
   "note": ""
  },
  {
   "property": "C17",
   "status": "partial",
   "theorems": [
    "C17_pages",
    "C17_enough_partial",
    "C17_enough_iff",
    "C17_enough_refuted"
   ],
   "note": "Whole pages always; large enough below 16 MiB; the sizes for which it is too small are characterised exactly."
  },
  {
   "property": "C18",
   "status": "proved",
   "theorems": [
    "C18_same_read",
    "C18_no_size_refuted"
   ],
   "note": "Proved for n >= 1 as stated; the second theorem shows the two differ for a request without a size."
  },
  {
   "property": "C20",
   "status": "partial",
   "theorems": [
    "C20_merge_partial",
    "C20_before_refuted",
    "C20_lost_refuted",
    "C20_spare_refuted",
    "C20_read_partial",
    "C20_single",
    "C20_gap_refuted"
   ],
   "note": "False when the second entry starts before the first or ends in its spare capacity; DoubleLayer reads are proved for journals without gaps and false with gaps."
  },
  {
   "property": "C21",
   "status": "proved",
   "theorems": [
    "C21_direct_read"
   ],
   "note": ""
  },
  {
   "property": "C58",
   "status": "proved",
   "theorems": [
    "C58_equal_sound",
    "C58_equal_self",
    "C58_equal_complete_refuted",
    "C58_info_length"
   ],
   "note": "The converse, equal content implies Equal, is false and is not part of the property."
  },
  {
   "property": "C59",
   "status": "partial",
   "theorems": [
    "C59_shrink_partial",
    "C59_shrink_journal_partial",
    "C59_shrink_drops_refuted",
    "C59_shrink_tail_refuted"
   ],
   "note": "Proved for a buffer without a journal; with one, the window is kept unless an entry inside it ends at its end, but more than the window may be left. No code in the repository calls shrink."
  },
  {
   "property": "C19",
   "status": "partial",
   "theorems": [
    "C19_update_partial",
    "C19_plain_runs",
    "C19_spare_refuted",
    "C19_panic_refuted",
    "C19_order_refuted",
    "C19_gap_refuted"
   ],
   "note": "Proved when entries do not overlap and the update neither starts in spare capacity nor runs out of its entry; false otherwise, in four ways."
  },
  {
   "property": "C60",
   "status": "proved",
   "theorems": [
    "C60_slices",
    "C60_buffers",
    "C60_by_value",
    "C60_in_place_refuted"
   ],
   "note": "The last theorem shows NoLayer updates are different; it is not part of the property."
  },
  {
   "property": "C16",
   "status": "partial",
   "theorems": [
    "C16_reads_partial",
    "C16_terminates",
    "C16_forward",
    "C16_journal",
    "C16_past_end_refuted",
    "C16_back_panics"
   ],
   "note": "Proved for requests inside the stream, in any order; the second read past the end returns zeros. Requests inside the stream never give wrong bytes but can panic when they go back."
  },
  {
   "property": "C61",
   "status": "partial",
   "theorems": [
    "C61_whole_partial",
    "C61_short_refuted"
   ],
   "note": "Proved for reads that do not overlap and stay in the first buffer; false in general."
  },
  {
   "property": "C62",
   "status": "partial",
   "theorems": [
    "C62_next_partial",
    "C62_twice_refuted",
    "C62_parent_refuted",
    "C62_far_panics"
   ],
   "note": "Proved for one Next within what was read; false for two."
  },
  {
   "property": "C63",
   "status": "partial",
   "theorems": [
    "C63_first_partial",
    "C63_second_refuted",
    "C63_loop_refuted"
   ],
   "note": "Only the first read works."
  },
  {
   "property": "C43",
   "status": "partial",
   "theorems": [
    "C43_round_trip_partial",
    "C43_layout_partial",
    "C43_layout_refuted",
    "C43_types_refuted",
    "C43_names_refuted",
    "C43_defaults_refuted"
   ],
   "note": "Proved for schemas of namespaces, tables, structs, unions, root types, attributes and rpc services with any layout at the places the grammar allows it; the other theorems list what is rejected or mistyped."
  },
  {
   "property": "C44",
   "status": "partial",
   "theorems": [
    "C44_own_fields_partial",
    "C44_refuted",
    "C44_union_refuted",
    "C44_panic_refuted"
   ],
   "note": "Proved without enums; members of an enum leak into the next table or union."
  },
  {
   "property": "C45",
   "status": "partial",
   "theorems": [
    "C45_slots_partial",
    "C45_finalize_partial",
    "C45_lower_refuted",
    "C45_panic_refuted",
    "C45_struct_mark_refuted"
   ],
   "note": "Proved when union names start with a capital letter and Go types have two characters or more; false or panicking otherwise."
  },
  {
   "property": "C46",
   "status": "partial",
   "theorems": [
    "C46_camel",
    "C46_refuted",
    "C46_collision_refuted"
   ],
   "note": "Exact characterisation: the conversion panics on a leading, trailing or doubled underscore and capitalises otherwise."
  },
  {
   "property": "C64",
   "status": "proved",
   "theorems": [
    "C64_terminates",
    "C64_accepts",
    "C64_tokens",
    "C64_no_panic"
   ],
   "note": ""
  },
  {
   "property": "C65",
   "status": "partial",
   "theorems": [
    "C65_refuted"
   ],
   "note": "False: the command goes on after the error."
  },
  {
   "property": "C48",
   "status": "partial",
   "theorems": [
    "C48_order_partial",
    "C48_complete_partial",
    "C48_ends",
    "C48_live",
    "C48_root_refuted"
   ],
   "note": "Exactly the matching nodes below the root, once, in depth-first order, under every schedule; the root itself is never tested."
  },
  {
   "property": "C49",
   "status": "proved",
   "theorems": [
    "C49_order",
    "C49_no_panic",
    "C49_complete",
    "C49_ends",
    "C49_unstreamed_blocks",
    "C49_two_streams_refuted",
    "C49_dump_after_finish"
   ],
   "note": "Under every schedule of one streaming goroutine; completeness needs the entries dumped before streaming to fit into the channel."
  },
  {
   "property": "C47",
   "status": "partial",
   "theorems": [
    "C47_order",
    "C47_covers_partial",
    "C47_attained",
    "C47_fetch_all",
    "C47_table_end_refuted",
    "C47_empty_table_refuted",
    "C47_absent_refuted",
    "C47_vector_refuted",
    "C47_child_refuted",
    "C47_fetch_all_refuted",
    "C47_empty_vector_refuted",
    "C47_newer_refuted"
   ],
   "note": "The root Length is order-independent and covers every scalar and string; the end of a table without fields is not covered, absent fields and empty vectors are read as if present, and several valid buffers panic."
  },
  {
   "property": "C66",
   "status": "partial",
   "theorems": [
    "C66_put_partial",
    "C66_put_refuted"
   ],
   "note": "For journals in which no entry starts strictly inside an earlier one; otherwise part of a replaced entry stays hidden."
  },
  {
   "property": "C67",
   "status": "proved",
   "theorems": [
    "C67_lines",
    "C67_declarations"
   ],
   "note": "For schemas of the fragment of C45; go generate and genny behave as DESIGN.md assumes."
  },
  {
   "property": "C68",
   "status": "partial",
   "theorems": [
    "C68_steps_partial",
    "C68_panic_refuted"
   ],
   "note": "For struct names that are pairwise different and types of two characters or more; a one-letter type stops the generator."
  },
  {
   "property": "C69",
   "status": "partial",
   "theorems": [
    "C69_files_partial",
    "C69_list_refuted",
    "C69_case_refuted"
   ],
   "note": "Unless a name is another one followed by List, or two slots get the same camel-case name."
  },
  {
   "property": "C70",
   "status": "partial",
   "theorems": [
    "C70_tables_partial",
    "C70_kinds_refuted"
   ],
   "note": "For schemas without unsigned bytes, vectors of structs and vectors of unions, and with capital names that no scalar name hides in; the kinds of the excluded types are wrong."
  },
  {
   "property": "C71",
   "status": "partial",
   "theorems": [
    "C71_results_partial",
    "C71_results_refuted"
   ],
   "note": "False for byte and unsigned-byte fields, vectors of them and vectors of unions: the package does not compile."
  },
  {
   "property": "C72",
   "status": "partial",
   "theorems": [
    "C72_info_partial",
    "C72_len_partial",
    "C72_vector_refuted",
    "C72_empty_refuted",
    "C72_scalar_refuted",
    "C72_string_refuted",
    "C72_strings_refuted"
   ],
   "note": "For tables that have a field, whose strings are present, whose absent scalars do not stick out and whose vectors of tables have their farthest table last; false in each of the other cases, and for vectors of strings."
  },
  {
   "property": "C73",
   "status": "partial",
   "theorems": [
    "C73_traverse_partial",
    "C73_phantom_refuted",
    "C73_vector_refuted",
    "C73_struct_refuted"
   ],
   "note": "For values without structs, absent scalars and absent vectors; absent scalars are shown as present, absent vectors panic, and members of structs are shown at wrong places."
  },
  {
   "property": "C74",
   "status": "proved",
   "theorems": [
    "C74_union"
   ],
   "note": ""
  },
  {
   "property": "C75",
   "status": "proved",
   "theorems": [
    "C75_field",
    "C75_member"
   ],
   "note": "Members of structs are scalars."
  },
  {
   "property": "C76",
   "status": "partial",
   "theorems": [
    "C76_elements_partial",
    "C76_strings_refuted"
   ],
   "note": "For vectors of scalars, structs and tables; all elements of a vector of strings are found at its start."
  },
  {
   "property": "C77",
   "status": "partial",
   "theorems": [
    "C77_has_next_partial",
    "C77_has_next_refuted",
    "C77_alone_refuted",
    "C77_next_stays",
    "C77_next_refuted"
   ],
   "note": "HasNext is right only if nothing follows and the buffer is padded; Next never gets anywhere on buffers without a reader, and the root it makes has no name."
  },
  {
   "property": "C78",
   "status": "partial",
   "theorems": [
    "C78_trees_partial",
    "C78_parent_refuted"
   ],
   "note": "One tree per value, each linked to the first tree at the position of its owner, for values as in C73; another value at the same position takes the children."
  },
  {
   "property": "C79",
   "status": "partial",
   "theorems": [
    "C79_unknown_refuted"
   ],
   "note": "False: Info and Len panic."
  },
  {
   "property": "C80",
   "status": "partial",
   "theorems": [
    "C80_add_tables_partial",
    "C80_append_made_partial",
    "C80_fields_partial",
    "C80_gap_refuted"
   ],
   "note": "For tables whose fields are stored inline and which have no gap at their end; with a gap, which an absent eight-byte scalar leaves, elements are lost."
  },
  {
   "property": "C81",
   "status": "partial",
   "theorems": [
    "C81_add_twice_refuted",
    "C81_add_self_refuted"
   ],
   "note": "False in both cases."
  },
  {
   "property": "C82",
   "status": "partial",
   "theorems": [
    "C82_part_tables_partial",
    "C82_part_any_partial",
    "C82_part_fixed_partial",
    "C82_beyond_refuted",
    "C82_bytes_refuted",
    "C82_gap_refuted"
   ],
   "note": "For ranges inside vectors of gapless inline tables, and of inline elements of at least four bytes without journal; false for tables with gaps, and short byte vectors and ranges beyond the end panic."
  },
  {
   "property": "C83",
   "status": "proved",
   "theorems": [
    "C83_first",
    "C83_last"
   ],
   "note": ""
  },
  {
   "property": "C84",
   "status": "proved",
   "theorems": [
    "C84_byte_list"
   ],
   "note": ""
  },
  {
   "property": "C85",
   "status": "proved",
   "theorems": [
    "C85_add_fixed",
    "C85_reads_fixed"
   ],
   "note": "For a non-empty argument other than the list itself."
  },
  {
   "property": "C86",
   "status": "partial",
   "theorems": [
    "C86_equal_partial",
    "C86_both_partial",
    "C86_longer_refuted",
    "C86_string_refuted",
    "C86_self_refuted",
    "C86_numbers_refuted",
    "C86_absent_vector_refuted",
    "C86_absent_scalar_refuted"
   ],
   "note": "For tables with everything present and without vectors of scalars, up to further elements at the end of vectors of the second node; of strings one byte is compared, vectors of numbers are not, absent vectors equal any, absent scalars panic."
  },
  {
   "property": "C87",
   "status": "partial",
   "theorems": [
    "C87_build_partial",
    "C87_refused",
    "C87_nested",
    "C87_scalars",
    "C87_strings",
    "C87_second_refuted",
    "C87_shorter_refuted",
    "C87_replace_refuted",
    "C87_type_refuted",
    "C87_shared_refuted",
    "C87_vector_refuted",
    "C87_gap_refuted"
   ],
   "note": "For tables outside a root buffer with at most one reference field assigned, once, whose value is in a flattened buffer with its vtable right before it, or is a vector with its size; a second reference, a shorter string, a replaced union, a shared vtable and a vector taken from a table are stored wrongly."
  },
  {
   "property": "C88",
   "status": "partial",
   "theorems": [
    "C88_header_partial"
   ],
   "note": "For the tables of C87."
  },
  {
   "property": "C89",
   "status": "partial",
   "theorems": [
    "C89_describes_partial",
    "C89_package",
    "C89_total"
   ],
   "note": "For fields of scalar, struct, table and union types, vectors of scalars, structs and tables, and strings; unsigned bytes and vectors of unions are misclassified (C70), vectors of strings misread (C72, C76)."
  },
  {
   "property": "C90",
   "status": "partial",
   "theorems": [
    "C90_reads_partial",
    "C90_builds_partial"
   ],
   "note": "Under the conditions of C89 and of C72, C73 and C87."
  },
  {
   "property": "C91",
   "status": "partial",
   "theorems": [
    "C91_split_partial",
    "C91_kept_partial",
    "C91_fields_partial",
    "C91_swapped_refuted"
   ],
   "note": "For tables with inline fields. Refuted for vectors whose elements changed places: SwapAt and SortBy are undone, because the data is written in the order of the elements while the slots keep their old meaning."
  },
  {
   "property": "C92",
   "status": "partial",
   "theorems": [
    "C92_set_partial",
    "C92_made_partial",
    "C92_journaled_refuted",
    "C92_inner_refuted",
    "C92_plain_refuted"
   ],
   "note": "For merged tables that fill their buffer, a file as writer, and a vector that was not joined. Refuted for tables with journal entries (they are written at a wrong offset), for tables inside a larger buffer (the buffer is written from its start), and for writers without WriteAt (nothing is written)."
  },
  {
   "property": "C93",
   "status": "partial",
   "theorems": [
    "C93_add_partial",
    "C93_cursor_refuted",
    "C93_set_after_refuted"
   ],
   "note": "If the file of the argument was rewound before. Refuted otherwise: right after WriteDataAll its cursor is at the end and Add fails; and SetAt on the joined vector loses elements."
  },
  {
   "property": "C94",
   "status": "partial",
   "theorems": [
    "C94_insert_partial",
    "C94_outside",
    "C94_absent_refuted",
    "C94_union_refuted",
    "C94_own_refuted",
    "C94_touching_refuted",
    "C94_root_refuted",
    "C94_shared_refuted"
   ],
   "note": "Proved for buffers without a journal whose value has no structs, distinct starts and offsets that share no byte with anything else, when the root lies before the place and below 65536 and every reference across the place is one the code finds. Refuted for references behind an absent table, struct or union (absent numbers do no harm), of tables reached through a union, of the node itself, of tables that begin where an empty vector ends, for the root offset, and for vtables shared across the place."
  },
  {
   "property": "C95",
   "status": "partial",
   "theorems": [
    "C95_nolayer_partial"
   ],
   "note": "Proved with at most one journal entry across the place; with two C09_insert_space_refuted refutes it for the buffer underneath."
  },
  {
   "property": "C96",
   "status": "partial",
   "theorems": [
    "C96_end_partial",
    "C96_entry_partial",
    "C96_append_partial",
    "C96_behind",
    "C96_tail_refuted",
    "C96_room_refuted",
    "C96_offset_refuted",
    "C96_front_refuted",
    "C96_merged_refuted"
   ],
   "note": "Proved without a journal at the end of the buffer, and for a single journal entry that reaches the end of the buffer, inside it when its capacity is enough or used up, and at its end. Refuted without a journal in front of the end (for every buffer), for entries with less room than the test assumes, for entries whose offset is not 0 when the position exceeds their capacity (panic, universal), for entries behind the place and for journals of more than one entry."
  },
  {
   "property": "C97",
   "status": "partial",
   "theorems": [
    "C97_nolayer",
    "C97_double_refuted"
   ],
   "note": "The name NoLayer is proved; DoubleLayer selects BaseImpl because the code compares with a misspelt name."
  },
  {
   "property": "C98",
   "status": "proved",
   "theorems": [
    "C98_base_log",
    "C98_log_log"
   ],
   "note": "Formatting is not modelled: a message is its text."
  },
  {
   "property": "C99",
   "status": "partial",
   "theorems": [
    "C99_result",
    "C99_keeps_partial",
    "C99_unflagged",
    "C99_enabled",
    "C99_written_refuted",
    "C99_level_refuted"
   ],
   "note": "The result is proved. Messages are never written (refuted for every call), and the level of the base logger becomes that of the log package (refuted for every call that passes the filter). The function given is assumed to leave the loggers alone."
  },
  {
   "property": "C100",
   "status": "partial",
   "theorems": [
    "C100_search_partial",
    "C100_outside",
    "C100_vectors_refuted",
    "C100_struct_refuted",
    "C100_phantom_refuted",
    "C100_string_refuted",
    "C100_union_refuted",
    "C100_unsized_refuted",
    "C100_place_refuted"
   ],
   "note": "For conditions that only accept something with a size, and values without structs, vectors of tables and absent numbers and strings, whose size is right (C72). What is in vectors of tables is never found (C100_outside, for every buffer). Refuted for members of structs, absent numbers, absent strings, unions of unknown type and conditions that accept an Info without a size (a panic in absent tables, and vectors at the place of their table)."
  },
  {
   "property": "C101",
   "status": "partial",
   "theorems": [
    "C101_position_partial",
    "C101_found_partial"
   ],
   "note": "With the same restrictions as C100."
  },
  {
   "property": "C102",
   "status": "partial",
   "theorems": [
    "C102_table_partial",
    "C102_struct_partial",
    "C102_errors",
    "C102_type_refuted",
    "C102_vector_refuted",
    "C102_string_refuted",
    "C102_uint8_refuted"
   ],
   "note": "For Go fields that fit, in buffers without a journal. No Go struct ever gives an error (C102_errors); the code panics for Go fields of another type or not exported, for vectors of numbers of more than one byte and for absent strings, and a number registered as Uint8 is skipped."
  },
  {
   "property": "C103",
   "status": "proved",
   "theorems": [
    "C103_present"
   ],
   "note": "For buffers without a journal, when the field shares no byte with anything else and the field after it is not a union whose type it could be."
  },
  {
   "property": "C104",
   "status": "partial",
   "theorems": [
    "C104_absent_partial",
    "C104_shared_refuted",
    "C104_gap_refuted"
   ],
   "note": "For buffers without a journal whose value has no structs and no absent vectors, when the code finds all references across the place (as in C94; those of the table itself are found as well) and the vtable is not shared. Refuted for shared vtables (other tables get the field too) and for references behind an absent table."
  },
  {
   "property": "C105",
   "status": "partial",
   "theorems": [
    "C105_replaced_partial",
    "C105_longer_refuted",
    "C105_shorter_refuted",
    "C105_table_refuted",
    "C105_vector_refuted"
   ],
   "note": "For vectors of the same size and tables that are not larger, in buffers without a journal, when nothing else is where the value comes; without unions. Refuted for longer vectors (no reference is moved), for shorter ones (offsets before them are overwritten), for absent tables (bytes and references move by different distances) and for absent vectors (panic)."
  },
  {
   "property": "C106",
   "status": "partial",
   "theorems": [
    "C106_field",
    "C106_union",
    "C106_elements",
    "C106_info_partial",
    "C106_len_partial",
    "C106_traverse_partial",
    "C106_cut_refuted"
   ],
   "note": "When no journal entry cuts a number of the structure or a reference; sizes and traversal with the restrictions of C72 and C73. Refuted for an entry that cuts the offset to a vtable: every field access panics although the bytes are the same."
  },
  {
   "property": "C107",
   "status": "proved",
   "theorems": [
    "C107_edits"
   ],
   "note": "For updates of fields that share no byte with anything else, when no journal entry cuts a number of the structure or a reference at the start; none does afterwards."
  },
  {
   "property": "C108",
   "status": "partial",
   "theorems": [
    "C108_element",
    "C108_refused",
    "C108_append_refuted",
    "C108_wider_refuted"
   ],
   "note": "Replacing is proved for every journal, when no other value shares bytes with the element. Appending is refuted: the bytes behind the vector move, the references to them do not. A number of another width is accepted and overwrites the next element."
  },
  {
   "property": "C109",
   "status": "partial",
   "theorems": [
    "C109_table_partial",
    "C109_order_refuted",
    "C109_before_refuted"
   ],
   "note": "For tables that are not longer than the one replaced, when nothing else shares bytes with the place. Longer tables and appended ones are only computed on the sample. Refuted for longer tables when the elements are not stored in the order of their indexes: a reference is moved although its table is not (the document is no longer stored), or is not moved although its table is (the code panics)."
  },
  {
   "property": "C110",
   "status": "partial",
   "theorems": [
    "C110_swap",
    "C110_numbers_refuted",
    "C110_negative_refuted"
   ],
   "note": "Proved for tables, when the slots share no byte with other values and the elements are stored behind them. Refuted for numbers, which both become zero, and for negative indexes, which are not refused."
  },
  {
   "property": "C111",
   "status": "proved",
   "theorems": [
    "C111_sort",
    "C111_compares_exist"
   ],
   "note": "For every strategy of comparisons and exchanges within the vector, when the slots share no byte with other values and the elements are stored behind them; insertion sort is shown to be such a strategy in C37. Comparing a number field is shown to be a comparison as assumed."
  },
  {
   "property": "C112",
   "status": "partial",
   "theorems": [
    "C112_calls",
    "C112_written",
    "C112_order_refuted"
   ],
   "note": "For calls that replace numbers and structs of tables and vectors and tables of vectors that are not longer, and exchange tables; each with the conditions of C107 to C110 on the value at that moment. Refuted when an element is appended after elements were exchanged: the vector is measured wrongly and the code panics, while the other order works."
  },
  {
   "property": "C113",
   "status": "partial",
   "theorems": [
    "C113_table_partial",
    "C113_struct_partial",
    "C113_after_partial",
    "C113_letter_refuted"
   ],
   "note": "With the limits of C102 on the Go fields, and for values that come from one place: one journal entry or the bytes below. Refuted otherwise: after one letter of a string is set, which C108 allows, the string is read with the old letter, or the code panics."
  },
  {
   "property": "C114",
   "status": "partial",
   "theorems": [
    "C114_search_partial",
    "C114_position_partial",
    "C114_after_partial",
    "C114_swapped_refuted"
   ],
   "note": "With the restrictions of C100; what is in vectors of tables is not found. Refuted after two tables of a vector were exchanged: the document is measured too short and is itself no longer found at places that belong to it."
  },
  {
   "property": "C115",
   "status": "partial",
   "theorems": [
    "C115_equal_partial",
    "C115_both_partial",
    "C115_after_partial",
    "C115_cut_refuted"
   ],
   "note": "With the restrictions of C86, and for tables whose numbers outside vectors of numbers are not cut by a journal entry. Refuted otherwise: a table with an entry over one byte of a number is not equal to itself, nor to the same data without the entry."
  },
  {
   "property": "C116",
   "status": "partial",
   "theorems": [
    "C116_copy_partial",
    "C116_room_partial",
    "C116_double_refuted",
    "C116_stream_refuted",
    "C116_gap_refuted"
   ],
   "note": "For sources whose range reads give current bytes and, if they are a DoubleLayer, have nothing left to merge; for destinations that are a BaseImpl or NoLayer, a DoubleLayer without entries, or a DirectReader whose buffer does not grow; room only in BaseImpl and NoLayer. Refuted otherwise: room made in a DoubleLayer loses the bytes that should follow, a copy over the end of the buffer of a DirectReader moves its stream, and a DoubleLayer with a gap between entries is copied with zeros in it."
  },
  {
   "property": "C117",
   "status": "partial",
   "theorems": [
    "C117_merge_by_value",
    "C117_read_by_value",
    "C117_gap_free_partial",
    "C117_update_partial",
    "C117_runs",
    "C117_plain_runs",
    "C117_first",
    "C117_lost_refuted",
    "C117_zeros_refuted"
   ],
   "note": "Merging and reading over shared arrays are proved for every journal whose first entry shares no byte with the rest. What the journal says is shown when the entries leave no gap; updates are shown when there is at most one entry before and after, sequences when they stay inside the bytes and the entry, or in the room of the bytes of a buffer without entries, or inside the first update of a buffer on nothing. Refuted otherwise: an update before the place of an earlier one loses the earlier one and brings one of its bytes up elsewhere, an update behind it shows zeros between the two."
  },
  {
   "property": "C118",
   "status": "partial",
   "theorems": [
    "C118_no_layer_partial",
    "C118_dup_partial",
    "C118_double_layer_partial",
    "C118_bytes",
    "C118_list_partial",
    "C118_stream_refuted",
    "C118_no_buffer_refuted",
    "C118_list_refuted",
    "C118_gap_refuted"
   ],
   "note": "For a BaseImpl, a NoLayer and a DoubleLayer without gaps; into a DoubleLayer only from a BaseImpl, whose gaps are filled with zeros. Refuted otherwise: a DirectReader loses its stream as a NoLayer and when duplicated, a NoLayer made a DoubleLayer has no buffer, and neither has a new list beside one in a DoubleLayer when the default is NoLayer."
  },
  {
   "property": "C119",
   "status": "partial",
   "theorems": [
    "C119_moved",
    "C119_same_partial",
    "C119_either",
    "C119_empty_refuted"
   ],
   "note": "Proved for every list with elements whose offsets can be read. Refuted for the empty list: with the option on, which is the default, the code panics."
  }
 ]
}