{
 "claims": [
  {
   "property": "C01",
   "status": "proved",
   "theorems": [
    "C01_hsort_sorted_permutation",
    "C01_hsort_respected_order"
   ],
   "note": ""
  },
  {
   "property": "C02",
   "status": "proved",
   "theorems": [
    "C02_hsort_safe_any_comparator"
   ],
   "note": "any comparator; out of bounds and non-termination are None"
  },
  {
   "property": "C03",
   "status": "proved",
   "theorems": [
    "C03_binary_search_exact",
    "C03_find_iff_present"
   ],
   "note": "all probes go through checked reads"
  },
  {
   "property": "C04",
   "status": "proved",
   "theorems": [
    "C04_sorted_array_is_first_wins_set"
   ],
   "note": "includes failing allocations"
  },
  {
   "property": "C05",
   "status": "proved",
   "theorems": [
    "C05_index_keeps_first_of_equals"
   ],
   "note": "uses the heap sort model"
  },
  {
   "property": "C06",
   "status": "proved",
   "theorems": [
    "C06_hash_is_first_wins_set",
    "C06_hash_index_is_first_wins_set",
    "C06_hash_index_zero_key_refuted"
   ],
   "note": "histories of fewer than 2^29 calls (32-bit size computation); bulk indexing breaks the set when another key equals the zero key (refuted theorem)"
  },
  {
   "property": "C07",
   "status": "proved",
   "theorems": [
    "C07_hash_counter_exact",
    "C07_hash_counter_upper_bound",
    "C07_hash_counter_oom_refuted",
    "C07_hash_counter_index_refuted"
   ],
   "note": "exact with successful allocations; refuted after a failed growth and for bulk indexing with repeated zero keys"
  },
  {
   "property": "C08",
   "status": "proved",
   "theorems": [
    "C08_static_array_is_first_wins_set",
    "C08_unsorted_array_is_first_wins_set",
    "C08_static_index"
   ],
   "note": "conversions included"
  },
  {
   "property": "C09",
   "status": "proved",
   "theorems": [
    "C09_kinds_interchangeable"
   ],
   "note": "all six kinds, histories with successful allocations, up to 2^29 calls (hash counter bound)"
  },
  {
   "property": "C10",
   "status": "proved",
   "theorems": [
    "C10_rb_invariants",
    "C10_rb_index_invariants"
   ],
   "note": "pool trees after any history / bulk index; fewer than 2^31 calls"
  },
  {
   "property": "C100",
   "status": "proved",
   "theorems": [
    "C100_set_size",
    "C100_no_field"
   ],
   "note": ""
  },
  {
   "property": "C11",
   "status": "proved",
   "theorems": [
    "C11_avl_invariants",
    "C11_avl_index_invariants"
   ],
   "note": "pool trees after any history / bulk index; fewer than 2^31 calls"
  },
  {
   "property": "C12",
   "status": "proved",
   "theorems": [
    "C12_rb_is_first_wins_set",
    "C12_avl_is_first_wins_set",
    "C12_rb_index_is_first_wins_set",
    "C12_avl_index_is_first_wins_set",
    "C12_rb_counter",
    "C12_avl_counter",
    "C12_counter_empty_refuted",
    "C12_counter_index_empty_refuted"
   ],
   "note": "set behaviour for all histories; counter exact after a first successful addition, refuted for the empty pool"
  },
  {
   "property": "C13",
   "status": "proved",
   "theorems": [
    "C13_path_never_overflows"
   ],
   "note": "any access outside the 63-element arrays is None in the model"
  },
  {
   "property": "C14",
   "status": "proved",
   "theorems": [
    "C14_walk_in_order"
   ],
   "note": "mr_tree_walk; mr_tree_next not modelled"
  },
  {
   "property": "C15",
   "status": "proved",
   "theorems": [
    "C15_bitfield_round_trip",
    "C15_bitfield_read_exact",
    "C15_width_zero_undefined"
   ],
   "note": "widths 1..128, every shift and memory; width 0 reaches an undefined shift"
  },
  {
   "property": "C16",
   "status": "proved",
   "theorems": [
    "C16_bitfield_frame"
   ],
   "note": "bit-exact frame; accesses stay inside the bytes of the field"
  },
  {
   "property": "C17",
   "status": "proved",
   "theorems": [
    "C17_bitfield_geometry",
    "C17_detected_field_round_trip"
   ],
   "note": "widths up to 255 (uint8_t width)"
  },
  {
   "property": "C18",
   "status": "proved",
   "theorems": [
    "C18_uint128_round_trip",
    "C18_int128_round_trip",
    "C18_text_canonical",
    "C18_int128_min_refuted"
   ],
   "note": "128-bit values printed by the library's own code; the smallest signed value relies on wrapping (undefined in ISO C, shown by the _refuted theorem). Narrower widths are printed by libc printf, which is trusted."
  },
  {
   "property": "C19",
   "status": "proved",
   "theorems": [
    "C19_strtouintmax",
    "C19_progress",
    "C19_base8_refuted"
   ],
   "note": "C locale. With base 8 a lone sign in front of 8 or 9 is consumed (C19_base8_refuted); with bases 0, 10, 16 this cannot happen."
  },
  {
   "property": "C20",
   "status": "proved",
   "theorems": [
    "C20_json_string_round_trip"
   ],
   "note": "Any locale (isprint is arbitrary); sscanf/printf conversions modelled per ISO C."
  },
  {
   "property": "C21",
   "status": "proved",
   "theorems": [
    "C21_cinit_string_exact",
    "C21_cinit_string_refuted"
   ],
   "note": "Exact characterisation; the unconditional round trip is refuted."
  },
  {
   "property": "C22",
   "status": "proved",
   "theorems": [
    "C22_scm_string_round_trip"
   ],
   "note": "Any locale."
  },
  {
   "property": "C23",
   "status": "proved",
   "theorems": [
    "C23_xml_text_round_trip",
    "C23_xml_decode"
   ],
   "note": "xml1 reader (own parser); the libxml2 reader is not modelled."
  },
  {
   "property": "C24",
   "status": "proved",
   "theorems": [
    "C24_xml_unquote_terminates",
    "C24_xml_unquote_loops_refuted",
    "C24_xml_unquote_overrun_refuted"
   ],
   "note": "Conditional termination plus refutations of the general claim (defects)."
  },
  {
   "property": "C25",
   "status": "proved",
   "theorems": [
    "C25_cinit_char_round_trip",
    "C25_scm_char_round_trip"
   ],
   "note": ""
  },
  {
   "property": "C26",
   "status": "proved",
   "theorems": [
    "C26_child_lists",
    "C26_add_child_exact",
    "C26_last_child_cache_refuted"
   ],
   "note": "Holds for every history in which no call is for a proper ancestor of the focus; exact criterion for one call; false for arbitrary histories (last-child cache), witness proved."
  },
  {
   "property": "C27",
   "status": "proved",
   "theorems": [
    "C27_dfs_calls",
    "C27_dfs_visitor",
    "C27_dfs_after_history",
    "C27_dfs_leaf_refuted"
   ],
   "note": "For roots and for start nodes that are entered; a leaf start below another node escapes its subtree, witness proved."
  },
  {
   "property": "C28",
   "status": "proved",
   "theorems": [
    "C28_xdr_int_round_trip",
    "C28_xdr_int_injective"
   ],
   "note": "All widths as bit patterns; xdr_int and friends of the XDR library per RFC 4506."
  },
  {
   "property": "C29",
   "status": "proved",
   "theorems": [
    "C29_xdr_opaque",
    "C29_xdr_string"
   ],
   "note": "xdr_opaque of the XDR library per RFC 4506."
  },
  {
   "property": "C30",
   "status": "proved",
   "theorems": [
    "C30_xdr_consumed",
    "C30_xdr_truncated"
   ],
   "note": "For any successful decoding and for every proper prefix of an encoding."
  },
  {
   "property": "C31",
   "status": "proved",
   "theorems": [
    "C31_expression",
    "C31_never_wrong",
    "C31_modulo",
    "C31_zero_divisor_reported",
    "C31_zero_divisor_refuted",
    "C31_smallest_refuted",
    "C31_promotion",
    "C31_bool"
   ],
   "note": "The part 'division by zero fails' is proved for the functions and refuted for CINIT expressions, whose grammar ignores the status. Expressions are syntax trees: the bison parser and the flex scanner are not modelled. Floating point operations are parameters."
  },
  {
   "property": "C32",
   "status": "proved",
   "theorems": [
    "C32_enum_round_trip",
    "C32_enum_name_round_trip",
    "C32_init_defined",
    "C32_init_8_refuted"
   ],
   "note": "Any enumerators, any value, types of up to 64 bits; read back as a string, as part of a longer text, and as the expression the CINIT grammar makes of it (parser itself not modelled). mr_init_enum is undefined for 8-byte enums without wrapping (2LL << 63): C32_init_8_refuted. 128-bit enums not covered (their enumerators cannot be looked up by name)."
  },
  {
   "property": "C33",
   "status": "proved",
   "theorems": [
    "C33_row_major_iff",
    "C33_equal_extents",
    "C33_limited_array",
    "C33_collect_dims",
    "C33_row_major_refuted"
   ],
   "note": "The property as first stated is false: extents are not shifted (mr_save.c:1219). Proved: exactly which shapes are saved correctly. Elements matching nodes saved before are not modelled."
  },
  {
   "property": "C34",
   "status": "proved",
   "theorems": [
    "C34_array_elements"
   ],
   "note": "Row-major placement for any number of dimensions; success excludes excess values; load_all free of undefined behaviour is C57_load_defined."
  },
  {
   "property": "C35",
   "status": "proved",
   "theorems": [
    "C35_struct_values",
    "C35_unknown_name_refuted"
   ],
   "note": "Structs without a named anonymous union among the fields; the refutation shows an unknown name accepted for an anonymous field."
  },
  {
   "property": "C36",
   "status": "proved",
   "theorems": [
    "C36_append_history",
    "C36_doubling_overflow_refuted",
    "C36_sum_overflow_refuted"
   ],
   "note": "Total size below 2^62; beyond that the arithmetic overflows (refuted)."
  },
  {
   "property": "C37",
   "status": "proved",
   "theorems": [
    "C37_hash_of_content",
    "C37_caches_invisible",
    "C37_name_order",
    "C37_name_and_type_order",
    "C37_lookup_by_name"
   ],
   "note": "Little-endian words; sequential use of the caches."
  },
  {
   "property": "C38",
   "status": "proved",
   "theorems": [
    "C38_reads_document",
    "C38_result_is_prefix",
    "C38_comment_refuted",
    "C38_int_overflow_refuted"
   ],
   "note": "streams below 2^30 characters; overflow beyond and the treatment of comments refuted with witnesses"
  },
  {
   "property": "C39",
   "status": "proved",
   "theorems": [
    "C39_normalize",
    "C39_qualifiers_irrelevant",
    "C39_normalize_total",
    "C39_idempotent",
    "C39_idempotent_refuted",
    "C39_pointer",
    "C39_not_a_pointer",
    "C39_star_only_refuted",
    "C39_registered_name_found"
   ],
   "note": "mr_normalize_type, mr_type_is_a_pointer, mr_skip_keywords; idempotence restricted to blank/tab, refuted with a line feed; star-only name reads before the string"
  },
  {
   "property": "C40",
   "status": "proved",
   "theorems": [
    "C40_sort_td",
    "C40_sort_td_permutation",
    "C40_registered"
   ],
   "note": "pointer-level model of mr_add_type, mr_sort_td and the registration walk; anonymous unions pushed during the walk left out"
  },
  {
   "property": "C41",
   "status": "proved",
   "theorems": [
    "C41_initialised_once",
    "C41_one_initialiser",
    "C41_every_call_returns"
   ],
   "note": "Sequentially consistent interleavings; the code's relaxed atomics are outside the model. The body of the initialisation is an arbitrary list of steps that do not call mr_conf_init."
  },
  {
   "property": "C42",
   "status": "proved",
   "theorems": [
    "C42_union_discriminator",
    "C42_order_independent"
   ],
   "note": "any type graph, cyclic included, any visiting order"
  },
  {
   "property": "C43",
   "status": "proved",
   "theorems": [
    "C43_references",
    "C43_undefined_reference_refuted",
    "C43_largest_id_refuted",
    "C43_content_type_refuted"
   ],
   "note": "Distinct identifiers below 2^32-1, each pointer given one value, content references naming pointers; refutations show what happens otherwise."
  },
  {
   "property": "C44",
   "status": "proved",
   "theorems": [
    "C44_fd_by_offset",
    "C44_sorting_comparator_cycle_refuted"
   ],
   "note": "Sorting at registration plus mr_get_fd_by_offset, any fields, any order. The refuted theorem shows that the sorting comparator itself is not a preorder when a bit-field and an ordinary field share an offset; the lookup property holds regardless."
  },
  {
   "property": "C45",
   "status": "proved",
   "theorems": [
    "C45_copy_faithful",
    "C45_failure_clean",
    "C45_nothing_shared",
    "C45_copy_released",
    "C45_opaque_refused",
    "C45_void_content_refuted",
    "C45_root_string_refuted",
    "C45_root_pointer_refuted",
    "C45_failure_frees_destination_refuted",
    "C45_failure_interior_refuted"
   ],
   "note": "For every memory and every node table that describes it (any number of nodes, sharing, cycles) and any pattern of allocation failures.  The hypothesis 'described' says what mr_save should establish; mr_save itself is not part of this model.  The refuted theorems show where the code does not keep the plain statement: void pointer to a string's content, root that is itself a string or pointer, clean-up after failure with references to the root or to inner elements; opaque data is always refused."
  },
  {
   "property": "C46",
   "status": "proved",
   "theorems": [
    "C46_free_exact",
    "C45_copy_released"
   ],
   "note": "For every memory and every describing node table.  Blocks must be owned as a whole (heap_owned) and pointers to allocated blocks must be known to the table (heap_closed).  free is undefined for a released block, so definedness of the run is the exactly-once statement."
  },
  {
   "property": "C47",
   "status": "proved",
   "theorems": [
    "C47_antisymmetric",
    "C47_zero_iff_equal",
    "C47_transitive",
    "C47_equal_hash",
    "C47_hash_of_tree",
    "C47_bitfield_value",
    "C47_complex_nan_refuted",
    "C47_negative_zero_refuted",
    "C47_enum_refuted",
    "C47_no_table_refuted",
    "C47_full_char_array_refuted"
   ],
   "note": "For all tables with readable values. Transitivity needs that no complex number has NaN in its imaginary part only, the agreement with the hash that there is no negative zero and every enumeration type has its detected size; both are refuted without. Texts in place, floating point order by bit pattern (80-bit canonical encodings)."
  },
  {
   "property": "C48",
   "status": "proved",
   "theorems": [
    "C48_extract",
    "C48_union_offset",
    "C48_extract_inside"
   ],
   "note": "mr_anon_unions_extract with its recursion through mr_init_struct; names as index paths (sprintf buffers not modelled)"
  },
  {
   "property": "C49",
   "status": "proved",
   "theorems": [
    "C49_char_array",
    "C49_char_array_behind_pointer",
    "C49_long_text_refuted",
    "C49_second_char_array_refuted"
   ],
   "note": "src/mr_load.c; the XDR variant is C54."
  },
  {
   "property": "C50",
   "status": "proved",
   "theorems": [
    "C50_renumber"
   ],
   "note": "mr_renumber_node under mr_ptrs_dfs."
  },
  {
   "property": "C51",
   "status": "proved",
   "theorems": [
    "C51_unquote_safe"
   ],
   "note": ""
  },
  {
   "property": "C52",
   "status": "proved",
   "theorems": [
    "C52_remove_empty_nodes",
    "C52_pruned_tree"
   ],
   "note": "mr_remove_empty_nodes."
  },
  {
   "property": "C53",
   "status": "proved",
   "theorems": [
    "C53_xdr_round_trip",
    "C53_xdr_injective",
    "C53_zero_opaque_refuted",
    "C53_char_array_block_refuted"
   ],
   "note": "wf excludes the two refuted cases; size fields and final cross reference resolution are not part of the model."
  },
  {
   "property": "C54",
   "status": "proved",
   "theorems": [
    "C54_xdr_safe",
    "C54_xdr_terminates",
    "C54_xdr_accepts_values_only",
    "C54_char_array_overrun_refuted",
    "C54_array_overrun_refuted"
   ],
   "note": "Safety proved for types without fixed char arrays and resizable arrays, refuted for those two."
  },
  {
   "property": "C55",
   "status": "proved",
   "theorems": [
    "C55_text_complete_or_absent",
    "C55_text_complete"
   ],
   "note": "Texts below 2^31-1 characters; vsnprintf trusted."
  },
  {
   "property": "C56",
   "status": "proved",
   "theorems": [
    "C56_add_again",
    "C56_add_last_again_refuted"
   ],
   "note": "re-adding is harmless except for the last element of the list, where it closes a cycle"
  },
  {
   "property": "C57",
   "status": "proved",
   "theorems": [
    "C57_load_defined",
    "C57_failed_load",
    "C57_union_refuted",
    "C57_pointer_twice_refuted"
   ],
   "note": "Refutations: unions and pointers given two values."
  },
  {
   "property": "C58",
   "status": "proved",
   "theorems": [
    "C58_pointer",
    "C58_blocks_owned"
   ],
   "note": ""
  },
  {
   "property": "C59",
   "status": "proved",
   "theorems": [
    "C59_save_is_a_tree",
    "C59_sized_pointer_cycle_refuted",
    "C59_sized_pointer_cut_refuted"
   ],
   "note": "For type descriptions without size fields on pointers; with them the claim is false (two refutations). Memory is an arbitrary function, the traversal ends (fuel is not used up)."
  },
  {
   "property": "C60",
   "status": "proved",
   "theorems": [
    "C60_save_describes",
    "C60_empty_elements_refuted"
   ],
   "note": "Same scope as C59. An array of empty structures is rejected."
  },
  {
   "property": "C61",
   "status": "proved",
   "theorems": [
    "C61_pointed_to_once",
    "C61_strings_once",
    "C61_container_refuted",
    "C61_pointer_to_pointer_refuted"
   ],
   "note": "For contents of pointers and for strings; two wider readings are refuted."
  },
  {
   "property": "C62",
   "status": "proved",
   "theorems": [
    "C62_json_document_roundtrip",
    "C62_negative_zero_refuted",
    "C62_none_type_refuted"
   ],
   "note": "Writer, lexer and grammar in Json.v; forms of floating point texts and names are hypotheses (JsonSpec.v). Refuted: sign of -0, MR_TYPE_NONE."
  },
  {
   "property": "C63",
   "status": "proved",
   "theorems": [
    "C63_json_load_is_a_tree"
   ],
   "note": ""
  },
  {
   "property": "C64",
   "status": "proved",
   "theorems": [
    "C64_cinit_document_roundtrip",
    "C64_reserved_name_refuted",
    "C64_untyped_pointer_refuted",
    "C64_negative_zero_refuted"
   ],
   "note": "Refuted: reserved field names, pointers to pointers without a type descriptor, the sign of negative zero."
  },
  {
   "property": "C65",
   "status": "proved",
   "theorems": [
    "C65_cinit_load_is_a_tree",
    "C65_reference_with_members_refuted"
   ],
   "note": "Refuted for texts giving a reference attribute to a node with members: the members are unreachable."
  },
  {
   "property": "C66",
   "status": "proved",
   "theorems": [
    "C66_scm_document_roundtrip"
   ],
   "note": "Negative results: C66_reserved_name_refuted, C66_nothing_printed_refuted, C66_negative_zero_refuted."
  },
  {
   "property": "C67",
   "status": "proved",
   "theorems": [
    "C67_scm_load_is_a_tree"
   ],
   "note": "Negative results: C67_reference_with_members_refuted, C67_octal_number_refuted."
  },
  {
   "property": "C68",
   "status": "proved",
   "theorems": [
    "C68_xml1_document_roundtrip"
   ],
   "note": "All values come back as texts; Value.v and C24 tell what a text is read as."
  },
  {
   "property": "C69",
   "status": "proved",
   "theorems": [
    "C69_xml1_load_is_a_tree",
    "C69_prefix_dropped"
   ],
   "note": "Negative results: C69_reference_with_members_refuted, C69_reference_chain_refuted, C69_isnull_false_refuted."
  },
  {
   "property": "C70",
   "status": "proved",
   "theorems": [
    "C70_union_member_by_discriminator",
    "C70_meaning_unique",
    "C70_index_out_of_range_refuted",
    "C70_wide_override_refuted",
    "C70_signed_bitfield_refuted"
   ],
   "note": "Numbers outside the range of int are converted to int first, the refuted theorems show what then happens."
  },
  {
   "property": "C71",
   "status": "proved",
   "theorems": [
    "C71_cached_unions",
    "C71_moved_siblings_refuted",
    "C71_too_many_refuted"
   ],
   "note": "Nodes matched alone; moving siblings along is refuted (mr_save.c:622-634, 791-792). The selection by type is a parameter, C70 proves its hypothesis. Allocation failures and the change of descriptors on a move (625) are not modelled."
  },
  {
   "property": "C72",
   "status": "proved",
   "theorems": [
    "C72_save_ends"
   ],
   "note": "Type tables as in C59-C61 (pointers without size fields); tame lists what is asked of the data. The number of nodes is bounded by SaveSize.nodes_bound, the depth by the measure SaveSize.meas."
  },
  {
   "property": "C73",
   "status": "proved",
   "theorems": [
    "C73_rb_validator",
    "C73_avl_validator",
    "C73_validators_total",
    "C73_histories_validate"
   ],
   "note": "Exact characterisation of both validators for every pool of nodes; diagnostics printed to stderr are not modelled."
  },
  {
   "property": "C74",
   "status": "proved",
   "theorems": [
    "C74_cursor",
    "C74_cursor_in_histories"
   ],
   "note": "Any sequence of directions after mr_tree_find, trees of at most 62 levels (every tree of the public functions)."
  },
  {
   "property": "C75",
   "status": "proved",
   "theorems": [
    "C75_override_types",
    "C75_order_irrelevant",
    "C75_registered_pointers",
    "C75_unrelated_type_refuted"
   ],
   "note": "Detection exact for all type graphs; that unrelated types do not disturb the detection is refuted with a witness."
  },
  {
   "property": "C76",
   "status": "proved",
   "theorems": [
    "C76_load_complete"
   ],
   "note": "Handlers of scalars are an oracle (leaf) that must accept the value. Anonymous unions and mr_pointer_set_size are outside the kinds that fit."
  },
  {
   "property": "C77",
   "status": "proved",
   "theorems": [
    "C77_copy_through_json"
   ],
   "note": "For types without unions, size fields on pointers or opaque pointers; printing and reading of single scalars are parameters (conditions printable and readable)."
  },
  {
   "property": "C78",
   "status": "proved",
   "theorems": [
    "C78_declared",
    "C78_array",
    "C78_basic",
    "C78_basic_size",
    "C78_basic_pointer",
    "C78_unknown",
    "C78_array_of_pointers_refuted"
   ],
   "note": "False for arrays of pointers to pointers (refuted with a witness)."
  },
  {
   "property": "C79",
   "status": "proved",
   "theorems": [
    "C79_validate",
    "C79_fields",
    "C79_detected",
    "C79_void"
   ],
   "note": ""
  },
  {
   "property": "C80",
   "status": "proved",
   "theorems": [
    "C80_yaml_document_roundtrip",
    "C80_void_shifts_numbers_refuted"
   ],
   "note": "Events of yaml_save.c and yaml_load.c; libyaml is trusted to return what was emitted. The proviso about anchors is necessary: C80_void_shifts_numbers_refuted."
  },
  {
   "property": "C81",
   "status": "proved",
   "theorems": [
    "C81_yaml_accepted",
    "C81_yaml_plain_accepted"
   ],
   "note": "Soundness for every accepted well-formed stream and acceptance of all plain documents."
  },
  {
   "property": "C82",
   "status": "proved",
   "theorems": [
    "C82_xml2_document_roundtrip",
    "C82_non_ascii_refuted"
   ],
   "note": "libxml2's tree functions modelled as documented; printing and parsing of the document is the relation formatted. The restriction on characters is necessary: C82_non_ascii_refuted."
  },
  {
   "property": "C83",
   "status": "proved",
   "theorems": [
    "C83_xml2_accepted",
    "C83_xml2_read",
    "C83_comment_refuted"
   ],
   "note": "Acceptance is characterised exactly; C83_comment_refuted shows a comment taken for the value."
  },
  {
   "property": "C84",
   "status": "proved",
   "theorems": [
    "C84_reorder",
    "C84_marks",
    "C84_marks_refuted"
   ],
   "note": "C84_marks_refuted is a table where the mark MR_IS_REFERENCED is lost; it is not derived from a run of mr_save in the model."
  },
  {
   "property": "C85",
   "status": "proved",
   "theorems": [
    "C85_stream",
    "C85_reads_inside",
    "C85_setpostn_refuted",
    "C85_inline_refuted"
   ],
   "note": ""
  },
  {
   "property": "C86",
   "status": "proved",
   "theorems": [
    "C86_names",
    "C86_one_entry",
    "C86_unloaded_refuted"
   ],
   "note": ""
  },
  {
   "property": "C87",
   "status": "proved",
   "theorems": [
    "C87_token_locations",
    "C87_unique",
    "C87_rule_locations",
    "C87_keywords",
    "C87_keywords_refuted"
   ],
   "note": ""
  },
  {
   "property": "C88",
   "status": "proved",
   "theorems": [
    "C88_messages",
    "C88_last_refuted",
    "C88_level_refuted",
    "C88_empty_refuted"
   ],
   "note": ""
  },
  {
   "property": "C89",
   "status": "proved",
   "theorems": [
    "C89_types",
    "C89_members",
    "C89_entries",
    "C89_nested_arrays_refuted",
    "C89_flexible_refuted",
    "C89_pointer_name_refuted",
    "C89_function_refuted",
    "C89_qualifier_refuted",
    "C89_bit_offset_refuted"
   ],
   "note": ""
  },
  {
   "property": "C90",
   "status": "proved",
   "theorems": [
    "C90_members",
    "C90_each_member",
    "C90_leading_bitfield_refuted",
    "C90_only_bitfields_refuted",
    "C90_bool_refuted",
    "C90_large_refuted"
   ],
   "note": ""
  },
  {
   "property": "C91",
   "status": "proved",
   "theorems": [
    "C91_void_name",
    "C91_other_name",
    "C91_no_identifier_refuted",
    "C91_neighbour_refuted",
    "C91_qualifier_refuted",
    "C91_strndup",
    "C91_strndup_open",
    "C91_strdup",
    "C91_strdup_fails_refuted",
    "C91_strdup_long_refuted",
    "C91_type_name"
   ],
   "note": ""
  },
  {
   "property": "C92",
   "status": "proved",
   "theorems": [
    "C92_object_type",
    "C92_qualified_refuted",
    "C92_typedef_pointer_refuted"
   ],
   "note": ""
  },
  {
   "property": "C93",
   "status": "proved",
   "theorems": [
    "C93_types",
    "C93_namespaces_refuted",
    "C93_enumeration",
    "C93_negative_refuted",
    "C93_members",
    "C93_size",
    "C93_size_refuted",
    "C93_discriminator_refuted"
   ],
   "note": ""
  },
  {
   "property": "C94",
   "status": "proved",
   "theorems": [
    "C94_prune",
    "C94_reference_refuted"
   ],
   "note": ""
  },
  {
   "property": "C95",
   "status": "proved",
   "theorems": [
    "C95_bitfield",
    "C95_truncated"
   ],
   "note": ""
  },
  {
   "property": "C96",
   "status": "proved",
   "theorems": [
    "C96_basic_sort",
    "C96_other_types",
    "C96_nan_refuted"
   ],
   "note": ""
  },
  {
   "property": "C97",
   "status": "proved",
   "theorems": [
    "C97_assign",
    "C97_null",
    "C97_void_bitfield_refuted"
   ],
   "note": ""
  },
  {
   "property": "C98",
   "status": "proved",
   "theorems": [
    "C98_release"
   ],
   "note": ""
  },
  {
   "property": "C99",
   "status": "proved",
   "theorems": [
    "C99_print",
    "C99_bool",
    "C99_min_refuted"
   ],
   "note": ""
  }
 ]
}
