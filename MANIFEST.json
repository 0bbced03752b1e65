{"claims": [
{"property": "C01", "status": "proved", "theorems": ["C01_init_page"], "note": "both layouts, every page size / header size / size definition inside the documented limits"},
{"property": "C02", "status": "proved", "theorems": ["C02_append"], "note": ""},
{"property": "C03", "status": "proved", "theorems": ["C03_insert"], "note": ""},
{"property": "C04", "status": "proved", "theorems": ["C04_update"], "note": "exact success condition given for tomb stones, fixed pages, and replacements that fit or cannot fit"},
{"property": "C05", "status": "proved", "theorems": ["C05_discard"], "note": ""},
{"property": "C06", "status": "proved", "theorems": ["C06_discard_all"], "note": ""},
{"property": "C07", "status": "proved", "theorems": ["C07_discard_trailing"], "note": ""},
{"property": "C08", "status": "proved", "theorems": ["C08_swap"], "note": ""},
{"property": "C09", "status": "proved", "theorems": ["C09_queries"], "note": ""},
{"property": "C10", "status": "proved", "theorems": ["C10_can_predicts"], "note": ""},
{"property": "C11", "status": "proved", "theorems": ["C11_failure_changes_nothing"], "note": ""},
{"property": "C12", "status": "proved", "theorems": ["C12_memory_safe"], "note": ""},
{"property": "C13", "status": "proved", "theorems": ["C13_header_in_place", "C13_header_kept", "C13_header_write"], "note": ""},
{"property": "C14", "status": "proved", "theorems": ["C14_compaction", "C14_no_memory"], "note": "the heap sort is an arbitrary function that sorts; the failing malloc is a separate theorem"},
{"property": "C15", "status": "proved", "theorems": ["C15_zero_out"], "note": ""},
{"property": "C16", "status": "proved", "theorems": ["C16_overhead", "C16_space_identity"], "note": ""},
{"property": "C17", "status": "proved", "theorems": ["C17_allotted"], "note": ""},
{"property": "C18", "status": "proved", "theorems": ["C18_append_iff_space"], "note": ""},
{"property": "C19", "status": "proved", "theorems": ["C19_update_retry"], "note": ""},
{"property": "C20", "status": "proved", "theorems": ["C20_min_page_size_sufficient", "C20_min_page_size_minimal"], "note": ""},
{"property": "C21", "status": "proved", "theorems": ["C21_max_tuple_count_bound", "C21_max_tuple_count_reached"], "note": ""},
{"property": "C22", "status": "proved", "theorems": ["C22_max_tuple_size"], "note": ""},
{"property": "C23", "status": "partial", "theorems": ["C23_init_implies_one_tuple_refuted", "C23_init_implies_one_tuple_partial", "C23_exceptions"], "note": "False of the code as stated: C23_init_implies_one_tuple_refuted gives, in each layout, a 257 byte page which init_page accepts and on which the append of a minimal tuple fails. C23_init_implies_one_tuple_partial proves the claim whenever the page and the minimal page use the same integer width; C22 gives the exact condition in all cases. C23_exceptions describes the exceptions exactly: the page lies less than 6 bytes (slotted) or 3 bytes (fixed) above a minimal page that is on the other side of 256, 65536 or 16777216."},
{"property": "C24", "status": "proved", "theorems": ["C24_history_is_a_list", "C24_history_runs"], "note": ""},
{"property": "C25", "status": "proved", "theorems": ["C25_clone"], "note": ""},
{"property": "C26", "status": "proved", "theorems": ["C26_values_round_trip"], "note": ""},
{"property": "C27", "status": "proved", "theorems": ["C27_size_def_serialization"], "note": ""},
{"property": "C28", "status": "proved", "theorems": ["C28_size_def_deserialization_in_bounds"], "note": ""},
{"property": "C29", "status": "proved", "theorems": ["C29_same_size", "C29_size_prefix_only", "C29_streaming"], "note": ""},
{"property": "C30", "status": "proved", "theorems": ["C30_minimal_tuple"], "note": "every path of the tuple, every type the builder API can finalize"},
{"property": "C31", "status": "proved", "theorems": ["C31_element_layout", "C31_finalized_layout"], "note": ""},
{"property": "C32", "status": "proved", "theorems": ["C32_get_after_set"], "note": "all paths, all values of the kind of the element; a STRING or BINARY value of at most 2^31 bytes"},
{"property": "C33", "status": "proved", "theorems": ["C33_set_changes_nothing_else"], "note": "also: containers on the path keep their element count, and a refused set leaves every reading as it was (raw bytes of enclosing containers may be rearranged)"},
{"property": "C34", "status": "proved", "theorems": ["C34_set_respects_size"], "note": ""},
{"property": "C35", "status": "proved", "theorems": ["C35_can_set_predicts_set"], "note": ""},
{"property": "C36", "status": "partial", "theorems": ["C36_wide_is_undefined", "C36_limits_needed", "C36_refuted_size", "C36_expand_partial", "C36_refuted_count", "C36_refuted_wide"], "note": "C36_expand_partial holds under expand_limits: the larger container has less than 4 GB (README asks the caller for it), an array of bit fields has at most 64 bitmap bits per element and its count fits the prefix. C36_limits_needed: whenever elements are added to a container without these limits the outcome is wrong (another number of elements, or a size beyond the maximum size was accepted); C36_wide_is_undefined: with more than 64 bits it is always undefined behaviour. Witnesses: C36_refuted_count, C36_refuted_wide, C36_refuted_size."},
{"property": "C37", "status": "proved", "theorems": ["C37_discard"], "note": "arrays of nullable 64 bit bit fields, which can not be expanded (C36_refuted_wide), are shown to stay empty"},
{"property": "C38", "status": "proved", "theorems": ["C38_in_place", "C38_reads_back", "C38_space"], "note": "both layouts; the pages left by this operation are part of the reachable pages of C02 - C25"},
{"property": "C39", "status": "proved", "theorems": ["C39_round_trip", "C39_same_data", "C39_injective"], "note": "every finalized type whose description is shorter than 2^32 bytes, read back from any memory; the uninitialised fields of malloc'ed structs are arbitrary (environment)"},
{"property": "C40", "status": "partial", "theorems": ["C40_reads_within_input_partial", "C40_reads_within_input_without_tuples", "C40_refuted", "C40_refuted_nested"], "note": "False of the code as stated: C40_refuted and C40_refuted_nested give inputs on which it reads behind its input and the bytes there decide about the result (a nested type with code 8, a nested fixed tuple with a variable length element). C40_reads_within_input_partial proves it for all inputs whose types nested in tuples are acceptable to finalize_type_info, whose result the code ignores; C40_reads_within_input_without_tuples proves the full claim for inputs without a tuple type code."},
{"property": "C41", "status": "partial", "theorems": ["C41_any_names", "C41_identical_iff_partial", "C41_equivalence_partial", "C41_same_data_partial", "C41_refuted_unfinalized", "C41_refuted_long_names"], "note": "Proved on finalized types whose names are shorter than 64 bytes (the theorems with the suffix _partial). C41_any_names describes the outcome for names of any length: 1 exactly for equal descriptions without 64 byte names, 0 only for different descriptions, and a read past a name only where both types have the same 64 byte name at the same place. False of the code otherwise: C41_refuted_unfinalized (the header claims it works before finalization: strings with different maximum sizes are said to be identical), C41_refuted_long_names (strcmp runs past 64 byte names)."},
{"property": "C42", "status": "proved", "theorems": ["C42_compare_is_order", "C42_total_order", "C42_integers", "C42_null_least_nan_greatest"], "note": "All pairs and triples of values of all numeral types, including cross type comparison. The comparison helpers of the dependencies (serint's large integers, cutlery's compare_numbers and the compiler's integer/float conversions in comparisons) are modelled as exact mathematical comparison."},
{"property": "C43", "status": "proved", "theorems": ["C43_values", "C43_elements", "C43_element_with_datum", "C43_datums", "C43_compare_tuples", "C43_first_difference", "C43_incomparable", "C43_compare_tuples2", "C43_total_preorder", "C43_swapped", "C43_compare_with_datums", "C43_compare_datums", "C43_comparable", "C43_mixed_preorder"], "note": "A value is NULL, a number or a list of values, defined by what is read at the paths of a tuple (CompareSpec.v). Comparison of elements, tuples and datums is the lexicographic order of these values by keys and directions; the first difference decides, -2 for types that cannot be compared; a total preorder for one definition, swapping negates. Names of types are shorter than 64 characters (C41_refuted_long_names). element_ids of a NULL list are passed explicitly. C43_comparable and C43_mixed_preorder: tuples of several definitions are ordered by one total preorder, too."},
{"property": "C44", "status": "proved", "theorems": ["C44_implementations_agree", "C44_numerals"], "note": "For all types and values of CompareSpec.v; numerals separately in C44_numerals."},
{"property": "C45", "status": "proved", "theorems": ["C45_fnv_is_fnv1", "C45_fnv_loses_nothing", "C45_fnv_one_byte", "C45_datum", "C45_element", "C45_in_place", "C45_containee_in_place", "C45_hash_tuple", "C45_same_content", "C45_string_as_array"], "note": "For every hash function (an update of a state by a byte): the hash of a datum, of an element at a path and of a tuple by several keys is the state fed with the bytes of its value as defined in CompareSpec.v (nothing for NULL, one byte per bit of a bit field, the stored bytes of a number, the elements one after the other otherwise), whatever the layout and whatever is in the uninitialised buffer of the code. Hashing data in place (hash_data_for_type_info, hash_containee_in_container) agrees with hashing the element. Equal contents hash alike, and a string hashes like an array of the same bytes. C45_fnv_is_fnv1, C45_fnv_loses_nothing and C45_fnv_one_byte are about the hash function that comes with the library."},
{"property": "C46", "status": "proved", "theorems": ["C46_min_max_bound", "C46_min_max_are_ends"], "note": "Includes that MIN and MAX are themselves values of the type, so they are the ends and not just bounds. The ends of FLOAT are minus infinity and NaN, which the library orders last."},
{"property": "C47", "status": "proved", "theorems": ["C47_integers", "C47_null", "C47_float_to_double", "C47_same_type", "C47_any_integer", "C47_into", "C47_refuted_stale_null"], "note": "Integer casts in both ranges, NULL to nullable targets, float to double widening and casts to the same type. Conversions the C standard leaves to the platform (double to integer, double to float rounding) are arbitrary functions in the model, so nothing is assumed about them. A datum that is NULL before the call stays NULL after a successful cast of a value that is not NULL (C47_refuted_stale_null, finding s); the statement excludes that case and C47_into covers every other."},
{"property": "C48", "status": "proved", "theorems": ["C48_append", "C48_parent", "C48_next_sibling", "C48_next_uncle", "C48_child"], "note": "accessors in arrays of less than 2^32 positions; the last position wraps around at 2^32 like the uint32_t of the code"},
{"property": "C49", "status": "partial", "theorems": ["C49_nested_access_partial", "C49_steps", "C49_below_null", "C49_behind_string", "C49_count", "C49_nested_access_refuted", "C49_string_refuted"], "note": "Proved for every path that does not run through a NULL element and does not end at a byte of a string behind its end (C49_nested_access_partial). The remaining paths are described completely: C49_below_null (one step below a NULL container NULL, deeper undefined, below a NULL of another type nothing, where the tuple always says NULL) and C49_behind_string (the tuple has these bytes, the datum has not). So the property as stated is false of the code: C49_nested_access_refuted, C49_string_refuted. C49_count: a value has as many elements as its element in the tuple, a string as many as it has bytes."},
{"property": "C50", "status": "proved", "theorems": ["C50_finalize_iff_acceptable", "C50_finalize_keeps_description"], "note": ""},
{"property": "C51", "status": "proved", "theorems": ["C51_find_field", "C51_not_a_tuple"], "note": ""},
{"property": "C52", "status": "partial", "theorems": ["C52_plain_values_hash_alike_partial", "C52_plain_tuples_hash_alike_partial", "C52_exceptions", "C52_equal_values_hash_alike_partial", "C52_equal_tuples_hash_alike_partial", "C52_refuted", "C52_refuted_across_types"], "note": "Proved for types without floats, and for floats when no NaN and no negative zero occurs (C52_plain_values_hash_alike_partial, C52_plain_tuples_hash_alike_partial); C52_exceptions: zeros of different sign and NaNs are the only floats that compare equal with different bits. For those the property is false (C52_refuted). The comparison of values of two different types (for example a 4 and an 8 byte integer) is not claimed: their stored bytes differ (C52_refuted_across_types)."},
{"property": "C53", "status": "proved", "theorems": ["C53_traversal", "C53_all_once"], "note": "the pseudocode of the header comment, for elements, without looking for a result and without the optional skips"},
{"property": "C54", "status": "proved", "theorems": ["C54_writes_only_the_buffer", "C54_reads_only_the_buffer"], "note": "together with C32, C36, C37, which show that the functions are defined on a buffer with the documented room"},
{"property": "C55", "status": "partial", "theorems": ["C55_set_succeeds", "C55_expand_succeeds_partial", "C55_discard_succeeds"], "note": "Setting and discarding in full; adding elements under the limits expand_limits of C36, which C36_limits_needed shows to be needed."},
{"property": "C56", "status": "proved", "theorems": ["C56_no_gaps", "C56_no_gaps_nested"], "note": ""},
{"property": "C57", "status": "proved", "theorems": ["C57_max_increment"], "note": ""},
{"property": "C58", "status": "proved", "theorems": ["C58_is_minimal"], "note": ""},
{"property": "C59", "status": "proved", "theorems": ["C59_accessible_def", "C59_accessible"], "note": "below an element that is NULL the code calls every position accessible, also those that the type does not have (C59_example): the claim says so"},
{"property": "C60", "status": "proved", "theorems": ["C60_identical", "C60_strings", "C60_numerals", "C60_integers", "C60_null", "C60_float_to_double", "C60_refused"], "note": "The two tuples are different buffers, as in the API. Rounding conversions (integer to float, double to float or integer) are what type_cast_primitive_numeral_type returns (C60_numerals), about which C47 says what the C standard fixes."},
{"property": "C61", "status": "proved", "theorems": ["C61_clone", "C61_clone_outcomes", "C61_destroy", "C61_independent"], "note": "The structs of a type are not shared except for static ones (NoDup in C61_destroy): a type that contains the same malloced struct twice would be freed twice. *allocation_error must be 0 before cloning (alloc_error w = false); the header does not say so, and a stale 1 makes the function leak."},
{"property": "C62", "status": "proved", "theorems": ["C62_success", "C62_failure", "C62_outcomes"], "note": "Where deserialize_type_info itself reads outside its input (C40_refuted) this says nothing. The returned structs have the kinds, links and field names of the type of C39 and C40 (laid_out); the values of their other fields are in that type."},
{"property": "C63", "status": "proved", "theorems": ["C63_one_tree", "C63_tree_tells_readings", "C63_initial", "C63_step", "C63_history"], "note": "Calls are within the limits of C36 (expand_limits); the rest of a fixed size BINARY after a shorter value is unspecified. When a call returns 1 is C55."},
{"property": "C64", "status": "proved", "theorems": ["C64_tables", "C64_numerals", "C64_strings", "C64_arrays", "C64_variable_arrays", "C64_tuples", "C64_tuples_uninitialised"], "note": ""},
{"property": "C65", "status": "proved", "theorems": ["C65_rows", "C65_new", "C65_step", "C65_history"], "note": "The rest of a fixed size BINARY after a shorter value is unspecified. When append, insert and update succeed is C10 and C18, when setting an element does C55."},
{"property": "C66", "status": "proved", "theorems": ["C66_datum", "C66_tuple", "C66_string", "C66_page", "C66_hex", "C66_type", "C66_places", "C66_size_def", "C66_tuple_def", "C66_name_refuted", "C66_field_refuted"], "note": "stdout is a list of literal texts and conversion arguments; how printf formats an argument is not modelled. C66_name_refuted and C66_field_refuted: names of 64 bytes"},
{"property": "C67", "status": "proved", "theorems": ["C67_readable", "C67_rows", "C67_step", "C67_history"], "note": "The users take turns; the library has no locks, so simultaneous calls on one page are outside its contract."},
{"property": "C68", "status": "proved", "theorems": ["C68_same_as_copy", "C68_outside", "C68_append", "C68_insert", "C68_update", "C68_over_itself"], "note": ""},
{"property": "C69", "status": "proved", "theorems": ["C69_refuted_after_expand", "C69_refuted_other_index", "C69_kept", "C69_type", "C69_read_and_set", "C69_null_pointer_size", "C69_move", "C69_history"], "note": "C69_refuted_after_expand and C69_refuted_other_index show that the conditions on a kept position (same count, same index) are needed. C69_type is about the type of an element."},
{"property": "C70", "status": "proved", "theorems": ["C70_numbers", "C70_fixed", "C70_variable", "C70_refuted_from_behind", "C70_refuted_onto_itself", "C70_refuted_inside_an_element"], "note": "C70_refuted_from_behind, C70_refuted_onto_itself and C70_refuted_inside_an_element show that the conditions are needed: with them the header comment at tuple.h:37 is right."},
{"property": "C71", "status": "proved", "theorems": ["C71_size", "C71_element_sizes", "C71_growth", "C71_readings", "C71_hash", "C71_compare", "C71_same_answer", "C71_history", "C71_refuted_is_minimal"], "note": "C71_refuted_is_minimal shows the exception that the property names. As in C36 and C55 expansions are within the limits of C36."},
{"property": "C72", "status": "proved", "theorems": ["C72_step", "C72_within", "C72_determined", "C72_history", "C72_same_contents", "C72_lists"], "note": "C72_step: one operation of the client is the step of the list and total; C72_history: refinement of whole histories with anything quiet in between; C72_same_contents: pages with the same entries answer alike; C72_lists: the lists pages can have are exactly those that fit. C72_plain_operations_differ shows that without the compaction two such pages are told apart."},
{"property": "C73", "status": "proved", "theorems": ["C73_fit", "C73_step", "C73_determined", "C73_history", "C73_same_rows", "C73_lists"], "note": "C73_step and C73_history: the client refines the list of rows; C73_fit: fitting is a matter of the rows; C73_determined: the step of the list is a function of the rows, also for arguments that differ in bytes only; C73_same_rows: two pages with the same rows answer alike; C73_lists. C73_case and C73_plain_operations_differ: two pages with the same rows, different bytes and a hole, which the plain operations tell apart."},
{"property": "C74", "status": "proved", "theorems": ["C74_fits", "C74_init", "C74_where", "C74_write_header", "C74_write_behind", "C74_page", "C74_refuted_wrap"], "note": "get_end_of_page_header is offset_end_of_header. C74_refuted_wrap: without the condition on the sum, a header of nearly 4 GB is said to fit on any page and initialising it is undefined (finding v)."},
{"property": "C75", "status": "proved", "theorems": ["C75_any_sort", "C75_again", "C75_nothing_left", "C75_image", "C75_refuted_fixed"], "note": "clean is the one call after the other with malloc succeeding. C75_refuted_fixed is the stated exception for fixed size tuples (finding w)."},
{"property": "C76", "status": "proved", "theorems": ["C76_unused", "C76_overwrite", "C76_places"], "note": "In a fixed array the whole bitmap counts as in use; C76_places covers pages that differ in the bits of removed entries."},
{"property": "C77", "status": "proved", "theorems": ["C77_apart", "C77_free_space", "C77_places", "C77_have_places", "C77_pointer_stays", "C77_in_place", "C77_fixed"], "note": ""},
{"property": "C78", "status": "proved", "theorems": ["C78_side_by_side", "C78_between_entries", "C78_copied", "C78_same_entry", "C78_refuted_same_entry"], "note": "C78_refuted_same_entry is the stated exception: within one entry, from an element stored behind the target."},
{"property": "C79", "status": "proved", "theorems": ["C79_commute"], "note": ""}
]}
