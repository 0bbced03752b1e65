{"id": "C01", "title": "init_page produces an empty page or fails cleanly", "statement": "For page parameters inside the documented limits, init_page never touches memory outside the page. When it returns 1 the page holds 0 tuples and 0 tomb stones, its header has exactly the requested size and is all zero, and its free space equals the space allotted to tuples; it returns 1 exactly when page_size >= get_minimum_page_size(header_size, tpl_sz_d, 1).", "quantifier": "every page size, header size and tuple size definition within the README limits, every prior content of the memory", "why_tests_cant": "the page size, header size and old memory contents range over 2^31 values each, and the width of every on-page field changes with page size", "anchors": ["inc/tuplestore/page_layout.h: init_page", "src/page_layout_slotted.c: init_slotted_page", "src/page_layout_fixed_array.c: init_fixed_array_page", "src/page_header.c: init_page_header"]}
{"id": "C02", "title": "append_tuple_on_page appends exactly the given tuple or fails without effect", "statement": "On any page reachable from init_page, append_tuple_on_page(t) either returns 1 and the logical content becomes old content ++ [t] (NULL appends a tomb stone), or returns 0 and no byte of the page changes.", "quantifier": "every reachable page of both layouts, every well formed tuple or NULL", "why_tests_cant": "reachable pages are the result of arbitrarily long operation histories; the tests append a handful of tuples on one page size", "anchors": ["inc/tuplestore/page_layout.h: append_tuple_on_page", "src/page_layout_slotted.c: append_tuple_slotted_page", "src/page_layout_fixed_array.c: append_tuple_fixed_array_page"]}
{"id": "C03", "title": "insert_tuple_on_page shifts later tuples by one and changes nothing else", "statement": "On any reachable page, insert_tuple_on_page(i,t) returns 0 with the page unchanged if i > tuple_count or there is no space; otherwise it returns 1 and the logical content becomes content[0..i) ++ [t] ++ content[i..).", "quantifier": "every reachable page of both layouts, every index, every well formed tuple or NULL", "why_tests_cant": "needs every index against every history; the rotate of the offset array/bitmap has edge cases at both ends", "anchors": ["inc/tuplestore/page_layout.h: insert_tuple_on_page", "src/page_layout_slotted.c: insert_tuple_slotted_page", "src/page_layout_fixed_array.c: insert_tuple_fixed_array_page"]}
{"id": "C04", "title": "update_tuple_on_page replaces exactly one entry", "statement": "On any reachable page, update_tuple_on_page(i,t) returns 0 with the logical content unchanged if i >= tuple_count or there is no space; otherwise returns 1 and exactly the i-th entry becomes t (NULL makes it a tomb stone), every other entry, the order and the count staying the same.", "quantifier": "every reachable page of both layouts, every index, every well formed tuple or NULL (growing, shrinking, equal size)", "why_tests_cant": "whether the tuple is overwritten in place, moved, or the free space end is recomputed depends on the whole history of the page", "anchors": ["inc/tuplestore/page_layout.h: update_tuple_on_page", "src/page_layout_slotted.c: update_tuple_slotted_page", "src/page_layout_fixed_array.c: update_tuple_fixed_array_page"]}
{"id": "C05", "title": "discard_tuple_on_page removes exactly one entry", "statement": "On any reachable page, discard_tuple_on_page(i) returns 0 with the page unchanged if i >= tuple_count; otherwise returns 1 and the logical content becomes content[0..i) ++ content[i+1..).", "quantifier": "every reachable page of both layouts and every index", "why_tests_cant": "must hold for every interleaving of tomb stones and tuples and every physical placement", "anchors": ["inc/tuplestore/page_layout.h: discard_tuple_on_page", "src/page_layout_slotted.c: discard_tuple_slotted_page", "src/page_layout_fixed_array.c: discard_tuple_fixed_array_page"]}
{"id": "C06", "title": "discard_all_tuples_on_page empties the page", "statement": "On any reachable page, after discard_all_tuples_on_page the tuple count and tomb stone count are 0, the free space equals the whole space allotted to tuples, and the header is untouched.", "quantifier": "every reachable page of both layouts", "why_tests_cant": "must hold for all histories", "anchors": ["inc/tuplestore/page_layout.h: discard_all_tuples_on_page"]}
{"id": "C07", "title": "discard_trailing_tomb_stones_on_page drops exactly the trailing tomb stones", "statement": "On any reachable page, it returns the number k of trailing tomb stones (the same number get_trailing_tomb_stones_count_on_page returned before), and the logical content loses exactly its last k entries, so that the last remaining entry, if any, is a tuple.", "quantifier": "every reachable page of both layouts", "why_tests_cant": "must hold for all histories and all patterns of tomb stones", "anchors": ["inc/tuplestore/page_layout.h: discard_trailing_tomb_stones_on_page, get_trailing_tomb_stones_count_on_page"]}
{"id": "C08", "title": "swap_tuples_on_page exchanges exactly two entries", "statement": "On any reachable page, swap_tuples_on_page(i,j) returns 0 with the page unchanged if i or j is out of bounds; otherwise returns 1, and entries i and j are exchanged and all others are unchanged (tomb stones included, i = j allowed).", "quantifier": "every reachable page of both layouts, every pair of indices", "why_tests_cant": "all pairs of indices and tuple/tomb stone combinations over all histories", "anchors": ["inc/tuplestore/page_layout.h: swap_tuples_on_page"]}
{"id": "C09", "title": "the counts and existence queries describe the logical content", "statement": "On any reachable page get_tuple_count_on_page is the number of entries including tomb stones, get_tomb_stone_count_on_page is the number of tomb stones among them, exists_tuple_on_page(i) holds exactly when i is in range and entry i is a tuple, and get_nth_tuple_on_page(i) is a pointer inside the page to exactly the bytes last stored for that entry, or NULL.", "quantifier": "every reachable page of both layouts, every index", "why_tests_cant": "the counters are cached on the page and must stay in step over every history", "anchors": ["inc/tuplestore/page_layout.h: get_tuple_count_on_page, get_tomb_stone_count_on_page, exists_tuple_on_page, get_nth_tuple_on_page"]}
{"id": "C10", "title": "can_append / can_insert / can_update predict the mutation exactly", "statement": "On any reachable page, can_append_tuple_on_page, can_insert_tuple_on_page and can_update_tuple_on_page return 1 exactly when the corresponding append, insert or update with the same arguments returns 1.", "quantifier": "every reachable page of both layouts, every index, every well formed tuple or NULL", "why_tests_cant": "prediction and mutation are separate pieces of code computing the space in different ways; equality must hold for all layouts of tuples", "anchors": ["inc/tuplestore/page_layout.h: can_append_tuple_on_page, can_insert_tuple_on_page, can_update_tuple_on_page", "src/page_layout_slotted.c: can_update_tuple_slotted_page"]}
{"id": "C11", "title": "failed mutations leave every byte of the page unchanged", "statement": "On any reachable page, whenever append, insert, update, discard or swap returns 0, the page is byte for byte what it was.", "quantifier": "every reachable page of both layouts, all arguments", "why_tests_cant": "a failing path that leaves a partial change is only visible in particular space situations", "anchors": ["inc/tuplestore/page_layout.h: append_tuple_on_page, insert_tuple_on_page, update_tuple_on_page, discard_tuple_on_page, swap_tuples_on_page"]}
{"id": "C12", "title": "no page operation reads or writes outside the page", "statement": "On any reachable page, no page operation or query accesses memory outside the page's page_size bytes, reads outside the external tuple's own bytes, or executes any other undefined memory access.", "quantifier": "every history of operations with in-contract arguments", "why_tests_cant": "out-of-bounds accesses of a few bytes are usually invisible to a functional test", "anchors": ["src/page_layout_slotted.c", "src/page_layout_fixed_array.c", "src/page_header.c", "inc/tuplestore/page_layout_util.h"]}
{"id": "C13", "title": "the page header is isolated from tuple operations", "statement": "The page header size and the header bytes are changed by no tuple operation (append, insert, update, discard, discard_all, discard_trailing, swap, compaction, zeroing, in-place element update), and writing header bytes through get_page_header changes no tuple, count or space query.", "quantifier": "every reachable page of both layouts, every operation, every header content", "why_tests_cant": "needs every operation against every placement of data", "anchors": ["src/page_header.c: get_page_header, get_page_header_size", "inc/tuplestore/page_layout.h"]}
{"id": "C14", "title": "compaction preserves the logical content and removes all fragmentation", "statement": "On any reachable page run_page_compaction leaves the logical content (entries, order, tomb stones, bytes) and the header unchanged, never decreases the free space, and, unless malloc fails, leaves fragmentation space 0; when malloc fails it returns 0, reports the error and changes nothing.", "quantifier": "every reachable page of both layouts, every outcome of malloc", "why_tests_cant": "tuples are moved over one another inside the page; correctness depends on the order of moves for every physical arrangement", "anchors": ["inc/tuplestore/page_layout.h: run_page_compaction", "src/page_layout_slotted.c: run_page_compaction_slotted_page"]}
{"id": "C15", "title": "zero_out_free_space_on_page only clears free space", "statement": "On any reachable page zero_out_free_space_on_page leaves the logical content, header and all space queries unchanged; it returns 1 exactly when the free space is non-zero, and then every byte it changed became 0 and lies in the free region whose length is get_free_space_on_page.", "quantifier": "every reachable page of both layouts", "why_tests_cant": "for all physical arrangements", "anchors": ["inc/tuplestore/page_layout.h: zero_out_free_space_on_page"]}
{"id": "C16", "title": "space accounting identity", "statement": "On any reachable page space_allotted = space_occupied_by_all_tuples + free_space + fragmentation_space with no unsigned wrap-around in any term; the occupied space equals the sum over entries of get_space_to_be_occupied_by_tuple_on_page(entry), and for any range equals get_space_occupied_by_tuples_on_page of that range.", "quantifier": "every reachable page of both layouts, every index range", "why_tests_cant": "the occupied space is a cached counter on slotted pages and must track every operation of every history", "anchors": ["inc/tuplestore/page_layout.h: get_free_space_on_page, get_space_occupied_by_tuples_on_page, get_space_occupied_by_all_tuples_on_page, get_fragmentation_space_on_page"]}
{"id": "C17", "title": "the two formulas for the allotted space agree", "statement": "For every page initialised with a header of size h, get_space_allotted_to_all_tuples_on_page(page) equals get_space_to_be_allotted_to_all_tuples_on_page(h, page_size) at all times, and equals the free space whenever the page has no entries.", "quantifier": "every page size, header size, tuple definition; every history", "why_tests_cant": "the header says 'it must return the same result' for all of 2^31 page sizes", "anchors": ["inc/tuplestore/page_layout.h: get_space_allotted_to_all_tuples_on_page, get_space_to_be_allotted_to_all_tuples_on_page"]}
{"id": "C18", "title": "append succeeds exactly when the space query says so", "statement": "On a reachable slotted page, append of t succeeds exactly when get_space_to_be_occupied_by_tuple_on_page(t) <= get_free_space_on_page; on a reachable fixed array page exactly when tuple_count < get_maximum_tuple_count_on_page. Each success lowers the free space by exactly the space the tuple occupies (slotted) .", "quantifier": "every reachable page, every well formed tuple or NULL", "why_tests_cant": "all combinations of tuple sizes and free space values", "anchors": ["inc/tuplestore/page_layout.h: append_tuple_on_page, get_free_space_on_page, get_space_to_be_occupied_by_tuple_on_page"]}
{"id": "C19", "title": "the documented update-retry sequence succeeds whenever an update is possible", "statement": "On any reachable page, after update(i,NULL) and a compaction with no malloc failure, update(i,t) succeeds exactly when the other entries, t and the per-entry overhead together fit the space allotted to tuples.", "quantifier": "every reachable page of both layouts, every index and well formed tuple", "why_tests_cant": "needs every arrangement of fragmentation", "anchors": ["inc/tuplestore/page_layout.h: comment after can_update_tuple_on_page"]}
{"id": "C20", "title": "get_minimum_page_size is sufficient and minimal", "statement": "For in-limit arguments, a page of exactly get_minimum_page_size(h, d, n) bytes can be initialised with a header of h bytes and then n tuples of minimal size can be appended, and no page with fewer bytes can hold them.", "quantifier": "every header size, tuple definition and n whose result is within limits", "why_tests_cant": "the field width used by the formula depends on its own result; boundaries at 2^8, 2^16, 2^24", "anchors": ["inc/tuplestore/page_layout.h: get_minimum_page_size", "src/page_layout_slotted.c: get_minimum_page_size_for_slotted_page", "src/page_layout_fixed_array.c: get_minimum_page_size_for_fixed_array_page"]}
{"id": "C21", "title": "get_maximum_tuple_count_on_page is a tight bound", "statement": "On any reachable page the number of (non tomb stone) tuples never exceeds get_maximum_tuple_count_on_page(h, page_size, d), and from a freshly initialised page that many minimal tuples can be appended and no more. On fixed array pages the bound also covers tomb stones.", "quantifier": "every page size, header size, tuple definition and history", "why_tests_cant": "bound over all histories", "anchors": ["inc/tuplestore/page_layout.h: get_maximum_tuple_count_on_page"]}
{"id": "C22", "title": "get_maximum_tuple_size_accomodatable_on_page is a tight bound", "statement": "A single tuple can be appended to a freshly initialised page exactly when its size is at most get_maximum_tuple_size_accomodatable_on_page(h, page_size, d).", "quantifier": "every page size, header size, tuple definition and tuple", "why_tests_cant": "all sizes", "anchors": ["inc/tuplestore/page_layout.h: get_maximum_tuple_size_accomodatable_on_page"]}
{"id": "C23", "title": "a page that init_page accepts can hold at least one tuple", "statement": "Whenever init_page returns 1, a tuple of minimal size can be appended to the fresh page.", "quantifier": "every in-limit page size, header size and tuple definition", "why_tests_cant": "the failing page sizes, if any, are a handful just above 2^8, 2^16, 2^24", "anchors": ["inc/tuplestore/page_layout.h: init_page, get_minimum_page_size", "src/page_layout_slotted.c: init_slotted_page", "src/page_layout_fixed_array.c: init_fixed_array_page"]}
{"id": "C24", "title": "any history of page operations behaves like a list", "statement": "For any finite sequence of page operations starting from init_page, the sequence of results and the observable content equal those of a simple list of optional tuples on which each operation either performs its list effect or, when it reports failure, does nothing.", "quantifier": "every sequence of operations of any length", "why_tests_cant": "unbounded histories", "anchors": ["inc/tuplestore/page_layout.h"]}
{"id": "C25", "title": "clone_page gives an observationally equal independent page", "statement": "After clone_page(dst, src) every query on dst answers as on src, src is unchanged, and later operations on either behave as they would have on the original.", "quantifier": "every reachable page", "why_tests_cant": "all histories before and after the clone", "anchors": ["src/page_layout.c: clone_page"]}
{"id": "C26", "title": "fixed-width on-page integers round trip", "statement": "Any value smaller than the number of bytes of the page or tuple survives being stored in the compact 1 to 4 byte width chosen from that byte count and being read back; the width is always enough for every offset and count the library stores.", "quantifier": "every page size in 1..2^32-1 and every value below it", "why_tests_cant": "2^64 pairs", "anchors": ["inc/tuplestore/page_layout_util.h: get_value_size_on_page, read_value_from_page, write_value_to_page"]}
{"id": "C27", "title": "tuple size definitions survive serialization", "statement": "For the tuple size definition of any finalized type, deserialize_tuple_size_def(serialize_tuple_size_def(d)) succeeds and gives a definition that computes the same size for every tuple, the same minimum and maximum, and the same page layout; the serialization is at most 13 bytes.", "quantifier": "every finalized type and every tuple", "why_tests_cant": "all types, all sizes", "anchors": ["src/tuple_def.c: serialize_tuple_size_def, deserialize_tuple_size_def"]}
{"id": "C28", "title": "deserializing a tuple size definition never reads past the given bytes", "statement": "For any byte string, deserialize_tuple_size_def either fails with return 0 or succeeds reading only bytes inside the string.", "quantifier": "every byte string", "why_tests_cant": "all byte strings", "anchors": ["src/tuple_def.c: deserialize_tuple_size_def"]}
{"id": "C29", "title": "the size of a tuple is read consistently everywhere", "statement": "For any finalized type, the size given by the tuple size definition equals the size given by the type itself for the same bytes, reading only the size prefix; the streaming variant that only has a prefix of the tuple either reports the same size or that more bytes are needed.", "quantifier": "every finalized type, every tuple bytes, every prefix length", "why_tests_cant": "all types and contents", "anchors": ["src/tuple_def.c: get_tuple_size_using_tuple_size_def, get_tuple_size_using_tuple_size_def2", "inc/tuplestore/data_type_info.h: get_size_for_type_info"]}
{"id": "C30", "title": "minimal tuples are what they claim", "statement": "init_tuple writes exactly the minimum size in bytes, the result has size get_minimum_tuple_size, every nullable element reads NULL and every non nullable element reads its zero value, and the same bytes come from the tuple size definition alone.", "quantifier": "every finalized type", "why_tests_cant": "all type trees", "anchors": ["src/tuple.c: init_tuple", "src/tuple_def.c: initialize_minimal_tuple_using_tuple_size_def", "inc/tuplestore/data_type_info.h: initialize_minimal_data_for_type_info"]}
{"id": "C31", "title": "finalization lays elements out without overlap", "statement": "When finalize_type_info succeeds, all fixed size parts (size and count prefixes, validity/bit field bitmap, element slots and offset slots) occupy disjoint ranges inside the minimum size, and min size <= max size.", "quantifier": "every type tree", "why_tests_cant": "all type trees", "anchors": ["src/data_type_info.c: finalize_type_info"]}
{"id": "C32", "title": "get after set returns the stored value", "statement": "After set_element_in_tuple(pos, v) returns 1, get_value_from_element_from_tuple(pos) returns v (as representable in the element type: NULL stays NULL, strings are cut at the first zero byte and at capacity, integers reduced to the element width).", "quantifier": "every finalized type, every well formed tuple, every position path, every value", "why_tests_cant": "all types, all nested paths, all previous contents", "anchors": ["src/tuple.c: set_element_in_tuple, get_value_from_element_from_tuple"]}
{"id": "C33", "title": "set_element_in_tuple changes no other element", "statement": "After set_element_in_tuple(pos, v), whatever it returns, every element at a position neither inside nor enclosing pos reads as before.", "quantifier": "every finalized type, every well formed tuple, every pair of positions", "why_tests_cant": "variable sized elements are physically relocated during a set", "anchors": ["src/tuple.c: set_element_in_tuple", "inc/tuplestore/data_type_info.h: set_datum_to_containee_in_container, move_variable_sized_containee_to_end_of_container"]}
{"id": "C34", "title": "set_element_in_tuple respects the size limits", "statement": "After set_element_in_tuple(pos, v, inc) the tuple size is at most the old size + inc and at most the maximum size, the size prefix is exact, and no byte beyond old size + inc is touched.", "quantifier": "every finalized type, every well formed tuple, position, value and increment", "why_tests_cant": "all sizes", "anchors": ["src/tuple.c: set_element_in_tuple, can_set_element_in_tuple"]}
{"id": "C35", "title": "can_set_element_in_tuple predicts set_element_in_tuple", "statement": "can_set_element_in_tuple returns 1 exactly when set_element_in_tuple with the same arguments returns 1.", "quantifier": "every finalized type, tuple, position, value and increment", "why_tests_cant": "prediction and mutation are different code", "anchors": ["src/tuple.c: can_set_element_in_tuple, set_element_in_tuple"]}
{"id": "C36", "title": "expanding a container inserts empty elements and shifts the rest", "statement": "expand_element_count_for_element_in_tuple(pos, i, n) on success raises the element count by n, elements before i are unchanged, elements from i on appear n positions later, and the n new ones are NULL or zero.", "quantifier": "every finalized variable element count type, tuple, index and count", "why_tests_cant": "all element sizes and bitmap alignments", "anchors": ["src/tuple.c: expand_element_count_for_element_in_tuple", "inc/tuplestore/data_type_info.h: expand_container"]}
{"id": "C37", "title": "discarding elements removes exactly them", "statement": "discard_elements_from_element_in_tuple(pos, i, n) on success lowers the element count by n and removes exactly elements i..i+n-1, all others keeping their values and order.", "quantifier": "every finalized variable element count type, tuple, index and count", "why_tests_cant": "all element sizes and bitmap alignments", "anchors": ["src/tuple.c: discard_elements_from_element_in_tuple", "inc/tuplestore/data_type_info.h: discard_from_container"]}
{"id": "C38", "title": "in-place element update on a page equals update of the entry", "statement": "set_element_in_tuple_in_place_on_page on success changes exactly one entry of the page, to the tuple the same set_element_in_tuple would produce, keeps all space accounting exact, and never grows the entry; on failure the logical content is unchanged.", "quantifier": "every reachable page, entry, position and value", "why_tests_cant": "all histories and values", "anchors": ["inc/tuplestore/page_layout.h: set_element_in_tuple_in_place_on_page"]}
{"id": "C39", "title": "type descriptions survive serialization", "statement": "For any finalized type, serialize_type_info writes exactly get_byte_count_for_serialized_type_info bytes and deserialize_type_info on them consumes all of them and yields a type that finalizes and has the same description with the same field names; if the names are shorter than 64 bytes, are_identical_type_info says that it is identical.", "quantifier": "every finalized type tree whose description is shorter than 2^32 bytes", "why_tests_cant": "all type trees", "anchors": ["src/data_type_info.c: serialize_type_info, deserialize_type_info"]}
{"id": "C40", "title": "deserialize_type_info never reads past its input", "statement": "On arbitrary bytes deserialize_type_info either fails or succeeds having consumed at most the given number of bytes; it never reads outside them.", "quantifier": "every byte string", "why_tests_cant": "all byte strings", "anchors": ["src/data_type_info.c: deserialize_type_info"]}
{"id": "C41", "title": "are_identical_type_info is an equivalence that implies the same data layout", "statement": "On finalized types are_identical_type_info is reflexive, symmetric and transitive, and identical types assign the same size and the same element values to the same bytes; the header claims the answer is also correct before finalization.", "quantifier": "every pair and triple of types", "why_tests_cant": "all type trees", "anchors": ["src/data_type_info.c: are_identical_type_info"]}
{"id": "C42", "title": "comparison of numeric values is a total order", "statement": "compare on primitive numerals is antisymmetric, transitive and total across all numeric types, NULL is least, NaN is greatest and equal to itself, and integers compare by mathematical value regardless of width and signedness.", "quantifier": "every pair and triple of values of all primitive numeral types", "why_tests_cant": "all value pairs", "anchors": ["src/primitive_numeral_types.c: compare_primitive_numeral_type"]}
{"id": "C43", "title": "comparison of tuples is lexicographic", "statement": "compare_tuples returns the direction-adjusted result of the first differing key element, 0 when none differs; comparing with the arguments swapped gives the negated result; nested containers compare element wise with a proper prefix being smaller. Ordering by keys is a total preorder, also on tuples of several definitions whose keys can be compared, and which types can be compared is an equivalence.", "quantifier": "every pair of tuples, key lists and directions, names of types shorter than 64 bytes", "why_tests_cant": "all contents", "anchors": ["src/tuple.c: compare_tuples", "src/datum.c: compare_datum"]}
{"id": "C44", "title": "the two comparison implementations agree", "statement": "On values of one and the same type the specialised same-type comparison returns the same result as the generic comparison.", "quantifier": "every type and pair of values", "why_tests_cant": "all value pairs", "anchors": ["src/datum.c: compare_datum, compare_datum2", "src/primitive_numeral_types.c: compare_primitive_numeral_type2"]}
{"id": "C45", "title": "hashes depend only on logical content", "statement": "Hashing an element in place gives the same hash as hashing its datum, for any incremental hash function; two tuples with the same logical content hash alike whatever their physical element order; a string hashes like the same bytes in an array of 1 byte unsigned integers. The supplied hash function is 64 bit FNV-1 and loses no byte: strings of bytes that differ in one place, followed by whatever, have different hashes.", "quantifier": "every type, every pair of layouts of the same content", "why_tests_cant": "all physical layouts", "anchors": ["src/data_type_info.c: hash_data_for_type_info, hash_containee_in_container", "src/datum.c: hash_datum", "src/tuple.c: hash_tuple", "src/tuple_hasher.c: fnv_64_update"]}
{"id": "C46", "title": "MIN and MAX bound every value of a numeric type", "statement": "For every primitive numeral type and every value of that type, MIN <= value <= MAX in the library's own comparison, and both are values of the type.", "quantifier": "every primitive numeral type, every value", "why_tests_cant": "all values", "anchors": ["src/primitive_numeral_types.c: get_MIN_value_for_primitive_numeral_type_info, get_MAX_value_for_primitive_numeral_type_info"]}
{"id": "C47", "title": "type casts preserve representable values", "statement": "Casting an integer to another integer type whose range contains it yields the same mathematical value; NULL casts to NULL on nullable targets. An integer outside the range of the target is reduced to 64 bits (256 bits for the large types), not to the size of the target. The result does not depend on what the datum that receives it held before, as long as that was not NULL.", "quantifier": "every pair of integer types, every value, every earlier content of the datum that receives the result", "why_tests_cant": "all values", "anchors": ["src/primitive_numeral_types.c: type_cast_primitive_numeral_type"]}
{"id": "C48", "title": "positional navigation is consistent", "statement": "Moving a positional accessor to a child and back to its parent restores its path; the next sibling of the i-th child is the (i+1)-th child; the next uncle is the next sibling of the parent; the moves that do not exist (parent and sibling of the root, uncle of the root and its children) return 0 and change nothing; appending positions concatenates paths and stays within the array of positions.", "quantifier": "every path and index", "why_tests_cant": "all paths", "anchors": ["inc/tuplestore/positional_accessor.h"]}
{"id": "C49", "title": "nested access through a datum agrees with access through the tuple", "statement": "Reading a path step by step through get_nested_containee_from_datum gives the same result as get_value_from_element_from_tuple for the same path, including paths that run through NULL elements. The number of elements of a value is that of the element it was read from (for a string the number of its bytes, for NULL 0).", "quantifier": "every type, tuple and path", "why_tests_cant": "all paths, including into NULLs at any depth", "anchors": ["src/datum.c: get_nested_containee_from_datum", "src/tuple.c: get_value_from_element_from_tuple"]}
{"id": "C50", "title": "finalization accepts exactly the sensible types", "statement": "finalize_type_info succeeds on a type description if and only if every numeral in it has a supported size, every fixed count container has at least one element and no container's smallest possible value exceeds its declared maximum size; it changes none of the described fields, and finalizing again changes nothing.", "quantifier": "every type tree within the documented size limits", "why_tests_cant": "all type trees, including boundary values of the maximum size", "anchors": ["src/data_type_info.c: finalize_type_info"]}
{"id": "C51", "title": "a field is found by its name", "statement": "find_containee_using_field_name_in_tuple_type_info returns the index of the first field whose name is the given C string, and UINT32_MAX when the tuple has no such field or the type is not a TUPLE.", "quantifier": "every tuple type and every name shorter than 64 bytes", "why_tests_cant": "all types and names", "anchors": ["src/data_type_info.c: find_containee_using_field_name_in_tuple_type_info"]}
{"id": "C52", "title": "values that compare equal hash alike", "statement": "Two values of one type, or two tuples compared by some keys, for which the comparison returns 0 have the same hash, for every hash function of the interface, so a hash table can find by the hash what the comparison calls equal.", "quantifier": "every type, every pair of values or tuples of it, every list of keys, every hash function and initial state", "why_tests_cant": "all pairs of values, including different encodings of one number", "anchors": ["src/datum.c: compare_datum2, hash_datum", "src/tuple.c: compare_tuples2, hash_tuple", "src/tuple_hasher.c"]}
{"id": "C53", "title": "the documented traversal visits every element once", "statement": "The traversal documented with the positional accessors, started at an existing element, ends and visits exactly the elements at or below it that exist and are not below a NULL, down to the given depth, each once, in pre-order, without leaving the array of positions.", "quantifier": "every type, tuple, start element and depth", "why_tests_cant": "all nestings and element counts", "anchors": ["inc/tuplestore/positional_accessor.h: append_positions, point_to_first_child_position, point_to_next_sibling_position, point_to_next_uncle_position", "src/tuple.c: get_value_from_element_from_tuple, get_type_info_for_element_from_tuple_def"]}
{"id": "C54", "title": "tuple functions are confined to their buffer", "statement": "What a function on tuples answers depends only on the bytes of the buffer that holds the tuple, its position in memory and the bytes around it do not matter, and it changes no byte outside that buffer.", "quantifier": "every buffer, every surrounding memory, every type, path, value and argument for which the function is defined on the buffer alone", "why_tests_cant": "all surrounding memories", "anchors": ["src/tuple.c: init_tuple, set_element_in_tuple, expand_element_count_for_element_in_tuple, discard_elements_from_element_in_tuple, get_value_from_element_from_tuple", "inc/tuplestore/data_type_info.h"]}
{"id": "C55", "title": "an operation on an element succeeds exactly when there is room for it", "statement": "Setting an element succeeds if and only if its place exists and, for NULL, the element is nullable and inside a container, and, for a value of variable size, the new size fits the maximum size of the element and the growth fits the caller's limit and the maximum size of every enclosing container. Adding elements succeeds if and only if the container is present, counts its elements, the index is at most the count and the larger container fits in the same way. Discarding succeeds if and only if the discarded range lies in a present container that counts its elements.", "quantifier": "every type, tuple, path, value, index, number of elements and growth limit", "why_tests_cant": "all combinations of nesting, sizes and limits", "anchors": ["src/tuple.c: set_element_in_tuple, can_set_element_in_tuple, expand_element_count_for_element_in_tuple, discard_elements_from_element_in_tuple", "src/data_type_info.c: can_set_containee_in_container, can_expand_container, can_discard_elements_from_container"]}
{"id": "C56", "title": "a tuple has no gaps", "statement": "After any sequence of operations the size of a container, at any depth, is exactly the size of its prefix, bitmap, fixed size elements and offsets plus the sizes of its present elements of variable size: updates, expansions and discards leave no unused bytes behind.", "quantifier": "every type, every history of operations, every container in the tuple", "why_tests_cant": "fragmentation would only show after particular histories", "anchors": ["src/data_type_info.c: set_containee_in_container, expand_container, discard_elements_from_container, get_size_for_type_info", "src/tuple.c: get_tuple_size"]}
{"id": "C57", "title": "the reported growth limit is the largest growth all containers allow", "statement": "get_max_size_increment_allowed_for_element_in_tuple returns, for a present element of variable size, the largest number of bytes by which it may grow such that neither it nor a container around it exceeds its maximum size, and 0 for every other element.", "quantifier": "every type, tuple and path", "why_tests_cant": "all nestings and sizes", "anchors": ["src/tuple.c: get_max_size_increment_allowed_for_element_in_tuple"]}
{"id": "C58", "title": "minimal data is recognised", "statement": "is_minimal_data_for_type_info holds exactly for the data that initialize_minimal_data_for_type_info writes: the same size and the same bytes.", "quantifier": "every type and data of it after any history", "why_tests_cant": "all types and histories", "anchors": ["src/data_type_info.c: is_minimal_data_for_type_info, initialize_minimal_data_for_type_info"]}
{"id": "C59", "title": "accessible positions are the places that exist", "statement": "are_all_positions_accessible_for_tuple_def holds exactly when the type has an element at every one of the positions; are_all_positions_accessible_for_tuple holds exactly when every one of the positions is a place that exists in the tuple or lies below an element that is NULL.", "quantifier": "every type, tuple and list of positions", "why_tests_cant": "all tuples and paths", "anchors": ["src/tuple.c: are_all_positions_accessible_for_tuple", "src/tuple.c: are_all_positions_accessible_for_tuple_def"]}
{"id": "C60", "title": "copying an element from another tuple", "statement": "set_element_in_tuple_from_tuple stores in the target element what is read at the source element of another tuple. Between identical types the target then reads the same, at any depth below it; strings and binaries of different sizes are copied by their bytes; an integer is stored in any other integer type, unchanged when it is in the range of that type and modulo its size otherwise; NULL becomes NULL, or zero in a numeral type without NULL; a float keeps its value in a double. Success, the rest of the tuple and its size are those of setting that value directly. When the source cannot be read or the types have no conversion the call returns 0 and changes nothing.", "quantifier": "every pair of types and tuples with any history, every pair of paths, every growth limit", "why_tests_cant": "all combinations of types, values and positions", "anchors": ["src/tuple.c: set_element_in_tuple_from_tuple", "src/primitive_numeral_types.c: type_cast_primitive_numeral_type", "src/data_type_info.c: are_identical_type_info"]}
{"id": "C61", "title": "cloning and destroying types manage their memory", "statement": "clone_type_info_recursively returns a type with the same description, made of newly allocated structs for those that are not static and of the same static structs, leaving all other memory as it was and calling the callback once for each static struct met. It only fails when malloc fails; then all memory is as before, the error flag is set, and the two callbacks were called for the same static structs. destroy_type_info_recursively frees exactly the structs of the type that are not static, each once, and never touches a static one. Destroying a clone restores the memory; destroying the source leaves the clone intact.", "quantifier": "every type, every heap, every allocator (also one that fails at any point), every callback", "why_tests_cant": "every malloc is a failure point, and leaks or double frees show in no result", "anchors": ["src/data_type_info.c: clone_type_info_recursively, destroy_type_info_recursively", "inc/tuplestore/data_type_info.h"]}
{"id": "C62", "title": "reading a type description leaks nothing", "statement": "deserialize_type_info either returns a type whose structs are newly allocated, except for the static types of the library, with all other memory unchanged, such that destroy_type_info_recursively restores the memory; or it returns NULL with all memory as before, whether the input is bad or malloc fails at any point. The error flag is set only when malloc failed; without it NULL means that the input is no description.", "quantifier": "every input, every heap, every allocator (also one that fails at any point)", "why_tests_cant": "every malloc and every malformed byte is a failure point, and leaks show in no result", "anchors": ["src/data_type_info.c: deserialize_type_info, destroy_type_info_recursively", "src/data_type_info_defaults.c"]}
{"id": "C63", "title": "a tuple behaves like the tree of its values", "statement": "What can be read of a tuple - values and numbers of elements at all paths - is exactly a tree of numbers, NULLs and lists (a STRING or BINARY being the list of its bytes), and each tuple has one such tree. init_tuple makes the tree in which nothing is set. Whatever sequence of set_element_in_tuple, expand_element_count_for_element_in_tuple and discard_elements_from_element_in_tuple follows, each call that returns 1 replaces, inserts or removes exactly the addressed elements of the tree, and each call that returns 0 leaves the tree as it is.", "quantifier": "every type, every sequence of calls of any length within the documented limits, every path", "why_tests_cant": "the effect of a call on the bytes depends on all earlier calls; there are unboundedly many histories", "anchors": ["src/tuple.c: set_element_in_tuple, expand_element_count_for_element_in_tuple, discard_elements_from_element_in_tuple, get_value_from_element_from_tuple, get_element_count_for_element_from_tuple, init_tuple"]}
{"id": "C64", "title": "predefined types and type macros make the types they name", "statement": "Entry n of each predefined table of numerals can be finalized and is a numeral of the kind and nullability of the table with n bytes (n bits for bit fields), and entry 0 is NULL. The macros that define numerals make such a type for every supported size and one that finalization refuses for any other. get_fixed_length_string_type and get_fixed_length_binary_type make types whose data has exactly the given size; the variable length macros make nullable variable sized types between the bytes of their length prefix and the given maximum. Arrays and tuples made with the macros are accepted exactly when their elements are, there is at least one if their number is fixed, and the smallest value fits the maximum; the tuple definition then reports that smallest size and that maximum. A tuple type initialised with initialize_tuple_data_type_info and finalized does not depend on what its memory held before.", "quantifier": "every name, size, element count, maximum size, element type and uninitialised memory", "why_tests_cant": "all argument combinations, and reads of uninitialised memory show in no test", "anchors": ["inc/tuplestore/data_type_info_defaults.h", "src/data_type_info_defaults.c", "src/data_type_info.c: finalize_type_info", "src/tuple_def.c: initialize_tuple_def, get_minimum_tuple_size, get_maximum_tuple_size"]}
{"id": "C65", "title": "a page of tuples behaves like a list of trees", "statement": "Keep tuples of one type on a page, with the size definition of that type. Then what can be read - the number of entries, and at all paths the values behind the pointers that get_nth_tuple_on_page returns - is exactly one list of trees and tomb stones. A new page shows the empty list. Every call of append, insert, update, discard, discard all, discard trailing tomb stones, swap, compaction, zeroing free space, writing the header or set_element_in_tuple_in_place_on_page has a defined outcome; if it succeeds it appends, inserts, replaces, removes or exchanges exactly the addressed rows, or exactly the addressed element of one row, and else the rows stay.", "quantifier": "every type, page size and header size, every sequence of calls of any length with any arguments, every path", "why_tests_cant": "where tuples lie and what the operations move depends on the whole history of the page", "anchors": ["inc/tuplestore/page_layout.h", "src/page_layout.c: set_element_in_tuple_in_place_on_page", "src/tuple.c: set_element_in_tuple"]}
{"id": "C66", "title": "printing shows what is there and has defined outcomes", "statement": "If no name of a type or field fills all its 64 bytes, every printing function has a defined outcome and reads nothing but its arguments. print_datum and print_tuple show NULL, or the number, or all bytes of the string or binary (a string up to its end), or the elements in their order between commas, each as it is read with get_value_from_element_from_tuple, with the size of the tuple or array and, before each variable sized element that is not NULL, the offset behind the start of its container at which its bytes are found. print_page shows what the space and count queries answer, then for each index the offset, size and tuple that get_nth_tuple_on_page finds, or TOMB STONE. print_page_in_hex shows every byte with its index. print_type_info shows for the type at every path its name, kind, nullability, sizes, number of elements and the parts of its layout, and for each field its name and the place (byte or bit offset, bit of its validity) at which the tuple functions find it. print_tuple_def shows the size definition and the type. (With a name of 64 bytes printing reads behind the name.)", "quantifier": "every type, every tuple and page that any history of calls leaves, every datum, path and index", "why_tests_cant": "undefined behaviour shows in no output, and there are unboundedly many types and histories", "anchors": ["src/datum.c: print_datum", "src/tuple.c: print_tuple", "src/data_type_info.c: print_type_info, print_data_for_data_type_info", "src/tuple_def.c: print_tuple_def", "src/page_layout.c: print_page, print_page_in_hex", "src/page_layout_slotted.c: print_slotted_page", "src/page_layout_fixed_array.c: print_fixed_array_page"]}
{"id": "C67", "title": "programs that read the stored descriptions can share a page", "statement": "Store the type of a table with serialize_type_info and its size definition with serialize_tuple_size_def. Then every program can read both wherever the bytes are put; the type it reads finalizes, is identical to the stored one in both directions and has its fields at the same indices under the same names. All programs - the writer, those that make the size definition from the type they read and those that read it too - see the same rows on every page that any of them made and used in any turns, with the values that are there; each can go on with such a page, and the effect of its calls on the rows that all see is the one of the property on a page as a list of trees.", "quantifier": "every type with names shorter than 64 bytes, page size and header size, every number of programs, every schedule of their operations, every content of uninitialised memory", "why_tests_cant": "there are unboundedly many types, programs, schedules and page contents", "anchors": ["src/data_type_info.c: serialize_type_info, deserialize_type_info, finalize_type_info, are_identical_type_info, find_containee_using_field_name_in_tuple_type_info", "src/tuple_def.c: serialize_tuple_size_def, deserialize_tuple_size_def, initialize_tuple_size_def", "inc/tuplestore/page_layout.h", "src/tuple.c"]}
{"id": "C68", "title": "a tuple that lies on a page can be given to the operations on that page", "statement": "append_tuple_on_page, insert_tuple_on_page, update_tuple_on_page, the three predicates that predict them and get_space_to_be_occupied_by_tuple_on_page may be given the pointer that get_nth_tuple_on_page returned for the same page. Answer and every byte of the page are then those that a copy of the tuple outside of the page gives: append adds the entry again at the end, insert puts it at any index (also before itself), update puts it over any entry, and an entry written over itself is accepted and unchanged. The page stays usable with all other operations.", "quantifier": "every page size, header size and tuple definition, every page that any history of calls leaves, every source and target index", "why_tests_cant": "the operations change the page while they still read the tuple from it, and what lies where depends on the whole history", "anchors": ["inc/tuplestore/page_layout.h: append_tuple_on_page, insert_tuple_on_page, update_tuple_on_page", "src/page_layout_slotted.c: append_tuple_slotted_page, insert_tuple_slotted_page, update_tuple_slotted_page", "src/page_layout_fixed_array.c: append_tuple_fixed_array_page, insert_tuple_fixed_array_page, update_tuple_fixed_array_page"]}
{"id": "C69", "title": "positions of elements may be kept between calls", "statement": "The functions on the elements of a container (position, NULL test, pointer, size, read, can-set, set, set to NULL, move to the end) take a position that the caller keeps. A position that was computed for the same index of any data of the same type with the same number of elements gives in every function the result, the bytes and the position that an INVALID one gives. So a caller who keeps one position per index through any sequence of these calls gets the same answers and bytes as one who never keeps any. Reading and setting are those of the tuple functions for a path of one position. An element is NULL exactly when it does not exist or reads as NULL, exactly then there is no pointer; else the pointer lies inside of the container with the reported size and what is read there is what is read at the index. The type of an element is NULL exactly when it does not exist, else that of its position and path. Moving an element to the end changes nothing that is read and no byte outside of the container, puts the element at the end and returns 1 exactly if it was not there. (After elements were added or removed a kept position may be wrong.)", "quantifier": "every type, all data that any history of calls leaves, every index, every sequence of calls of any length", "why_tests_cant": "whether an old position is still right depends on the whole history since it was computed", "anchors": ["inc/tuplestore/data_type_info.h: get_data_positional_info_for_containee_of_container, is_containee_null_in_container, get_pointer_to_containee_from_container, get_size_of_containee_from_container, get_datum_to_containee_from_container, move_variable_sized_containee_to_end_of_container, set_containee_to_NULL_in_container, can_set_datum_to_containee_in_container, set_datum_to_containee_in_container"]}
{"id": "C70", "title": "an element may be copied within its tuple into numbers, fixed sizes and elements stored behind it", "statement": "set_element_in_tuple_from_tuple with the same tuple as source and target, and set_element_in_tuple with a value that get_value_from_element_from_tuple returned for the same tuple, return what they return, and leave the bytes they leave, for a copy of the tuple in another buffer as source: for a source that is a number; for a target of fixed size, whatever the source, also for the element itself; for a target of variable size, at any depth, if the source lies in another element of the tuple, and that is stored before the element the target is in, or the latter is NULL. In the other cases the answer can be 1 although the target has become something else, or unreadable; as the header says, two separate tuples are needed then.", "quantifier": "every type, all data that any history of calls leaves, all pairs of elements at any depth, every allowed increment", "why_tests_cant": "where elements lie depends on the whole history, and the functions move and write bytes before they have read all of the source", "anchors": ["inc/tuplestore/tuple.h: set_element_in_tuple_from_tuple, set_element_in_tuple", "src/tuple.c: set_element_in_tuple_INTERNAL, set_element_in_tuple_from_tuple", "inc/tuplestore/data_type_info.h: set_datum_for_type_info, set_datum_to_containee_in_container, move_variable_sized_containee_to_end_of_container"]}
{"id": "C71", "title": "what a tuple answers depends on its contents, not on its history", "statement": "Take two tuples of one definition with the same contents: at every path the same NULLs, numbers, strings and numbers of elements are read. However they were built, wherever they lie and whatever bytes they consist of, they have the same size, and so have their elements at every depth; the same growth is allowed for every element; they hash alike and compare equal, and alike with every third tuple; and each set, expand or discard call with the same arguments, within the documented limits, returns the same result on both and leaves tuples with the same contents again (except for the rest of a fixed size BINARY that is set to a shorter value, which is unspecified). In particular no sequence of sets, expansions and discards uses up space that an equal tuple built directly would have. Only is_minimal_data_for_type_info can tell them apart: it looks at the bytes that a value left before it was set to NULL.", "quantifier": "every tuple definition, every pair of tuples with the same contents that any histories of calls leave, every further history of calls of any length", "why_tests_cant": "layout and bytes depend on the whole history; there are unboundedly many histories that lead to the same contents", "anchors": ["inc/tuplestore/tuple.h: get_tuple_size, set_element_in_tuple, expand_element_count_for_element_in_tuple, discard_elements_from_element_in_tuple, get_max_size_increment_allowed_for_element_in_tuple, hash_tuple, compare_tuples2", "src/tuple.c", "inc/tuplestore/data_type_info.h"]}
{"id": "C72", "title": "a page that is compacted when needed is exactly a list of limited total size", "statement": "Let a client do the documented thing when an append, insert or update finds no room: compact the page and try again; for an update first replace the entry by a tomb stone, and put the old entry back if the new one does not fit even then. Then every operation of this client is done exactly when the resulting list of entries fits: the sizes of its tuples and one slot for each entry are at most the space to be allotted (fixed size tuples: the number of entries is at most the maximum tuple count). Otherwise the answer is false and the entries and the header are the old ones. So any history of such a client, with any compactions, header writes and clearing of free space in between, answers and leaves what a list with that limit answers and leaves; two pages with the same entries, however fragmented, cannot be told apart. The lists of entries that pages can have are exactly the lists that fit.", "quantifier": "every page size, header size and definition, every page that any history leaves, every client operation, every history of any length", "why_tests_cant": "fragmentation depends on the whole history, and whether an operation is done must not", "anchors": ["inc/tuplestore/page_layout.h: append_tuple_on_page, insert_tuple_on_page, update_tuple_on_page, run_page_compaction, get_maximum_tuple_count_on_page, get_space_to_be_allotted_to_all_tuples_on_page", "src/page_layout_slotted.c", "src/page_layout_fixed_array.c", "src/page_layout.c"]}
{"id": "C73", "title": "a page of tuples that is compacted when needed is a list of rows, and answers by its rows alone", "statement": "Let a client keep tuples of one definition on a page, compact when an append, insert or update finds no room and try again (as in C72), and set elements where they lie. Read each tuple as the tree of its values, so that the page is a list of rows. Then every operation of this client is done exactly when the resulting rows fit, which depends on the rows and not on the bytes of the tuples that have them; an element is set exactly when the row allows it without growing; otherwise the rows are the old ones. Two pages with the same rows, whatever the bytes and places of their tuples and however fragmented, cannot be told apart by any history of such operations, even when the tuples handed in differ in their bytes and only agree in their values: all answers are the same and the rows are the same again (as long as no fixed size BINARY is set to a shorter value, whose rest is unspecified). The lists of rows that pages can have are exactly those that fit.", "quantifier": "every tuple definition, page and header size, every pair of pages with the same rows that any histories leave, every further history of any length", "why_tests_cant": "fragmentation and the bytes of equal tuples both depend on the whole history, and no answer may", "anchors": ["inc/tuplestore/page_layout.h: append_tuple_on_page, insert_tuple_on_page, update_tuple_on_page, run_page_compaction, set_element_in_tuple_in_place_on_page, get_nth_tuple_on_page", "inc/tuplestore/tuple.h: get_value_from_element_from_tuple, get_tuple_size", "src/page_layout_slotted.c", "src/page_layout_fixed_array.c", "src/tuple.c"]}
{"id": "C74", "title": "the page header stands on its own: its space, its place and its isolation", "statement": "For every page size and header size whose sum with the size prefix is a 32 bit number: can_page_header_fit_on_page says 1 exactly when the header, which starts where get_page_header points, ends on the page; get_space_required_for_page_header is exactly the number of bytes before that end. init_page_header returns what can_page_header_fit_on_page says; if 1, get_page_header_size is the given size, the header is all zeroes, get_end_of_page_header is the space required and no byte behind it is changed; if 0, nothing is changed. On any page with a header, writing within the header changes just those bytes of it, and writing anywhere behind the end of the header changes neither its size nor its bytes. On every page of tuples the header has the size given to init_page and every tuple lies behind the end of the header.", "quantifier": "every 32 bit page size, every header size, every page content, every write inside or behind the header, every page of tuples any history leaves", "why_tests_cant": "page sizes from 1 byte to 4 GB with four widths of the size prefix, every header size and every place of a write", "anchors": ["inc/tuplestore/page_header.h: get_space_required_for_page_header, can_page_header_fit_on_page, get_page_header_size, get_page_header, get_page_header_ua, init_page_header, get_end_of_page_header", "inc/tuplestore/page_header_util.h", "src/page_header.c"]}
{"id": "C75", "title": "a page that was compacted and cleared shows its entries and nothing else", "statement": "After run_page_compaction and then zero_out_free_space_on_page, the entries and the header are the old ones, and every byte of the page either lies before the space allotted to tuples, or in the slot of an entry, or in a tuple, or is zero: no byte of a removed or replaced tuple is left. Doing either again, or both, changes no byte. Compaction leaves the same bytes whatever sorting function the library was linked with. With tuples of variable size the bytes of the whole page are then determined: two pages with the same header and entries, whose tuples lie in the same order, consist of the same bytes, whatever their histories. With tuples of fixed size this is not so: tomb stones keep the bytes of the tuple that was there, and removed entries keep their bits.", "quantifier": "every page size, header size and definition, every page that any histories leave, every correct sorting function", "why_tests_cant": "what is left on a page depends on its whole history; a test sees the leftovers of a few histories only", "anchors": ["inc/tuplestore/page_layout.h: run_page_compaction, zero_out_free_space_on_page, get_nth_tuple_on_page, get_space_allotted_to_all_tuples_on_page", "src/page_layout_slotted.c: run_page_compaction_slotted_page, zero_out_free_space_slotted_page", "src/page_layout_fixed_array.c: zero_out_free_space_fixed_array_page"]}
{"id": "C76", "title": "bytes of a page that are not in use never matter", "statement": "Take a page that any history leaves, and overwrite as one likes those of its bytes that lie behind the header, counts and bits and are neither in the slot of an entry nor in a tuple: the free space, the gaps between tuples, the tomb stones of a fixed array. Then no sequence of page operations, header writes and in place updates of elements can tell the two pages apart: at every point every operation returns the same, every query has the same answer, and the header, the entries and the places of the tuples are the same; nothing outside the page is touched. So it is enough to save the bytes in use. Likewise two pages that different histories left with the same header and entries at the same places can never be told apart, whatever their other bytes.", "quantifier": "every page size, header size and definition, every page that any history leaves, every content of its unused bytes, every further history of any length", "why_tests_cant": "unboundedly many contents of the unused bytes, and unboundedly many further histories in which they might be read", "anchors": ["inc/tuplestore/page_layout.h: all functions", "src/page_layout_slotted.c", "src/page_layout_fixed_array.c", "src/page_layout.c"]}
{"id": "C77", "title": "a tuple on a page stays where it is until it is replaced, removed or compacted", "statement": "The pointer that get_nth_tuple_on_page returns stays good, with the bytes of the tuple behind it, through every operation on the page that neither replaces or removes that entry nor compacts the page, whatever happens to other entries, also when its index changes; and through every operation that fails. With tuples of variable size the places follow a simple rule: a new tuple is put directly below all others; an update keeps the place if the new tuple is not longer than the old one and that is not the lowest, else the new one is put directly below the other tuples; the other operations only reorder or drop places; compaction moves the tuples together at the end of the page in the order in which they lay. The free space is exactly what lies between the slots and the lowest tuple. From this rule one can say of each operation whether it succeeds: append and insert need room for the tuple and its slot in the free space; an update to a tuple needs room in the free space, or in the old tuple, or, if the old one lies lowest, in both together. In a fixed array an entry lies at its index times the tuple size. In both layouts the tuples lie behind the page header and inside of the page, and no two of them overlap. Setting an element in place moves no tuple.", "quantifier": "every page size, header size and definition, every page that any history leaves, every operation", "why_tests_cant": "places depend on the whole history of the page; a pointer that is wrong after one rare history shows in no test of others", "anchors": ["inc/tuplestore/page_layout.h: get_nth_tuple_on_page, append_tuple_on_page, insert_tuple_on_page, update_tuple_on_page, run_page_compaction, get_free_space_on_page", "src/page_layout_slotted.c", "src/page_layout_fixed_array.c"]}
{"id": "C78", "title": "an element may be copied from a neighbour in the same buffer or on the same page", "statement": "If two tuples lie side by side in one buffer, and the target, grown by the size increment that was allowed, does not reach the source, then set_element_in_tuple_from_tuple, and set_element_in_tuple with a value that get_value_from_element_from_tuple read from the source, do exactly what they do with a copy of the source in another buffer. The same holds on a page: a value read from one entry may be given, without copying it first, to set_element_in_tuple_in_place_on_page for another entry of the same page. The outcome is defined; a failure changes nothing; after a success the element reads as the source element does if they have the same type, and all other entries, the source among them, are as they were. Within one entry a copy is needed only if the target has a variable size and does not lie in another element of the tuple that is stored behind the one with the source (numbers never need one); otherwise the result may be wrong.", "quantifier": "every type, every two tuples in one buffer on either side of each other, every reachable page of both layouts, every two different entries, every pair of accessors, all values", "why_tests_cant": "the value points into the page that is being changed; which bytes are written before the value is read depends on the order of elements within the tuple and of tuples on the page, so on their histories", "anchors": ["inc/tuplestore/page_layout.h: set_element_in_tuple_in_place_on_page, get_nth_tuple_on_page", "inc/tuplestore/tuple.h: set_element_in_tuple, set_element_in_tuple_from_tuple, get_value_from_element_from_tuple", "src/page_layout_slotted.c: set_element_in_tuple_in_place_slotted_page", "src/page_layout_fixed_array.c: set_element_in_tuple_in_place_fixed_array_page", "inc/tuplestore/data_type_info.h: set_datum_for_type_info, set_datum_to_containee_in_container"]}
{"id": "C79", "title": "sets in place on different entries of a page do not interact", "statement": "If elements of two different entries of a page are set in place with set_element_in_tuple_in_place_on_page, the order does not matter: each set returns the same in both orders, and in the end both pages have the same page header, the same entries at the same places, the same free space and the same occupied space.", "quantifier": "every page size, header size and definition, every page that any history leaves, every two different entries, all accessors and values within the contract, successful or refused", "why_tests_cant": "the two sets move elements within their tuples and change the accounting of the page; whether that depends on the order must hold for all pairs of sets on all pages", "anchors": ["inc/tuplestore/page_layout.h: set_element_in_tuple_in_place_on_page, get_nth_tuple_on_page, get_free_space_on_page, get_space_occupied_by_all_tuples_on_page", "src/page_layout_slotted.c: set_element_in_tuple_in_place_slotted_page", "src/page_layout_fixed_array.c: set_element_in_tuple_in_place_fixed_array_page"]}
