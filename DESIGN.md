# Formal model of TupleStore in Coq

## Approach

The model is a set of total, computable Gallina functions that follow the C code function by function, at byte level.

* Memory is a `list byte` (`Coq.Init.Byte.byte`). A pointer into a buffer is a `Z` offset into that list. Every load and
  store goes through `rd` / `wr`, which return the distinct outcome `UB` when the accessed range is not inside the buffer.
  All model functions live in the `res` monad (`Ok a | UB`), so a theorem whose conclusion is `f .. = Ok ..` also says
  that no access leaves the buffer, no NULL pointer is dereferenced and no bit range of more than 64 bits is used.
* C `uint32_t` arithmetic is `Z` arithmetic with explicit `u32 x := x mod 2^32` (and `u64` where the C code widens), so
  wrap-around is part of the model.
* A C function that changes a page or a tuple returns the new byte list.
* Loops are structural recursions on a `nat` count or on explicit fuel that is shown to suffice.
* Success of malloc is a boolean input. The Cutlery heap sort used by compaction is an arbitrary function constrained, in
  the theorem statement, to return a permutation sorted by descending offset. Conversions that the C standard leaves to
  the platform (double to integer, rounding to float) are arbitrary functions. Uninitialised fields of malloc'ed structs
  are arbitrary values.

### From bytes to claims

* Pages: `PageSpec.reachable ps h d p` says that the bytes `p` were left by a sequence of calls of the page API (any
  sequence, any arguments, including setting elements of tuples in place). The claims relate such pages to a list of
  optional tuples (`Spec.v`, list functions only). The invariant behind it is in `SlottedFacts.v`, `FixedFacts.v`.
* Tuples: `TupleSpec.data_at d m o` says that the bytes at `o` of `m` were left by a sequence of calls of the tuple API
  (initialize, set, expand, discard, moving elements, copying, taking the data of an element out) on a type that `finalize_type_info`
  accepted. The claims speak about readings at paths (`observe`). The invariants behind it are `ContainerFacts.cv` (one
  container: bitmap, fixed slots, offsets, disjoint variable sized elements), `DataFacts.good` (all levels) and
  `NestFacts.holds`.
* Types: `TypeSpec.type_built` is what the builder functions of `data_type_info.h` can make.

## Files (`rocq/theories`)

| file | content |
|------|---------|
| `Bytes.v` | contracts of code outside /repo: C memory, Cutlery memory and bitmap functions, SerInt integers |
| `SizeDef.v`, `PageUtil.v`, `Slotted.v`, `FixedArray.v`, `PageLayout.v` | model of `tuple_def.c`, `page_layout_util.h`, `page_header*.h/.c`, the two layouts and the dispatching page API |
| `PageCopy.v` | setting an element in place, and from another tuple, with a value that points into the same page or buffer |
| `PageAlias.v` | append, insert and update again, with a tuple pointer that may point into the page |
| `DataType.v`, `Datum.v`, `Container.v`, `Tuple.v` | model of `data_type_info.h/.c` (struct, finalization, element access and update), `datum.h`, `tuple.c` |
| `TypeSerde.v` | model of serialization, deserialization and comparison of types |
| `Numerals.v`, `Compare.v`, `Hash.v` | model of `primitive_numeral_types.c`, `datum.c`, the comparing and hashing half of `tuple.c`, `tuple_hasher.c` |
| `Accessor.v`, `PageElement.v`, `TypeHeap.v`, `TypeAlloc.v`, `Defaults.v`, `Print.v` | model of `positional_accessor.h`, of `set_element_in_tuple_in_place_on_page`, of clone / destroy / deserialize of types on a heap, of `data_type_info_defaults.h/.c`, of the `print_*` functions |
| `Spec.v`, `PageSpec.v`, `BoundedSpec.v`, `ImageSpec.v`, `UnusedSpec.v`, `PlaceSpec.v`, `TypeSpec.v`, `TupleSpec.v`, `ReadSpec.v`, `SuccessSpec.v`, `CopySpec.v`, `HeapSpec.v`, `TreeSpec.v`, `SameSpec.v`, `TableSpec.v`, `BoundedTableSpec.v`, `PrintSpec.v`, `SerdeSpec.v`, `NumeralSpec.v`, `CompareSpec.v` | the specifications that the claims are stated with |
| `*Props.v` | the claims `Cnn_...`, each followed by `Print Assumptions` and by examples that meet its hypotheses |
| `*Examples.v` | concrete pages and tuples for the examples |
| the other files | lemmas |

## Per property

| property | what is modelled, how it is proved |
|---|---|
| C01 | `init_page`, both layouts; direct computation from the layout equations |
| C02-C09 | every mutator of both layouts; a representation relation between page bytes and a list of optional tuples, preserved by each operation; each operation refines the list operation |
| C10, C11 | case analysis on the same space equation for predicate and mutator |
| C12 | all operations return `Ok` under the representation invariant |
| C13 | header bytes are a component of the representation relation |
| C14 | loop invariant over the descending list of offsets, memmove semantics |
| C15-C19 | arithmetic from the representation relation |
| C20-C23 | arithmetic on the size formulas, field widths at 2^8, 2^16, 2^24; C23 is false for some page sizes (finding a) |
| C24 | induction over operation lists using C02-C15 |
| C25 | byte copy |
| C26 | little endian round trip, width bound |
| C27-C29 | `tuple_def.c`; round trip by computation on bytes |
| C30-C37 | byte level model of element access; invariant `cv` / `good` preserved by set, expand and discard; induction over the type tree and the path; C36 is false for two kinds of containers (findings b, c) |
| C38 | both page layouts extended by the in place update; page relation of C02 and tuple invariant of C32 combined |
| C39-C41, C50, C51 | serialization, deserialization, comparison, finalization, field search; induction over the type tree; C40 and C41 are false in corners (findings g, h, i) |
| C42-C44, C46, C47 | comparison on mathematical integers and IEEE-754 bit patterns; order proofs |
| C45, C52 | fold of an arbitrary byte hash over the value; the supplied hash function is compared with FNV-1, its steps are injective because the prime has an inverse modulo 2^64 (`FnvProps.v`); C52 is false for floats (finding j), and only for zeros and NaNs (`HashFloatProps.v`) |
| C48, C53 | list model of positional accessors; the documented traversal as a step function with a measure |
| C49 | both access paths modelled; false below NULLs and in strings with a zero byte (finding f) |
| C54 | simulation: every function run on a buffer and on a larger memory around it |
| C55 | exact conditions from the same invariant, stated over readings only |
| C56 | sum over the parts of the representation `cv` |
| C57-C59 | `get_max_size_increment_allowed_for_element_in_tuple`, `is_minimal_data_for_type_info`, `are_all_positions_accessible_*`; induction over the path |
| C60 | `set_element_in_tuple_from_tuple`; the value read has the form its type says and fits the target after the cast, then C32-C34 and C55; for identical types through `da_identical` |
| C61 | types as structs on a heap with an arbitrary allocator (`TypeHeap.v`); the structs of a type form a tree (`shape`); induction on the tree for both functions |
| C62 | `deserialize_type_info` again with its calls of `malloc`, `free` and destroy (`TypeAlloc.v`), returning the type of `TypeSerde.v` and an address; induction on the nesting with an invariant for a half-built tuple |
| C63 | trees and operations on trees (`TreeSpec.v`); the tree of a representation `cv` by recursion on it; induction over the path of an operation and over the history |
| C64 | the macros and tables as functions (`Defaults.v`); sizes of `TypeSpec`, acceptance by C50; independence of uninitialised memory by induction over the loops of finalization |
| C65 | rows as lists of trees (`TableSpec.v`); the entries of the view of C01 are related to rows one by one, the effect of an operation on entries is transported along that relation; the element set in place by C63; induction over histories |
| C66 | stdout as a list of literal texts and conversion arguments (`Print.v`), compared with what is read (`PrintSpec.v`); induction on values as for C52, on the entries of a page, on types |
| C67 | users of stored descriptions (`SharedSpec.v`): the types they read have the same description (C39), so the same layout and readings (C41), and their size definitions agree in all fields in use; the page invariant of C65 is the same for all; induction over schedules |
| C68 | the same functions with a tuple pointer into the page (`PageAlias.v`), so that every read sees the stores made so far; the stores before the copy stay below the tuples, so the bytes read are those of the tuple; then C02-C04 |
| C69 | the functions on elements of one container with the position that the caller passes (`PosCache.v`, `ElementType.v`); the position is a function of type, element count and index; each function then reduces to the one on a path of one position; histories by induction with the invariant that every kept position was computed for the same count |
| C70 | setting elements with a value that points into the tuple itself (`SelfSet.v`): its bytes are read from the buffer as it is at that point; for numbers there is no pointer; for fixed sizes the only writes before the copy go to the bitmap, and one `memmove` reads before it writes; for variable sizes nothing before the moved element changes, and the element ends up behind the source (`SelfSetFacts.v`); no type contains one of its own description, so a tuple is never copied into itself |
| C71 | the trees of C63 of two tuples are the same (`SameSpec.v`): by induction over the tree their representations have the same lengths, and over the path the same elements are there; so the exact conditions of C55 hold for both or none; a step on trees is a function of the tree (`SameFacts.v`); induction over histories; values of C43 and C45 by induction over the value |
| C72 | the client's programs (try, compact, try again; update through a tomb stone with the old entry kept) are written in `BoundedSpec.v` over the modelled API, with the list and its limit; on the page views of C01–C20 each call is known exactly by free space, and compaction makes free space the limit less the total; refinement by induction over histories; the list's step is a function |
| C73 | the client of C72 on the pages of tuples of C65: its programs stay within the operations of C65 (the old entry put back is a tuple), C72 gives the entries, the space of an entry is the size of its tuple, which by C71 is a function of the row; setting in place is decided by `settable` (C55), which by C71 depends on the row; refinement by induction over histories, the step on rows is a function |
| C74 | the functions of `page_header.c` alone, on any page with a header: byte level facts about the prefix of 1 to 4 bytes and the bytes behind it (`HeaderProps.v`); pages of tuples by the page views of C01–C20. `C16_overhead`, about the space of one tuple, is in the same file |
| C75 | the invariant of slotted pages fixes every byte once the places of the tuples are known; compaction is shown to place them by their old order alone (`sl_compact_places`), whatever the sort; the bytes of a cleared page are classified one by one (`ImageFacts.v`). For fixed arrays only the first half is true (finding w) |
| C76 | the invariants of both layouts speak about bytes in use only, so they hold of the overwritten page too; each operation is shown to lead two pages with the same header, entries and places to two such pages (`UnusedFacts.v`, with the exact places of `sl_update_places` and `sl_compact_places`); histories by induction over `together` |
| C77 | `PlaceSpec.v` says where tuples go; `machine` (`PlaceFacts.v`) shows for each operation on a slotted page that its places are those, from the exact places of `sl_update_places` and `sl_compact_places` (any sorting function); pointers by cases over the operation and the index of the entry after it |
| C78 | setting from a value that points into the same buffer (`PageCopy.v`, on top of `SelfSet.v` of C70), for tuples side by side and for entries of a page; from where the value is read (C70), what each step of the set writes before it reads the value, and that two tuples of a page never overlap (`C77_apart`): the outcome is equal to the one with a separate copy, which C38 and C60 describe; within one entry the cases of C70 (`PageSelfProps.v`), with a witness for the others |
| C79 | the model of C38; what a set in place does to an entry depends on that entry alone (`in_place_step`), it moves no tuple (C77) and keeps the free space; replacing two different entries commutes |

## Findings: behaviour of the code that contradicts a reasonable claim

Each is a theorem named `_refuted...` with a concrete witness, unless said otherwise.

* a. C23: `init_page` accepts pages in which not even one minimal tuple fits, when the width of the page's integers changes between the minimal and the actual page size (257 byte pages).
* b. C36: a variable count ARRAY of 1 bit BIT_FIELDs with maximum size 256 can be expanded to 300 elements, the count is stored in one byte and reads as 44.
* c. C36: arrays of nullable 64 bit BIT_FIELDs shift 65 bits at once: undefined behaviour in the bitmap functions.
* d. Expanding overflows `uint32_t` sizes when the count is huge (README asks the caller to avoid it; hypothesis `expand_limits`; `C36_refuted_size`: 2^30 numbers are added within 0 bytes).
* e. Setting a fixed size BINARY with a shorter value leaves the old trailing bytes (visible in C32: `reads_back` says so).
* f. C49: `get_nested_containee_from_datum` two steps below a NULL dereferences the NULL type pointer; below a NULL numeral it reports nothing where the tuple reports NULL; it finds bytes of a STRING behind its terminating zero.
* g. C41: `are_identical_type_info` on types that are not finalized; names of fields are never compared.
* h. C40: `deserialize_type_info` with a nested type of code 8 (or 11), and with a nested fixed tuple with variable sized element, reads behind its input or accepts nonsense.
* i. C41: type names of exactly 64 bytes are read past their array; `C41_any_names` says exactly when.
* j. C52: `0.0` and `-0.0` compare equal but hash differently. NaNs of different bits are the only other such floats (`C52_exceptions`).
* k. Slotted pages can hold more tomb stones than `get_maximum_tuple_count` (C21 counts existing tuples).
* l. `EMPTY_DATUM` is recognised by pointer identity only (the model has a constructor for it).
* m. On fixed array pages `get_free_space >= size` does not imply that an append succeeds (C18 states the exact condition).
* n. `deserialize_type_info` of a TUPLE ignores the result of finalizing its elements and leaves struct fields uninitialised (arbitrary in the model).
* p. A refused set / expand / discard may permute bytes of enclosing containers (readings are kept: C33, C36, C37).
* q. `are_all_positions_accessible_for_tuple` accepts positions below a NULL element that the type does not have (C59 says so).
* r. C66: `print_datum` and `print_type_info` print names with `%s`: a name of 64 bytes is read past its array.
* s. C47: `type_cast_primitive_numeral_type` does not clear `is_NULL` of the datum that receives the result: a datum that was NULL
  stays NULL although the cast returns 1. An integer that is too large for the target is not reduced to its size either, only to 64 or 256 bits.
* t. C69: a position kept from before elements were added to or removed from an array is wrong afterwards, and a position decides alone which
  element is used (the index is only compared with the count); the header does not say so. Setting, NULLs and moves keep positions valid.
* u. C70: copying an element within one tuple can return 1 and leave another value in the target, or an array that cannot be read any more (`C70_refuted_*`), when the target has variable size and is not stored behind the source. The header warns of it (tuple.h:37) for every string, binary, tuple and array; C70 says in which of these cases it is harmless.
* v. C74: `can_page_header_fit_on_page` and `init_page_header` add in 32 bits: a header of nearly 4 GB fits on any page for them, and initialising it writes behind the page (`C74_refuted_wrap`).
* w. C75: in a fixed array, `zero_out_free_space_on_page` clears neither the bytes of a tomb stone nor the bits of entries that were discarded: what was removed from a page can still be found on it, and equal pages can differ in their bytes after it (`C75_refuted_fixed`, `C75_nothing_left_fixed`).

## Trusted base

* Coq 8.16.1: its kernel, and `vm_compute` for the examples.
* `Print Assumptions` below every theorem prints "Closed under the global context": no axioms are used. (`coqchk` on the
  whole development lists the parameters `Coq.ssr.ssrunder.Under_rel.*` of a standard library module that is loaded
  through `Lia`'s dependencies; no theorem depends on them.)
* The contracts in `Bytes.v` for code outside /repo: C memory and `strnlen`, Cutlery `memory_*` and bitmap functions,
  SerInt integers. The comparison functions of SerInt and Cutlery (`compare_numbers`, `compare_uint256`...) are
  assumed to compare exactly; IEEE-754 comparison is modelled on bit patterns.
* That the model follows the code: every definition cites the lines it models.

### Modelled

`page_layout.c`, `page_layout_slotted.c`, `page_layout_fixed_array.c`, `page_layout_util.h`, `page_header*.c/.h`,
`tuple_def.c`, `data_type_info.h/.c`, `datum.h/.c`, `tuple.h/.c`, `primitive_numeral_types.c`, `tuple_hasher.c`,
`positional_accessor.h`, `data_type_info_defaults.h/.c` (`Defaults.v`; the static types that deserialization may return
instead of fresh ones are an oracle in `TypeSerde.v`), except what is listed next.

### Not modelled

* how `printf` formats its arguments (`Print.v` records the arguments), `serialize_to_decimal_*` of SerInt;
* aliasing of a datum with the tuple that is updated with it, except as in `SelfSet.v` (C70); a datum that overlaps the tuple in another way than one read from it (in the other files the buffers are different lists; `tuple.h:37` asks callers for two separate tuples);
* two threads (the library has no synchronisation and does not claim to be thread safe).
