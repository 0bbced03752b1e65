(** * Vocabulary of the page properties

    Everything the statements of PageProps.v talk about: the documented limits,
    what a caller may pass, the histories of a page, and what a caller can
    observe of a page -- through the functions of the page API only. *)
From Coq Require Import Sorting.Permutation Sorting.Sorted.
From Verif Require Export PageLayout Spec.
From Verif Require TupleSpec PageElement.

(** ** The limits documented in README.md ("Project Limits") *)
Definition def_ok (d : size_def) : Prop :=
  1 <= sd_size d <= max_tuple_size d /\ max_tuple_size d <= max_bytes.
Definition limits (ps h : Z) (d : size_def) : Prop :=
  128 <= ps <= max_bytes /\ 0 <= h <= ps - 32 /\ def_ok d.

(** ** What a caller may pass
    A tuple is well formed when its bytes have the size that its own prefix
    (or the definition, for fixed sized tuples) announces, not above the
    maximum of the definition; [None] is the NULL pointer. *)
Definition tuple_ok (d : size_def) (t : tuple) : Prop :=
  tuple_size d t 0 = Ok (zlen t) /\ zlen t <= max_tuple_size d.
Definition ext_ok (d : size_def) (x : ext) : Prop :=
  match x with None => True | Some t => tuple_ok d t end.
Definition xlen (x : ext) : Z := match x with None => 0 | Some t => zlen t end.
Definition is_u32 (i : Z) : Prop := 0 <= i < 4294967296.

(** The heap sort of Cutlery used by the compaction: any function that sorts by
    decreasing offset *)
Definition desc (a b : Z * Z) : Prop := fst b <= fst a.
Definition sorts (srt : list (Z * Z) -> list (Z * Z)) : Prop :=
  forall l, Permutation l (srt l) /\ StronglySorted desc (srt l).

(** ** What a caller can observe
    The entries, read one by one with [get_tuple_count_on_page],
    [get_nth_tuple_on_page] and the size function of the tuple definition. *)
Definition read_entry (ps : Z) (d : size_def) (p : mem) (i : Z) : res (option tuple) :=
  let* x := get_nth_tuple_on_page p ps d i in
  match x with
  | None => Ok None
  | Some o =>
      let* n := tuple_size d p o in
      let* t := rd p o n in
      Ok (Some t)
  end.
Fixpoint read_entries (ps : Z) (d : size_def) (p : mem) (i : Z) (k : nat) : res content :=
  match k with
  | O => Ok []
  | S k' =>
      let* e := read_entry ps d p i in
      let* c := read_entries ps d p (i + 1) k' in
      Ok (e :: c)
  end.
Definition contents (ps : Z) (d : size_def) (p : mem) : res content :=
  let* n := get_tuple_count_on_page p ps d in
  read_entries ps d p 0 (Z.to_nat n).

(** The header bytes, through [get_page_header_size] and [get_page_header]. *)
Definition header (ps : Z) (p : mem) : res (list byte) :=
  let* n := get_page_header_size p ps in
  rd p (get_page_header ps) n.

(** ** The operations *)
Inductive page_op :=
| Append (x : ext)
| Insert (i : Z) (x : ext)
| Update (i : Z) (x : ext)
| Discard (i : Z)
| DiscardAll
| DiscardTrailing
| Swap (i j : Z)
| Compact (srt : list (Z * Z) -> list (Z * Z)) (malloc_ok : bool)
| ZeroOut
| WriteHeader (at_ : Z) (bs : list byte). (* store through get_page_header *)

(** arguments within the contract; the page has a header of [h] bytes *)
Definition op_ok (h : Z) (d : size_def) (op : page_op) : Prop :=
  match op with
  | Append x => ext_ok d x
  | Insert i x | Update i x => is_u32 i /\ ext_ok d x
  | Discard i => is_u32 i
  | Swap i j => is_u32 i /\ is_u32 j
  | Compact srt _ => sorts srt
  | WriteHeader at_ bs => 0 <= at_ /\ at_ + zlen bs <= h
  | DiscardAll | DiscardTrailing | ZeroOut => True
  end.

Definition writes_header (op : page_op) : bool := match op with WriteHeader _ _ => true | _ => false end.
(** the operations that answer 0 on failure *)
Definition can_fail (op : page_op) : bool :=
  match op with Append _ | Insert _ _ | Update _ _ | Discard _ | Swap _ _ => true | _ => false end.

(** the returned value, and whether a memory allocation failure was reported *)
Notation answer := (Z * bool)%type (only parsing).
Definition answer_of (r : res (bool * mem)) : res (answer * mem) :=
  let* (b, p') := r in Ok (b2n b, false, p').
Definition run_op (ps : Z) (d : size_def) (op : page_op) (p : mem) : res (answer * mem) :=
  match op with
  | Append x => answer_of (append_tuple_on_page p ps d x)
  | Insert i x => answer_of (insert_tuple_on_page p ps d i x)
  | Update i x => answer_of (update_tuple_on_page p ps d i x)
  | Discard i => answer_of (discard_tuple_on_page p ps d i)
  | DiscardAll => let* p' := discard_all_tuples_on_page p ps d in Ok (1, false, p')
  | DiscardTrailing => let* (k, p') := discard_trailing_tomb_stones_on_page p ps d in Ok (k, false, p')
  | Swap i j => answer_of (swap_tuples_on_page p ps d i j)
  | Compact srt ok =>
      let* (r, p') := run_page_compaction srt ok p ps d in
      Ok (b2n (fst r), snd r, p')
  | ZeroOut => answer_of (zero_out_free_space_on_page p ps d)
  | WriteHeader at_ bs => let* p' := write_page_header p ps at_ bs in Ok (1, false, p')
  end.

(** Setting an element of one entry where it lies, with arguments within the
    contract: [ty] is a type description, [t] its finalized form, whose size
    definition is the one of the page; the addressed entry, if there is one,
    holds data of type [t], and the value is one of the addressed type. *)
Definition in_place_ok (ps : Z) (d : size_def) (p : mem) (ty t : DataType.dti) (i : Z) (pa : list Z) (v : Datum.datum) : Prop :=
  TypeSpec.type_built ty /\ DataType.finalize ty = (true, t) /\ (exists d0, DataType.initialize_size_def d0 ty = Some d)
  /\ is_u32 i /\ TupleSpec.path_ok pa
  /\ (forall u, Tuple.get_type_info t pa = Some u -> TupleSpec.fits u v)
  /\ (forall u vm vo, Tuple.get_type_info t pa = Some u -> v = Datum.DPtr vm vo -> TupleSpec.data_at u vm vo)
  /\ (forall x, read_entry ps d p i = Ok (Some x) -> TupleSpec.data_at t x 0).

(** pages reachable from a successful [init_page] on arbitrary memory by
    operations with arguments within the contract *)
Inductive reachable (ps h : Z) (d : size_def) : mem -> Prop :=
| reachable_init p0 p : zlen p0 = ps -> init_page p0 ps h d = Ok (true, p) -> reachable ps h d p
| reachable_op p op r p' : reachable ps h d p -> op_ok h d op ->
    run_op ps d op p = Ok (r, p') -> reachable ps h d p'
| reachable_set p ty t i pa v r p' : reachable ps h d p -> in_place_ok ps d p ty t i pa v ->
    PageElement.set_element_in_place p ps t d i pa v = Ok (r, p') -> reachable ps h d p'.

(** ** The specification of the operations on lists of entries
    [effect op c r c']: on a page with entries [c], [op] may answer [r] and
    leave the entries [c']. *)
Definition effect (op : page_op) (c : content) (r : answer) (c' : content) : Prop :=
  match op with
  | Append x => (r = (1, false) /\ c' = c ++ [x]) \/ (r = (0, false) /\ c' = c)
  | Insert i x =>
      (r = (1, false) /\ i <= zlen c /\ c' = insert_at i x c) \/ (r = (0, false) /\ c' = c)
  | Update i x =>
      (r = (1, false) /\ i < zlen c /\ c' = replace_at i x c) \/
      (r = (0, false) /\ (i < zlen c -> x <> None) /\ c' = c)
  | Discard i =>
      if i <? zlen c then r = (1, false) /\ c' = remove_at i c else r = (0, false) /\ c' = c
  | DiscardAll => r = (1, false) /\ c' = []
  | DiscardTrailing =>
      r = (trailing_tomb_stones c, false) /\ c' = drop_last (trailing_tomb_stones c) c
  | Swap i j =>
      if (i <? zlen c) && (j <? zlen c)
      then r = (1, false) /\ c' = swap_at i j c else r = (0, false) /\ c' = c
  | Compact _ _ | ZeroOut => (fst r = 0 \/ fst r = 1) /\ c' = c
  | WriteHeader _ _ => r = (1, false) /\ c' = c
  end.

(** executions: on the code, and on lists *)
Inductive execution (ps : Z) (d : size_def) : mem -> list (page_op * answer) -> mem -> Prop :=
| exec_nil p : execution ps d p [] p
| exec_cons p op r p1 l p2 : run_op ps d op p = Ok (r, p1) ->
    execution ps d p1 l p2 -> execution ps d p ((op, r) :: l) p2.
Inductive list_execution : content -> list (page_op * answer) -> content -> Prop :=
| lexec_nil c : list_execution c [] c
| lexec_cons c op r c1 l c2 : effect op c r c1 ->
    list_execution c1 l c2 -> list_execution c ((op, r) :: l) c2.

(** ** The queries *)
Inductive page_query :=
| QCount | QTombStones | QTrailing | QExists (i : Z) | QGetNth (i : Z)
| QCanAppend (x : ext) | QCanInsert (i : Z) (x : ext) | QCanUpdate (i : Z) (x : ext)
| QFree | QOccupied (a b : Z) | QOccupiedAll | QOccupiedTombStones | QToBeOccupied (x : ext)
| QAllotted | QFragmentation | QHeaderSize.
Definition query_ok (d : size_def) (q : page_query) : Prop :=
  match q with
  | QExists i | QGetNth i => is_u32 i
  | QCanAppend x | QToBeOccupied x => ext_ok d x
  | QCanInsert i x | QCanUpdate i x => is_u32 i /\ ext_ok d x
  | QOccupied a b => is_u32 a /\ is_u32 b
  | _ => True
  end.
Definition zbool (r : res bool) : res Z := let* b := r in Ok (b2n b).
(** the answer as a number; for [QGetNth], the returned pointer ([-1] for NULL) *)
Definition run_query (ps : Z) (d : size_def) (q : page_query) (p : mem) : res Z :=
  match q with
  | QCount => get_tuple_count_on_page p ps d
  | QTombStones => get_tomb_stone_count_on_page p ps d
  | QTrailing => get_trailing_tomb_stones_count_on_page p ps d
  | QExists i => zbool (exists_tuple_on_page p ps d i)
  | QGetNth i => let* x := get_nth_tuple_on_page p ps d i in
                 Ok (match x with Some o => o | None => -1 end)
  | QCanAppend x => zbool (can_append_tuple_on_page p ps d x)
  | QCanInsert i x => zbool (can_insert_tuple_on_page p ps d i x)
  | QCanUpdate i x => zbool (can_update_tuple_on_page p ps d i x)
  | QFree => get_free_space_on_page p ps d
  | QOccupied a b => get_space_occupied_by_tuples_on_page p ps d a b
  | QOccupiedAll => get_space_occupied_by_all_tuples_on_page p ps d
  | QOccupiedTombStones => get_space_occupied_by_all_tomb_stones_on_page p ps d
  | QToBeOccupied x => get_space_to_be_occupied_by_tuple_on_page ps d x
  | QAllotted => get_space_allotted_to_all_tuples_on_page p ps d
  | QFragmentation => get_fragmentation_space_on_page p ps d
  | QHeaderSize => get_page_header_size p ps
  end.

(** ** Space
    The space one entry takes: a slotted page stores a slot per entry and the
    bytes of the tuples, a fixed array page a cell per entry. *)
Definition entry_space (ps : Z) (d : size_def) (x : ext) : Z :=
  if sd_variable d then value_size ps + xlen x else sd_size d.
Fixpoint total_space (ps : Z) (d : size_def) (c : content) : Z :=
  match c with [] => 0 | x :: c' => entry_space ps d x + total_space ps d c' end.

(** [k] appends of the same tuple, all of which must succeed *)
Fixpoint append_times (ps : Z) (d : size_def) (k : nat) (t : tuple) (p : mem) : res (bool * mem) :=
  match k with
  | O => Ok (true, p)
  | S k' =>
      let* (b, p1) := append_tuple_on_page p ps d (Some t) in
      if b : bool then append_times ps d k' t p1 else Ok (false, p1)
  end.

(** no tuple is smaller than the minimum of the definition *)
Definition big_enough (d : size_def) (c : content) : Prop :=
  Forall (fun e => match e with Some t => min_tuple_size d <= zlen t | None => True end) c.
