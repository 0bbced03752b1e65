(** * The page API (src/page_layout.c): dispatch on the layout *)
From Verif Require Export FixedArray.

(** src/page_layout.c:12-18 [get_page_layout_type] *)
Inductive page_layout := SLOTTED_PAGE_LAYOUT | FIXED_ARRAY_PAGE_LAYOUT.
Definition get_page_layout_type (d : size_def) : page_layout :=
  if is_variable_sized d then SLOTTED_PAGE_LAYOUT else FIXED_ARRAY_PAGE_LAYOUT.

(** the [switch] every function of this file starts with *)
Notation dispatch d s f :=
  (match get_page_layout_type d with SLOTTED_PAGE_LAYOUT => s | FIXED_ARRAY_PAGE_LAYOUT => f end).

(** src/page_layout.c:20-30 *)
Definition get_minimum_page_size (h : Z) (d : size_def) (n : Z) : Z :=
  dispatch d (sl_min_page_size h d n) (fa_min_page_size h d n).
(** src/page_layout.c:32-42 *)
Definition get_maximum_tuple_count_on_page (h ps : Z) (d : size_def) : res Z :=
  dispatch d (sl_max_tuple_count h ps d) (Ok (fa_max_tuple_count h ps d)).
(** src/page_layout.c:44-54 *)
Definition get_maximum_tuple_size_accomodatable_on_page (h ps : Z) (d : size_def) : Z :=
  dispatch d (sl_max_tuple_size h ps) (fa_max_tuple_size h ps).
(** src/page_layout.c:56-66 *)
Definition init_page (p : mem) (ps h : Z) (d : size_def) : res (bool * mem) :=
  dispatch d (sl_init p ps h d) (fa_init p ps h d).
(** src/page_layout.c:68-78 *)
Definition get_tuple_count_on_page (p : mem) (ps : Z) (d : size_def) : res Z :=
  dispatch d (sl_tuple_count p ps) (fa_tuple_count p ps).
(** src/page_layout.c:80-90 *)
Definition get_tomb_stone_count_on_page (p : mem) (ps : Z) (d : size_def) : res Z :=
  dispatch d (sl_tomb_stone_count p ps) (fa_tomb_stone_count p ps).
(** src/page_layout.c:92-102 *)
Definition append_tuple_on_page (p : mem) (ps : Z) (d : size_def) (x : ext) : res (bool * mem) :=
  dispatch d (sl_append p ps d x) (fa_append p ps d x).
(** src/page_layout.c:104-114 *)
Definition can_append_tuple_on_page (p : mem) (ps : Z) (d : size_def) (x : ext) : res bool :=
  dispatch d (sl_can_append p ps d x) (fa_can_append p ps d).
(** src/page_layout.c:116-126 *)
Definition insert_tuple_on_page (p : mem) (ps : Z) (d : size_def) (i : Z) (x : ext) : res (bool * mem) :=
  dispatch d (sl_insert p ps d i x) (fa_insert p ps d i x).
(** src/page_layout.c:128-132 *)
Definition can_insert_tuple_on_page (p : mem) (ps : Z) (d : size_def) (i : Z) (x : ext) : res bool :=
  let* n := get_tuple_count_on_page p ps d in
  if i <=? n then can_append_tuple_on_page p ps d x else Ok false.
(** src/page_layout.c:134-144 *)
Definition update_tuple_on_page (p : mem) (ps : Z) (d : size_def) (i : Z) (x : ext) : res (bool * mem) :=
  dispatch d (sl_update p ps d i x) (fa_update p ps d i x).
(** src/page_layout.c:146-156 *)
Definition can_update_tuple_on_page (p : mem) (ps : Z) (d : size_def) (i : Z) (x : ext) : res bool :=
  dispatch d (sl_can_update p ps d i x) (fa_can_update p ps i).
(** src/page_layout.c:158-168 *)
Definition discard_tuple_on_page (p : mem) (ps : Z) (d : size_def) (i : Z) : res (bool * mem) :=
  dispatch d (sl_discard p ps d i) (fa_discard p ps d i).
(** src/page_layout.c:170-185 *)
Definition discard_all_tuples_on_page (p : mem) (ps : Z) (d : size_def) : res mem :=
  dispatch d (sl_discard_all p ps) (fa_discard_all p ps).
(** src/page_layout.c:187-197 *)
Definition discard_trailing_tomb_stones_on_page (p : mem) (ps : Z) (d : size_def) : res (Z * mem) :=
  dispatch d (sl_discard_trailing p ps) (fa_discard_trailing p ps).
(** src/page_layout.c:212-222 *)
Definition exists_tuple_on_page (p : mem) (ps : Z) (d : size_def) (i : Z) : res bool :=
  dispatch d (sl_exists p ps i) (fa_exists p ps i).
(** src/page_layout.c:199-210; [k] iterations left, [n] is [tuple_count_concerned] *)
Fixpoint trailing_count_loop (p : mem) (ps : Z) (d : size_def) (k : nat) (n r : Z) : res Z :=
  match k with
  | O => Ok r
  | S k' =>
      let* ex := exists_tuple_on_page p ps d (u32 (n - 1)) in
      if ex : bool then Ok r else trailing_count_loop p ps d k' (u32 (n - 1)) (u32 (r + 1))
  end.
Definition get_trailing_tomb_stones_count_on_page (p : mem) (ps : Z) (d : size_def) : res Z :=
  let* n := get_tuple_count_on_page p ps d in
  trailing_count_loop p ps d (Z.to_nat n) n 0.
(** src/page_layout.c:224-234 *)
Definition swap_tuples_on_page (p : mem) (ps : Z) (d : size_def) (i1 i2 : Z) : res (bool * mem) :=
  dispatch d (sl_swap p ps i1 i2) (fa_swap p ps d i1 i2).
(** src/page_layout.c:236-246 *)
Definition get_nth_tuple_on_page (p : mem) (ps : Z) (d : size_def) (i : Z) : res (option Z) :=
  dispatch d (sl_get_nth p ps i) (fa_get_nth p ps d i).
(** src/page_layout.c:260-264; the destination [p] and the source are distinct buffers *)
Definition clone_page (p : mem) (ps : Z) (src : mem) : res mem := memcopy p 0 src 0 ps.
(** src/page_layout.c:266-276; result: (return value, memory_allocation_error, page) *)
Definition run_page_compaction (srt : list (Z * Z) -> list (Z * Z)) (malloc_ok : bool)
    (p : mem) (ps : Z) (d : size_def) : res (bool * bool * mem) :=
  dispatch d (sl_compact srt malloc_ok p ps d) (fa_compact p).
(** src/page_layout.c:278-288 *)
Definition zero_out_free_space_on_page (p : mem) (ps : Z) (d : size_def) : res (bool * mem) :=
  dispatch d (sl_zero_out p ps) (fa_zero_out p ps d).
(** src/page_layout.c:290-300 *)
Definition get_free_space_on_page (p : mem) (ps : Z) (d : size_def) : res Z :=
  dispatch d (sl_free_space p ps) (fa_free_space p ps d).
(** src/page_layout.c:302-316 *)
Definition get_space_occupied_by_tuples_on_page (p : mem) (ps : Z) (d : size_def) (a b : Z) : res Z :=
  let* n := get_tuple_count_on_page p ps d in
  if (b <? a) || (n <=? b) then Ok 0
  else dispatch d (sl_space_occupied_range p ps d a b) (Ok (fa_space_occupied_range d a b)).
(** src/page_layout.c:318-328 *)
Definition get_space_occupied_by_all_tuples_on_page (p : mem) (ps : Z) (d : size_def) : res Z :=
  dispatch d (sl_space_occupied_all p ps) (fa_space_occupied_all p ps d).
(** src/page_layout.c:330-340 *)
Definition get_space_occupied_by_all_tomb_stones_on_page (p : mem) (ps : Z) (d : size_def) : res Z :=
  dispatch d (sl_space_occupied_tomb_stones p ps) (fa_space_occupied_tomb_stones p ps d).
(** src/page_layout.c:342-352 *)
Definition get_space_to_be_occupied_by_tuple_on_page (ps : Z) (d : size_def) (x : ext) : res Z :=
  dispatch d (sl_space_to_be_occupied ps d x) (Ok (fa_space_to_be_occupied d)).
(** src/page_layout.c:354-364 *)
Definition get_space_allotted_to_all_tuples_on_page (p : mem) (ps : Z) (d : size_def) : res Z :=
  dispatch d (sl_space_allotted p ps) (fa_space_allotted p ps d).
(** src/page_layout.c:366-376 *)
Definition get_space_to_be_allotted_to_all_tuples_on_page (h ps : Z) (d : size_def) : Z :=
  dispatch d (sl_space_to_be_allotted h ps) (fa_space_to_be_allotted h ps d).
(** src/page_layout.c:378-383 *)
Definition get_fragmentation_space_on_page (p : mem) (ps : Z) (d : size_def) : res Z :=
  let* a := get_space_allotted_to_all_tuples_on_page p ps d in
  let* o := get_space_occupied_by_all_tuples_on_page p ps d in
  let* f := get_free_space_on_page p ps d in
  Ok (u32 (a - (o + f))).
(** src/page_layout.c:385-395 *)
Definition get_additional_space_overhead_per_tuple_on_page (ps : Z) (d : size_def) : Z :=
  dispatch d (sl_overhead ps) fa_overhead.
