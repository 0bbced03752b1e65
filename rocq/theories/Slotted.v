(** * Slotted page layout (src/page_layout_slotted.c)

    Mutators return [Ok (return value, new page bytes)].  An external tuple is
    [None] for NULL and [Some bytes] for a pointer to [bytes] outside the page. *)
From Verif Require Export SizeDef.

Notation ext := (option (list byte)) (only parsing).

(** src/page_layout_slotted.c:19-22 *)
Definition sl_off_space_occupied (p : mem) (ps : Z) : res Z := offset_end_of_header p ps.
(** src/page_layout_slotted.c:24-27 *)
Definition sl_off_tuple_count (p : mem) (ps : Z) : res Z :=
  let* o := sl_off_space_occupied p ps in Ok (u32 (o + value_size ps)).
(** src/page_layout_slotted.c:29-32 *)
Definition sl_off_tomb_stone_count (p : mem) (ps : Z) : res Z :=
  let* o := sl_off_tuple_count p ps in Ok (u32 (o + value_size ps)).
(** src/page_layout_slotted.c:34-37 *)
Definition sl_off_end_of_free_space_offset (p : mem) (ps : Z) : res Z :=
  let* o := sl_off_tomb_stone_count p ps in Ok (u32 (o + value_size ps)).
(** src/page_layout_slotted.c:39-42 *)
Definition sl_off_tuple_offsets (p : mem) (ps : Z) : res Z :=
  let* o := sl_off_end_of_free_space_offset p ps in Ok (u32 (o + value_size ps)).
(** src/page_layout_slotted.c:44-47 [get_offset_to_ith_tuple_offset] *)
Definition sl_off_ith_slot (p : mem) (ps i : Z) : res Z :=
  let* o := sl_off_tuple_offsets p ps in Ok (u32 (o + i * value_size ps)).

(** src/page_layout_slotted.c:181-185 *)
Definition sl_tuple_count (p : mem) (ps : Z) : res Z :=
  let* o := sl_off_tuple_count p ps in read_value p o ps.
(** src/page_layout_slotted.c:187-191 *)
Definition sl_tomb_stone_count (p : mem) (ps : Z) : res Z :=
  let* o := sl_off_tomb_stone_count p ps in read_value p o ps.

(** src/page_layout_slotted.c:49-54 *)
Definition sl_start_of_free_space (p : mem) (ps : Z) : res Z :=
  let* n := sl_tuple_count p ps in sl_off_ith_slot p ps n.
(** src/page_layout_slotted.c:56-63 *)
Definition sl_end_of_free_space (p : mem) (ps : Z) : res Z :=
  let* o := sl_off_end_of_free_space_offset p ps in
  let* v := read_value p o ps in
  Ok (if v =? 0 then ps else v).
(** src/page_layout_slotted.c:65-69 [get_offset_to_ith_tuple] *)
Definition sl_ith_tuple (p : mem) (ps i : Z) : res Z :=
  let* o := sl_off_ith_slot p ps i in read_value p o ps.

(** src/page_layout_slotted.c:73-90 [recompute_end_of_free_space_offset]; [k] iterations from index [i] *)
Fixpoint sl_recompute_loop (p : mem) (ps : Z) (k : nat) (i acc : Z) : res Z :=
  match k with
  | O => Ok acc
  | S k' =>
      let* o := sl_ith_tuple p ps i in
      sl_recompute_loop p ps k' (i + 1) (if o =? 0 then acc else Z.min acc o)
  end.
Definition sl_recompute (p : mem) (ps : Z) : res mem :=
  let* n := sl_tuple_count p ps in
  let* v := sl_recompute_loop p ps (Z.to_nat n) 0 ps in
  let* o := sl_off_end_of_free_space_offset p ps in
  write_value p o ps v.

(** src/page_layout_slotted.c:712-715 *)
Definition sl_free_space (p : mem) (ps : Z) : res Z :=
  let* e := sl_end_of_free_space p ps in
  let* s := sl_start_of_free_space p ps in
  Ok (u32 (e - s)).

(** src/page_layout_slotted.c:95-113 [allocate_space_for_tuple_from_free_space] *)
Definition sl_allocate (p : mem) (ps size : Z) : res (Z * mem) :=
  let* fs := sl_free_space p ps in
  if fs <? size then Ok (0, p)
  else
    let* e := sl_end_of_free_space p ps in
    let e' := u32 (e - size) in
    let* o := sl_off_end_of_free_space_offset p ps in
    let* p1 := write_value p o ps e' in
    Ok (e', p1).

(** src/page_layout_slotted.c:758-762 *)
Definition sl_overhead (ps : Z) : Z := value_size ps.

(** src/page_layout_slotted.c:118-134 *)
Definition sl_min_page_size (h : Z) (d : size_def) (n : Z) : Z :=
  let s8 := u32 (1 + h + (4 + n) * 1 + n * min_tuple_size d) in
  if s8 <=? 256 then s8
  else
    let s16 := u32 (2 + h + (4 + n) * 2 + n * min_tuple_size d) in
    if s16 <=? 65536 then s16
    else
      let s24 := u32 (3 + h + (4 + n) * 3 + n * min_tuple_size d) in
      if s24 <=? 16777216 then s24
      else u32 (4 + h + (4 + n) * 4 + n * min_tuple_size d).

(** src/page_layout_slotted.c:753-756 *)
Definition sl_space_to_be_allotted (h ps : Z) : Z :=
  u32 (ps - (value_size ps + h + 4 * value_size ps)).

(** src/page_layout_slotted.c:136-139.  The C division by zero is not guarded here; the divisor is at
    least the overhead, unless it wraps *)
Definition sl_max_tuple_count (h ps : Z) (d : size_def) : res Z :=
  let den := u32 (min_tuple_size d + sl_overhead ps) in
  if den =? 0 then UB else Ok (sl_space_to_be_allotted h ps / den).

(** src/page_layout_slotted.c:141-150 *)
Definition sl_max_tuple_size (h ps : Z) : Z :=
  let t := sl_space_to_be_allotted h ps in
  let o := sl_overhead ps in
  if o <? t then u32 (t - o) else 0.

(** src/page_layout_slotted.c:152-179 *)
Definition sl_init (p : mem) (ps h : Z) (d : size_def) : res (bool * mem) :=
  if ps <? sl_min_page_size h d 1 then Ok (false, p)
  else
    let* (ok, p1) := init_page_header p ps h in
    if negb ok then Ok (false, p1)
    else
      let* o1 := sl_off_space_occupied p1 ps in
      let* p2 := write_value p1 o1 ps 0 in
      let* o2 := sl_off_tuple_count p2 ps in
      let* p3 := write_value p2 o2 ps 0 in
      let* o3 := sl_off_tomb_stone_count p3 ps in
      let* p4 := write_value p3 o3 ps 0 in
      let* o4 := sl_off_end_of_free_space_offset p4 ps in
      let* p5 := write_value p4 o4 ps ps in
      Ok (true, p5).

(** size of an external tuple *)
Definition ext_size (d : size_def) (t : list byte) : res Z := tuple_size d t 0.

(** src/page_layout_slotted.c:740-746 *)
Definition sl_space_to_be_occupied (ps : Z) (d : size_def) (x : ext) : res Z :=
  match x with
  | None => Ok (u32 (sl_overhead ps + 0))
  | Some t => let* s := ext_size d t in Ok (u32 (sl_overhead ps + s))
  end.

(** src/page_layout_slotted.c:248-251 *)
Definition sl_can_append (p : mem) (ps : Z) (d : size_def) (x : ext) : res bool :=
  let* a := sl_space_to_be_occupied ps d x in
  let* f := sl_free_space p ps in
  Ok (a <=? f).

(** read a field, add [delta] (modulo 2^32), write it back *)
Definition bump (p : mem) (o ps delta : Z) : res mem :=
  let* v := read_value p o ps in write_value p o ps (u32 (v + delta)).

(** src/page_layout_slotted.c:193-246 *)
Definition sl_append (p : mem) (ps : Z) (d : size_def) (x : ext) : res (bool * mem) :=
  let* c := sl_can_append p ps d x in
  if negb c then Ok (false, p)
  else
    let* otc := sl_off_tuple_count p ps in
    let* n := read_value p otc ps in
    let n' := u32 (n + 1) in
    let* p1 := write_value p otc ps n' in
    let* oslot := sl_off_ith_slot p1 ps (u32 (n' - 1)) in
    let* (space, p4) :=
      match x with
      | None =>
          let* p2 := write_value p1 oslot ps 0 in
          let* ots := sl_off_tomb_stone_count p2 ps in
          let* p3 := bump p2 ots ps 1 in
          Ok (sl_overhead ps, p3)
      | Some t =>
          let* s := ext_size d t in
          let* (off, p2) := sl_allocate p1 ps s in
          let* p3 := write_value p2 oslot ps off in
          let* p4 := memcopy p3 off t 0 s in
          Ok (u32 (sl_overhead ps + s), p4)
      end in
    let* oso := sl_off_space_occupied p4 ps in
    let* p5 := bump p4 oso ps space in
    Ok (true, p5).

(** src/page_layout_slotted.c:253-279 *)
Definition sl_insert (p : mem) (ps : Z) (d : size_def) (i : Z) (x : ext) : res (bool * mem) :=
  let* n := sl_tuple_count p ps in
  if n <? i then Ok (false, p)
  else
    let* (ok, p1) := sl_append p ps d x in
    if negb ok then Ok (false, p1)
    else
      let* n1 := sl_tuple_count p1 ps in
      if i =? u32 (n1 - 1) then Ok (true, p1)
      else
        let* o := sl_off_ith_slot p1 ps i in
        let* p2 := mem_right_rotate p1 o (u32 ((n1 - i) * value_size ps)) (value_size ps) in
        Ok (true, p2).

(** src/page_layout_slotted.c:388-432 *)
Definition sl_can_update (p : mem) (ps : Z) (d : size_def) (i : Z) (x : ext) : res bool :=
  let* n := sl_tuple_count p ps in
  if n <=? i then Ok false
  else
    match x with
    | None => Ok true
    | Some t =>
        let* es := ext_size d t in
        let* off := sl_ith_tuple p ps i in
        let* f := sl_free_space p ps in
        if negb (off =? 0) then
          let* is_ := tuple_size d p off in
          let* e := sl_end_of_free_space p ps in
          if off =? e then Ok (es <=? u32 (f + is_))
          else if es <=? is_ then Ok true
          else Ok (es <=? f)
        else Ok (es <=? f)
    end.

(** src/page_layout_slotted.c:281-386.  The three cases of lines 299-319 choose the actions of the flag
    variables: discard the old tuple, place the new one in free space or in
    place, adjust the tomb stone count. *)
Inductive placement := NoPlace | InFreeSpace | InPlace.
Definition sl_update (p : mem) (ps : Z) (d : size_def) (i : Z) (x : ext) : res (bool * mem) :=
  let* c := sl_can_update p ps d i x in
  if negb c then Ok (false, p)
  else
    let* oslot := sl_off_ith_slot p ps i in
    let* old := read_value p oslot ps in
    let* (discard, place, delta) :=
      match old =? 0, x with
      | true, Some _ => Ok (false, InFreeSpace, -1)
      | false, None => Ok (true, NoPlace, 1)
      | false, Some t =>
          let* is_ := tuple_size d p old in
          let* es := ext_size d t in
          let* e := sl_end_of_free_space p ps in
          if (old =? e) || (is_ <? es) then Ok (true, InFreeSpace, 0)
          else Ok (true, InPlace, 0)
      | true, None => Ok (false, NoPlace, 0)
      end in
    let* p3 :=
      if discard : bool then
        let* p1 := write_value p oslot ps 0 in
        let* is_ := tuple_size d p1 old in
        let* oso := sl_off_space_occupied p1 ps in
        let* p2 := bump p1 oso ps (- is_) in
        let* e := sl_end_of_free_space p2 ps in
        if old =? e then sl_recompute p2 ps else Ok p2
      else Ok p in
    let* p7 :=
      match place, x with
      | NoPlace, _ => Ok p3
      | _, None => Ok p3
      | _, Some t =>
          let* es := ext_size d t in
          let* (off, p4) :=
            match place with
            | InFreeSpace => sl_allocate p3 ps es
            | _ => Ok (old, p3)
            end in
          let* p5 := write_value p4 oslot ps off in
          let* p6 := memcopy p5 off t 0 es in
          let* oso := sl_off_space_occupied p6 ps in
          bump p6 oso ps es
      end in
    let* p8 :=
      if delta =? 0 then Ok p7
      else let* ots := sl_off_tomb_stone_count p7 ps in bump p7 ots ps delta in
    Ok (true, p8).

(** src/page_layout_slotted.c:434-474 *)
Definition sl_discard (p : mem) (ps : Z) (d : size_def) (i : Z) : res (bool * mem) :=
  let* n := sl_tuple_count p ps in
  if n <=? i then Ok (false, p)
  else
    let* old := sl_ith_tuple p ps i in
    let* size_old := if old =? 0 then Ok 0 else tuple_size d p old in
    let* otc := sl_off_tuple_count p ps in
    let* n := read_value p otc ps in
    let* oi := sl_off_ith_slot p ps i in
    let* oi1 := sl_off_ith_slot p ps (u32 (i + 1)) in
    let* p1 := memmove p oi oi1 (u32 ((n - (i + 1)) * sl_overhead ps)) in
    let* p2 := write_value p1 otc ps (u32 (n - 1)) in
    let* p3 :=
      if old =? 0 then
        let* ots := sl_off_tomb_stone_count p2 ps in bump p2 ots ps (-1)
      else Ok p2 in
    let* oso := sl_off_space_occupied p3 ps in
    let* p4 := bump p3 oso ps (- (size_old + sl_overhead ps)) in
    let* e := sl_end_of_free_space p4 ps in
    let* p5 := if old =? e then sl_recompute p4 ps else Ok p4 in
    Ok (true, p5).

(** src/page_layout_slotted.c:476-507; the while loop runs at most [k] = tuple_count times *)
Fixpoint sl_trailing_loop (p : mem) (ps : Z) (k : nat) (so n ts r : Z) : res (Z * Z * Z * Z) :=
  match k with
  | O => Ok (so, n, ts, r)
  | S k' =>
      if 0 <? n then
        let* o := sl_ith_tuple p ps (u32 (n - 1)) in
        if o =? 0 then
          sl_trailing_loop p ps k' (u32 (so - sl_overhead ps)) (u32 (n - 1)) (u32 (ts - 1)) (u32 (r + 1))
        else Ok (so, n, ts, r)
      else Ok (so, n, ts, r)
  end.
Definition sl_discard_trailing (p : mem) (ps : Z) : res (Z * mem) :=
  let* oso := sl_off_space_occupied p ps in
  let* otc := sl_off_tuple_count p ps in
  let* ots := sl_off_tomb_stone_count p ps in
  let* so := read_value p oso ps in
  let* n := read_value p otc ps in
  let* ts := read_value p ots ps in
  let* (so', n', ts', r) := sl_trailing_loop p ps (Z.to_nat n) so n ts 0 in
  let* p1 := write_value p oso ps so' in
  let* p2 := write_value p1 otc ps n' in
  let* p3 := write_value p2 ots ps ts' in
  Ok (r, p3).

(** src/page_layout_slotted.c:509-526 *)
Definition sl_discard_all (p : mem) (ps : Z) : res mem :=
  let* o1 := sl_off_space_occupied p ps in
  let* p2 := write_value p o1 ps 0 in
  let* o2 := sl_off_tuple_count p2 ps in
  let* p3 := write_value p2 o2 ps 0 in
  let* o3 := sl_off_tomb_stone_count p3 ps in
  let* p4 := write_value p3 o3 ps 0 in
  let* o4 := sl_off_end_of_free_space_offset p4 ps in
  write_value p4 o4 ps ps.

(** src/page_layout_slotted.c:528-535 *)
Definition sl_exists (p : mem) (ps i : Z) : res bool :=
  let* n := sl_tuple_count p ps in
  if n <=? i then Ok false
  else let* o := sl_ith_tuple p ps i in Ok (negb (o =? 0)).

(** src/page_layout_slotted.c:537-556 *)
Definition sl_swap (p : mem) (ps i1 i2 : Z) : res (bool * mem) :=
  let* n := sl_tuple_count p ps in
  if (n <=? i1) || (n <=? i2) then Ok (false, p)
  else if i1 =? i2 then Ok (true, p)
  else
    let* o1 := sl_off_ith_slot p ps i1 in
    let* o2 := sl_off_ith_slot p ps i2 in
    let* p1 := swap_values p o1 o2 ps in
    Ok (true, p1).

(** src/page_layout_slotted.c:558-572; the returned pointer as an offset into the page, [None] is NULL *)
Definition sl_get_nth (p : mem) (ps i : Z) : res (option Z) :=
  let* n := sl_tuple_count p ps in
  if n <=? i then Ok None
  else let* o := sl_ith_tuple p ps i in Ok (if o =? 0 then None else Some o).

(** src/page_layout_slotted.c:608-701.  Entries are (offset, index) pairs.  [srt] is Cutlery's heap sort
    with [compare_by_offset_descending]; [malloc_ok] the outcome of malloc.
    Result: (return value, memory_allocation_error, page) *)
Fixpoint sl_compact_collect (p : mem) (ps : Z) (k : nat) (i : Z) : res (list (Z * Z)) :=
  match k with
  | O => Ok []
  | S k' =>
      let* ex := sl_exists p ps i in
      if ex : bool then
        let* o := sl_ith_tuple p ps i in
        let* l := sl_compact_collect p ps k' (i + 1) in
        Ok ((o, i) :: l)
      else sl_compact_collect p ps k' (i + 1)
  end.
Fixpoint sl_compact_loop (p : mem) (ps : Z) (d : size_def) (l : list (Z * Z)) (e : Z) (moved : bool)
  : res (bool * Z * mem) :=
  match l with
  | [] => Ok (moved, e, p)
  | (o, i) :: l' =>
      let* oslot := sl_off_ith_slot p ps i in
      let* tup := sl_ith_tuple p ps i in
      let* s := tuple_size d p tup in
      let e' := u32 (e - s) in
      let moved' := if negb (e' =? o) then true else moved in
      let* p1 := memmove p e' tup s in
      let* p2 := write_value p1 oslot ps e' in
      sl_compact_loop p2 ps d l' e' moved'
  end.
Definition sl_compact (srt : list (Z * Z) -> list (Z * Z)) (malloc_ok : bool)
    (p : mem) (ps : Z) (d : size_def) : res (bool * bool * mem) :=
  let* n := sl_tuple_count p ps in
  if negb malloc_ok then Ok (false, true, p)
  else
    let* l := sl_compact_collect p ps (Z.to_nat n) 0 in
    let sorted := if 1 <? zlen l then srt l else l in
    let* (moved, e, p1) := sl_compact_loop p ps d sorted ps false in
    let* o := sl_off_end_of_free_space_offset p1 ps in
    let* p2 := write_value p1 o ps e in
    Ok (moved, false, p2).

(** src/page_layout_slotted.c:703-710 *)
Definition sl_zero_out (p : mem) (ps : Z) : res (bool * mem) :=
  let* f := sl_free_space p ps in
  if f =? 0 then Ok (false, p)
  else
    let* s := sl_start_of_free_space p ps in
    let* e := sl_end_of_free_space p ps in
    let* p1 := memset p s Byte.x00 (u32 (e - s)) in
    Ok (true, p1).

(** src/page_layout_slotted.c:717-726; [k] = last - start + 1 iterations *)
Fixpoint sl_space_range_loop (p : mem) (ps : Z) (d : size_def) (k : nat) (i acc : Z) : res Z :=
  match k with
  | O => Ok acc
  | S k' =>
      let* ex := sl_exists p ps i in
      if ex : bool then
        let* o := sl_get_nth p ps i in
        match o with
        | Some off =>
            let* s := tuple_size d p off in
            sl_space_range_loop p ps d k' (i + 1) (u32 (acc + s))
        | None => UB (* get_tuple_size on NULL *)
        end
      else sl_space_range_loop p ps d k' (i + 1) acc
  end.
Definition sl_space_occupied_range (p : mem) (ps : Z) (d : size_def) (a b : Z) : res Z :=
  let* t := sl_space_range_loop p ps d (Z.to_nat (b - a + 1)) a 0 in
  Ok (u32 (t + (b - a + 1) * sl_overhead ps)).

(** src/page_layout_slotted.c:728-733 *)
Definition sl_space_occupied_all (p : mem) (ps : Z) : res Z :=
  let* o := sl_off_space_occupied p ps in read_value p o ps.

(** src/page_layout_slotted.c:735-738 *)
Definition sl_space_occupied_tomb_stones (p : mem) (ps : Z) : res Z :=
  let* n := sl_tomb_stone_count p ps in Ok (u32 (n * sl_overhead ps)).

(** src/page_layout_slotted.c:748-751 *)
Definition sl_space_allotted (p : mem) (ps : Z) : res Z :=
  let* o := sl_off_tuple_offsets p ps in Ok (u32 (ps - o)).
