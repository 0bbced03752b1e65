(** * Fixed array page layout (src/page_layout_fixed_array.c) *)
From Verif Require Export Slotted.

(** src/page_layout_fixed_array.c:27-30 *)
Definition fa_off_tuple_count (p : mem) (ps : Z) : res Z := offset_end_of_header p ps.
(** src/page_layout_fixed_array.c:32-35 *)
Definition fa_off_tomb_stone_count (p : mem) (ps : Z) : res Z :=
  let* o := fa_off_tuple_count p ps in Ok (u32 (o + value_size ps)).
(** src/page_layout_fixed_array.c:37-40 *)
Definition fa_off_is_valid (p : mem) (ps : Z) : res Z :=
  let* o := fa_off_tomb_stone_count p ps in Ok (u32 (o + value_size ps)).
(** src/page_layout_fixed_array.c:18-21 [get_tuple_capacity]: 64 bit arithmetic, result narrowed to 32 bits *)
Definition capacity_of (avail size : Z) : Z := u32 (u64 (avail * 8) / u64 (size * 8 + 1)).
Definition fa_capacity (p : mem) (ps : Z) (d : size_def) : res Z :=
  let* o := fa_off_is_valid p ps in Ok (capacity_of (u32 (ps - o)) (sd_size d)).
(** src/page_layout_fixed_array.c:42-45 *)
Definition fa_off_tuples (p : mem) (ps : Z) (d : size_def) : res Z :=
  let* o := fa_off_is_valid p ps in
  let* c := fa_capacity p ps d in
  Ok (u32 (o + bitmap_size_in_bytes c)).
(** src/page_layout_fixed_array.c:47-50 *)
Definition fa_off_ith (p : mem) (ps : Z) (d : size_def) (i : Z) : res Z :=
  let* o := fa_off_tuples p ps d in Ok (u32 (o + i * sd_size d)).
(** src/page_layout_fixed_array.c:127-131 *)
Definition fa_tuple_count (p : mem) (ps : Z) : res Z :=
  let* o := fa_off_tuple_count p ps in read_value p o ps.
(** src/page_layout_fixed_array.c:133-137 *)
Definition fa_tomb_stone_count (p : mem) (ps : Z) : res Z :=
  let* o := fa_off_tomb_stone_count p ps in read_value p o ps.
(** src/page_layout_fixed_array.c:52-58 *)
Definition fa_start_of_free_space (p : mem) (ps : Z) (d : size_def) : res Z :=
  let* n := fa_tuple_count p ps in fa_off_ith p ps d n.

(** src/page_layout_fixed_array.c:68-84 *)
Definition fa_min_page_size (h : Z) (d : size_def) (n : Z) : Z :=
  let s8 := u32 (1 + h + 1 * 2 + bitmap_size_in_bytes n + n * sd_size d) in
  if s8 <=? 256 then s8
  else
    let s16 := u32 (2 + h + 2 * 2 + bitmap_size_in_bytes n + n * sd_size d) in
    if s16 <=? 65536 then s16
    else
      let s24 := u32 (3 + h + 3 * 2 + bitmap_size_in_bytes n + n * sd_size d) in
      if s24 <=? 16777216 then s24
      else u32 (4 + h + 4 * 2 + bitmap_size_in_bytes n + n * sd_size d).

(** src/page_layout_fixed_array.c:88, 95 and 481 *)
Definition fa_space_with_bitmap (h ps : Z) : Z := u32 (ps - (value_size ps + h + value_size ps * 2)).
(** src/page_layout_fixed_array.c:86-91 *)
Definition fa_max_tuple_count (h ps : Z) (d : size_def) : Z :=
  capacity_of (fa_space_with_bitmap h ps) (sd_size d).
(** src/page_layout_fixed_array.c:93-99 *)
Definition fa_max_tuple_size (h ps : Z) : Z := u32 (fa_space_with_bitmap h ps - 1).

(** src/page_layout_fixed_array.c:101-125 *)
Definition fa_init (p : mem) (ps h : Z) (d : size_def) : res (bool * mem) :=
  if ps <? fa_min_page_size h d 1 then Ok (false, p)
  else
    let* (ok, p1) := init_page_header p ps h in
    if negb ok then Ok (false, p1)
    else
      let* o1 := fa_off_tuple_count p1 ps in
      let* p2 := write_value p1 o1 ps 0 in
      let* o2 := fa_off_tomb_stone_count p2 ps in
      let* p3 := write_value p2 o2 ps 0 in
      let* o3 := fa_off_is_valid p3 ps in
      let* c := fa_capacity p3 ps d in
      let* p4 := reset_all_bits p3 o3 c in
      Ok (true, p4).

(** src/page_layout_fixed_array.c:179-182 *)
Definition fa_can_append (p : mem) (ps : Z) (d : size_def) : res bool :=
  let* n := fa_tuple_count p ps in
  let* c := fa_capacity p ps d in
  Ok (n <? c).

(** src/page_layout_fixed_array.c:139-177 *)
Definition fa_append (p : mem) (ps : Z) (d : size_def) (x : ext) : res (bool * mem) :=
  let* c := fa_can_append p ps d in
  if negb c then Ok (false, p)
  else
    let* otc := fa_off_tuple_count p ps in
    let* n := read_value p otc ps in
    let n' := u32 (n + 1) in
    let* p1 := write_value p otc ps n' in
    let i := u32 (n' - 1) in
    match x with
    | Some t =>
        let* ov := fa_off_is_valid p1 ps in
        let* p2 := set_bit p1 ov i in
        let* o := fa_off_ith p2 ps d i in
        let* p3 := memcopy p2 o t 0 (sd_size d) in
        Ok (true, p3)
    | None =>
        let* ov := fa_off_is_valid p1 ps in
        let* p2 := reset_bit p1 ov i in
        let* ots := fa_off_tomb_stone_count p2 ps in
        let* p3 := bump p2 ots ps 1 in
        Ok (true, p3)
    end.

(** src/page_layout_fixed_array.c:213-218: the loop [for(i = n-1; i > index; i--)], [k] iterations left *)
Fixpoint fa_shift_bits_up (p : mem) (ov : Z) (k : nat) (i : Z) : res mem :=
  match k with
  | O => Ok p
  | S k' =>
      let* b := get_bit p ov (i - 1) in
      let* p1 := put_bit p ov i b in
      fa_shift_bits_up p1 ov k' (i - 1)
  end.

(** src/page_layout_fixed_array.c:184-227 *)
Definition fa_insert (p : mem) (ps : Z) (d : size_def) (i : Z) (x : ext) : res (bool * mem) :=
  let* n := fa_tuple_count p ps in
  if n <? i then Ok (false, p)
  else
    let* (ok, p1) := fa_append p ps d x in
    if negb ok then Ok (false, p1)
    else
      let* n1 := fa_tuple_count p1 ps in
      if i =? u32 (n1 - 1) then Ok (true, p1)
      else
        let* ov := fa_off_is_valid p1 ps in
        let* b := get_bit p1 ov (u32 (n1 - 1)) in
        let* p2 := fa_shift_bits_up p1 ov (Z.to_nat (n1 - 1 - i)) (u32 (n1 - 1)) in
        let* p3 := put_bit p2 ov i b in
        let* o := fa_off_ith p3 ps d i in
        let* p4 := mem_right_rotate p3 o (u32 ((n1 - i) * sd_size d)) (sd_size d) in
        Ok (true, p4).

(** src/page_layout_fixed_array.c:273-276 *)
Definition fa_can_update (p : mem) (ps i : Z) : res bool :=
  let* n := fa_tuple_count p ps in Ok (i <? n).

(** src/page_layout_fixed_array.c:229-271 *)
Definition fa_update (p : mem) (ps : Z) (d : size_def) (i : Z) (x : ext) : res (bool * mem) :=
  let* c := fa_can_update p ps i in
  if negb c then Ok (false, p)
  else
    let* ov := fa_off_is_valid p ps in
    let* ots := fa_off_tomb_stone_count p ps in
    let* b := get_bit p ov i in
    let* p2 :=
      if b : bool then
        let* p1 := reset_bit p ov i in bump p1 ots ps 1
      else Ok p in
    match x with
    | None => Ok (true, p2)
    | Some t =>
        let* p3 := set_bit p2 ov i in
        let* p4 := bump p3 ots ps (-1) in
        let* o := fa_off_ith p4 ps d i in
        let* p5 := memcopy p4 o t 0 (sd_size d) in
        Ok (true, p5)
    end.

(** src/page_layout_fixed_array.c:292-304: the loop [for(i = index+1; i < n; i++)], [k] iterations left *)
Fixpoint fa_discard_loop (p : mem) (ps : Z) (d : size_def) (ov : Z) (k : nat) (i : Z) : res mem :=
  match k with
  | O => Ok p
  | S k' =>
      let* b := get_bit p ov i in
      let* p2 :=
        if b : bool then
          let* p1 := set_bit p ov (i - 1) in
          let* o1 := fa_off_ith p1 ps d (i - 1) in
          let* o2 := fa_off_ith p1 ps d i in
          memmove p1 o1 o2 (sd_size d)
        else reset_bit p ov (i - 1) in
      fa_discard_loop p2 ps d ov k' (i + 1)
  end.

(** src/page_layout_fixed_array.c:278-318 *)
Definition fa_discard (p : mem) (ps : Z) (d : size_def) (i : Z) : res (bool * mem) :=
  let* n := fa_tuple_count p ps in
  if n <=? i then Ok (false, p)
  else
    let* otc := fa_off_tuple_count p ps in
    let* n := read_value p otc ps in
    let* ov := fa_off_is_valid p ps in
    let* was_valid := get_bit p ov i in
    let* p1 := fa_discard_loop p ps d ov (Z.to_nat (n - (i + 1))) (i + 1) in
    let* p2 := write_value p1 otc ps (u32 (n - 1)) in
    let* p3 :=
      if was_valid : bool then Ok p2
      else let* ots := fa_off_tomb_stone_count p2 ps in bump p2 ots ps (-1) in
    Ok (true, p3).

(** src/page_layout_fixed_array.c:320-348; the while loop runs at most [k] = tuple_count times *)
Fixpoint fa_trailing_loop (p : mem) (ov : Z) (k : nat) (n ts r : Z) : res (Z * Z * Z) :=
  match k with
  | O => Ok (n, ts, r)
  | S k' =>
      if 0 <? n then
        let* b := get_bit p ov (u32 (n - 1)) in
        if negb b then fa_trailing_loop p ov k' (u32 (n - 1)) (u32 (ts - 1)) (u32 (r + 1))
        else Ok (n, ts, r)
      else Ok (n, ts, r)
  end.
Definition fa_discard_trailing (p : mem) (ps : Z) : res (Z * mem) :=
  let* otc := fa_off_tuple_count p ps in
  let* ots := fa_off_tomb_stone_count p ps in
  let* n := read_value p otc ps in
  let* ts := read_value p ots ps in
  let* ov := fa_off_is_valid p ps in
  let* (n', ts', r) := fa_trailing_loop p ov (Z.to_nat n) n ts 0 in
  let* p1 := write_value p otc ps n' in
  let* p2 := write_value p1 ots ps ts' in
  Ok (r, p2).

(** src/page_layout_fixed_array.c:350-359 *)
Definition fa_discard_all (p : mem) (ps : Z) : res mem :=
  let* o1 := fa_off_tuple_count p ps in
  let* p1 := write_value p o1 ps 0 in
  let* o2 := fa_off_tomb_stone_count p1 ps in
  write_value p1 o2 ps 0.

(** src/page_layout_fixed_array.c:361-370 *)
Definition fa_exists (p : mem) (ps i : Z) : res bool :=
  let* n := fa_tuple_count p ps in
  if n <=? i then Ok false
  else let* ov := fa_off_is_valid p ps in get_bit p ov i.

(** src/page_layout_fixed_array.c:372-402 *)
Definition fa_swap (p : mem) (ps : Z) (d : size_def) (i1 i2 : Z) : res (bool * mem) :=
  let* n := fa_tuple_count p ps in
  if (n <=? i1) || (n <=? i2) then Ok (false, p)
  else if i1 =? i2 then Ok (true, p)
  else
    let* ov := fa_off_is_valid p ps in
    let* b1 := get_bit p ov i1 in
    let* b2 := get_bit p ov i2 in
    if negb b1 && negb b2 then Ok (true, p)
    else
      let* p1 := put_bit p ov i2 b1 in
      let* p2 := put_bit p1 ov i1 b2 in
      let* o1 := fa_off_ith p2 ps d i1 in
      let* o2 := fa_off_ith p2 ps d i2 in
      let* p3 := mem_swap p2 o1 o2 (sd_size d) in
      Ok (true, p3).

(** src/page_layout_fixed_array.c:404-416 *)
Definition fa_get_nth (p : mem) (ps : Z) (d : size_def) (i : Z) : res (option Z) :=
  let* n := fa_tuple_count p ps in
  if n <=? i then Ok None
  else
    let* ov := fa_off_is_valid p ps in
    let* b := get_bit p ov i in
    if negb b then Ok None
    else let* o := fa_off_ith p ps d i in Ok (Some o).

(** src/page_layout_fixed_array.c:447-450 *)
Definition fa_free_space (p : mem) (ps : Z) (d : size_def) : res Z :=
  let* s := fa_start_of_free_space p ps d in Ok (u32 (ps - s)).

(** src/page_layout_fixed_array.c:438-445 *)
Definition fa_zero_out (p : mem) (ps : Z) (d : size_def) : res (bool * mem) :=
  let* f := fa_free_space p ps d in
  if f =? 0 then Ok (false, p)
  else
    let* s := fa_start_of_free_space p ps d in
    let* p1 := memset p s Byte.x00 (u32 (ps - s)) in
    Ok (true, p1).

(** src/page_layout_fixed_array.c:432-436 *)
Definition fa_compact (p : mem) : res (bool * bool * mem) := Ok (false, false, p).

(** src/page_layout_fixed_array.c:452-455 *)
Definition fa_space_occupied_range (d : size_def) (a b : Z) : Z := u32 ((b - a + 1) * sd_size d).
(** src/page_layout_fixed_array.c:457-460 *)
Definition fa_space_occupied_all (p : mem) (ps : Z) (d : size_def) : res Z :=
  let* n := fa_tuple_count p ps in Ok (u32 (n * sd_size d)).
(** src/page_layout_fixed_array.c:462-465 *)
Definition fa_space_occupied_tomb_stones (p : mem) (ps : Z) (d : size_def) : res Z :=
  let* n := fa_tomb_stone_count p ps in Ok (u32 (n * sd_size d)).
(** src/page_layout_fixed_array.c:467-472 *)
Definition fa_space_to_be_occupied (d : size_def) : Z := sd_size d.
(** src/page_layout_fixed_array.c:474-477 *)
Definition fa_space_allotted (p : mem) (ps : Z) (d : size_def) : res Z :=
  let* o := fa_off_tuples p ps d in Ok (u32 (ps - o)).
(** src/page_layout_fixed_array.c:479-485 *)
Definition fa_space_to_be_allotted (h ps : Z) (d : size_def) : Z :=
  u32 (fa_space_with_bitmap h ps - bitmap_size_in_bytes (capacity_of (fa_space_with_bitmap h ps) (sd_size d))).
(** src/page_layout_fixed_array.c:487-490 *)
Definition fa_overhead : Z := 0.
