(** * The page operations given a tuple that may lie on the same page

    [append_tuple_on_page], [insert_tuple_on_page] and [update_tuple_on_page]
    take a pointer to the new tuple.  Slotted.v and FixedArray.v read it from
    memory of its own; here it may also point into the page that the operation
    changes, so that every read of it sees the stores made so far. *)
From Verif Require Export PageLayout.

Inductive source :=
| Outside (t : list byte) (* memory of its own *)
| Inside (o : Z).         (* offset [o] of the page *)
Notation source_or_null := (option source).

(** [get_tuple_size_using_tuple_size_def(tpl_sz_d, external_tuple)]; [p] is the page at this moment *)
Definition src_size (d : size_def) (p : mem) (s : source) : res Z :=
  match s with Outside t => ext_size d t | Inside o => tuple_size d p o end.
(** [memory_move(page + dst, external_tuple, n)] *)
Definition src_move (p : mem) (dst : Z) (s : source) (n : Z) : res mem :=
  match s with Outside t => memcopy p dst t 0 n | Inside o => memmove p dst o n end.

(** ** src/page_layout_slotted.c *)
(** src/page_layout_slotted.c:740-746 *)
Definition sls_space_to_be_occupied (p : mem) (ps : Z) (d : size_def) (x : source_or_null) : res Z :=
  match x with
  | None => Ok (u32 (sl_overhead ps + 0))
  | Some s => let* n := src_size d p s in Ok (u32 (sl_overhead ps + n))
  end.
(** src/page_layout_slotted.c:248-251 *)
Definition sls_can_append (p : mem) (ps : Z) (d : size_def) (x : source_or_null) : res bool :=
  let* a := sls_space_to_be_occupied p ps d x in
  let* f := sl_free_space p ps in
  Ok (a <=? f).
(** src/page_layout_slotted.c:193-246 *)
Definition sls_append (p : mem) (ps : Z) (d : size_def) (x : source_or_null) : res (bool * mem) :=
  let* c := sls_can_append p ps d x in
  if negb c then Ok (false, p)
  else
    let* otc := sl_off_tuple_count p ps in
    let* n := read_value p otc ps in
    let n' := u32 (n + 1) in
    let* p1 := write_value p otc ps n' in
    let* oslot := sl_off_ith_slot p1 ps (u32 (n' - 1)) in
    let* (space, p4) :=
      match x with
      | None =>
          let* p2 := write_value p1 oslot ps 0 in
          let* ots := sl_off_tomb_stone_count p2 ps in
          let* p3 := bump p2 ots ps 1 in
          Ok (sl_overhead ps, p3)
      | Some t =>
          let* s := src_size d p1 t in
          let* (off, p2) := sl_allocate p1 ps s in
          let* p3 := write_value p2 oslot ps off in
          let* p4 := src_move p3 off t s in
          Ok (u32 (sl_overhead ps + s), p4)
      end in
    let* oso := sl_off_space_occupied p4 ps in
    let* p5 := bump p4 oso ps space in
    Ok (true, p5).
(** src/page_layout_slotted.c:253-279 *)
Definition sls_insert (p : mem) (ps : Z) (d : size_def) (i : Z) (x : source_or_null) : res (bool * mem) :=
  let* n := sl_tuple_count p ps in
  if n <? i then Ok (false, p)
  else
    let* (ok, p1) := sls_append p ps d x in
    if negb ok then Ok (false, p1)
    else
      let* n1 := sl_tuple_count p1 ps in
      if i =? u32 (n1 - 1) then Ok (true, p1)
      else
        let* o := sl_off_ith_slot p1 ps i in
        let* p2 := mem_right_rotate p1 o (u32 ((n1 - i) * value_size ps)) (value_size ps) in
        Ok (true, p2).
(** src/page_layout_slotted.c:388-432 *)
Definition sls_can_update (p : mem) (ps : Z) (d : size_def) (i : Z) (x : source_or_null) : res bool :=
  let* n := sl_tuple_count p ps in
  if n <=? i then Ok false
  else
    match x with
    | None => Ok true
    | Some t =>
        let* es := src_size d p t in
        let* off := sl_ith_tuple p ps i in
        let* f := sl_free_space p ps in
        if negb (off =? 0) then
          let* is_ := tuple_size d p off in
          let* e := sl_end_of_free_space p ps in
          if off =? e then Ok (es <=? u32 (f + is_))
          else if es <=? is_ then Ok true
          else Ok (es <=? f)
        else Ok (es <=? f)
    end.
(** src/page_layout_slotted.c:281-386 *)
Definition sls_update (p : mem) (ps : Z) (d : size_def) (i : Z) (x : source_or_null) : res (bool * mem) :=
  let* c := sls_can_update p ps d i x in
  if negb c then Ok (false, p)
  else
    let* oslot := sl_off_ith_slot p ps i in
    let* old := read_value p oslot ps in
    let* (discard, place, delta) :=
      match old =? 0, x with
      | true, Some _ => Ok (false, InFreeSpace, -1)
      | false, None => Ok (true, NoPlace, 1)
      | false, Some t =>
          let* is_ := tuple_size d p old in
          let* es := src_size d p t in
          let* e := sl_end_of_free_space p ps in
          if (old =? e) || (is_ <? es) then Ok (true, InFreeSpace, 0)
          else Ok (true, InPlace, 0)
      | true, None => Ok (false, NoPlace, 0)
      end in
    let* p3 :=
      if discard : bool then
        let* p1 := write_value p oslot ps 0 in
        let* is_ := tuple_size d p1 old in
        let* oso := sl_off_space_occupied p1 ps in
        let* p2 := bump p1 oso ps (- is_) in
        let* e := sl_end_of_free_space p2 ps in
        if old =? e then sl_recompute p2 ps else Ok p2
      else Ok p in
    let* p7 :=
      match place, x with
      | NoPlace, _ => Ok p3
      | _, None => Ok p3
      | _, Some t =>
          let* es := src_size d p3 t in
          let* (off, p4) :=
            match place with
            | InFreeSpace => sl_allocate p3 ps es
            | _ => Ok (old, p3)
            end in
          let* p5 := write_value p4 oslot ps off in
          let* p6 := src_move p5 off t es in
          let* oso := sl_off_space_occupied p6 ps in
          bump p6 oso ps es
      end in
    let* p8 :=
      if delta =? 0 then Ok p7
      else let* ots := sl_off_tomb_stone_count p7 ps in bump p7 ots ps delta in
    Ok (true, p8).

(** ** src/page_layout_fixed_array.c *)
(** src/page_layout_fixed_array.c:139-177 *)
Definition fas_append (p : mem) (ps : Z) (d : size_def) (x : source_or_null) : res (bool * mem) :=
  let* c := fa_can_append p ps d in
  if negb c then Ok (false, p)
  else
    let* otc := fa_off_tuple_count p ps in
    let* n := read_value p otc ps in
    let n' := u32 (n + 1) in
    let* p1 := write_value p otc ps n' in
    let i := u32 (n' - 1) in
    match x with
    | Some t =>
        let* ov := fa_off_is_valid p1 ps in
        let* p2 := set_bit p1 ov i in
        let* o := fa_off_ith p2 ps d i in
        let* p3 := src_move p2 o t (sd_size d) in
        Ok (true, p3)
    | None =>
        let* ov := fa_off_is_valid p1 ps in
        let* p2 := reset_bit p1 ov i in
        let* ots := fa_off_tomb_stone_count p2 ps in
        let* p3 := bump p2 ots ps 1 in
        Ok (true, p3)
    end.
(** src/page_layout_fixed_array.c:184-227 *)
Definition fas_insert (p : mem) (ps : Z) (d : size_def) (i : Z) (x : source_or_null) : res (bool * mem) :=
  let* n := fa_tuple_count p ps in
  if n <? i then Ok (false, p)
  else
    let* (ok, p1) := fas_append p ps d x in
    if negb ok then Ok (false, p1)
    else
      let* n1 := fa_tuple_count p1 ps in
      if i =? u32 (n1 - 1) then Ok (true, p1)
      else
        let* ov := fa_off_is_valid p1 ps in
        let* b := get_bit p1 ov (u32 (n1 - 1)) in
        let* p2 := fa_shift_bits_up p1 ov (Z.to_nat (n1 - 1 - i)) (u32 (n1 - 1)) in
        let* p3 := put_bit p2 ov i b in
        let* o := fa_off_ith p3 ps d i in
        let* p4 := mem_right_rotate p3 o (u32 ((n1 - i) * sd_size d)) (sd_size d) in
        Ok (true, p4).
(** src/page_layout_fixed_array.c:229-271 *)
Definition fas_update (p : mem) (ps : Z) (d : size_def) (i : Z) (x : source_or_null) : res (bool * mem) :=
  let* c := fa_can_update p ps i in
  if negb c then Ok (false, p)
  else
    let* ov := fa_off_is_valid p ps in
    let* ots := fa_off_tomb_stone_count p ps in
    let* b := get_bit p ov i in
    let* p2 :=
      if b : bool then
        let* p1 := reset_bit p ov i in bump p1 ots ps 1
      else Ok p in
    match x with
    | None => Ok (true, p2)
    | Some t =>
        let* p3 := set_bit p2 ov i in
        let* p4 := bump p3 ots ps (-1) in
        let* o := fa_off_ith p4 ps d i in
        let* p5 := src_move p4 o t (sd_size d) in
        Ok (true, p5)
    end.

(** ** src/page_layout.c *)
(** src/page_layout.c:92-102 *)
Definition append_source_on_page (p : mem) (ps : Z) (d : size_def) (x : source_or_null) : res (bool * mem) :=
  dispatch d (sls_append p ps d x) (fas_append p ps d x).
(** src/page_layout.c:104-114 *)
Definition can_append_source_on_page (p : mem) (ps : Z) (d : size_def) (x : source_or_null) : res bool :=
  dispatch d (sls_can_append p ps d x) (fa_can_append p ps d).
(** src/page_layout.c:116-126 *)
Definition insert_source_on_page (p : mem) (ps : Z) (d : size_def) (i : Z) (x : source_or_null) : res (bool * mem) :=
  dispatch d (sls_insert p ps d i x) (fas_insert p ps d i x).
(** src/page_layout.c:128-132 *)
Definition can_insert_source_on_page (p : mem) (ps : Z) (d : size_def) (i : Z) (x : source_or_null) : res bool :=
  let* n := get_tuple_count_on_page p ps d in
  if i <=? n then can_append_source_on_page p ps d x else Ok false.
(** src/page_layout.c:134-144 *)
Definition update_source_on_page (p : mem) (ps : Z) (d : size_def) (i : Z) (x : source_or_null) : res (bool * mem) :=
  dispatch d (sls_update p ps d i x) (fas_update p ps d i x).
(** src/page_layout.c:146-156 *)
Definition can_update_source_on_page (p : mem) (ps : Z) (d : size_def) (i : Z) (x : source_or_null) : res bool :=
  dispatch d (sls_can_update p ps d i x) (fa_can_update p ps i).
(** src/page_layout.c:342-352 *)
Definition space_to_be_occupied_by_source (p : mem) (ps : Z) (d : size_def) (x : source_or_null) : res Z :=
  dispatch d (sls_space_to_be_occupied p ps d x) (Ok (fa_space_to_be_occupied d)).
