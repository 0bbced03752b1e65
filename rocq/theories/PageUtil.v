(** * page_layout_util.h, page_header_util.h and page_header.c *)
From Verif Require Export Bytes.

(** inc/tuplestore/page_layout_util.h:29-42 [get_value_size_on_page] *)
Definition value_size (page_size : Z) : Z :=
  4 - (if page_size <=? 16777216 then 1 else 0)
    - (if page_size <=? 65536 then 1 else 0)
    - (if page_size <=? 256 then 1 else 0).

(** inc/tuplestore/page_layout_util.h:44-47 [read_value_from_page];
    [o] is the position of [value] inside the buffer [m] *)
Definition read_value (m : mem) (o page_size : Z) : res Z :=
  let* bs := rd m o (value_size page_size) in Ok (dec bs).

(** inc/tuplestore/page_layout_util.h:49-52 [write_value_to_page] *)
Definition write_value (m : mem) (o page_size v : Z) : res mem :=
  wr m o (enc (Z.to_nat (value_size page_size)) v).

(** inc/tuplestore/page_layout_util.h:54-73 [swap_values_on_page]: the byte
    wise loop; [k] is [bytes_to_swap] *)
Fixpoint swap_bytes (m : mem) (v1 v2 : Z) (k : nat) : res mem :=
  match k with
  | O => Ok m
  | S k' =>
      let* b1 := rd m v1 1 in
      let* b2 := rd m v2 1 in
      let* m1 := wr m v1 b2 in
      let* m2 := wr m1 v2 b1 in
      swap_bytes m2 (v1 + 1) (v2 + 1) k'
  end.
Definition swap_values (m : mem) (v1 v2 page_size : Z) : res mem :=
  swap_bytes m v1 v2 (Z.to_nat (value_size page_size)).

(** inc/tuplestore/page_header_util.h:6-9 [get_page_header_size_INLINE],
    src/page_header.c:17-20 [get_page_header_size] *)
Definition get_page_header_size (p : mem) (page_size : Z) : res Z :=
  read_value p 0 page_size.

(** inc/tuplestore/page_header_util.h:12-15 [get_offset_to_end_of_page_header] *)
Definition offset_end_of_header (p : mem) (page_size : Z) : res Z :=
  let* h := get_page_header_size p page_size in Ok (u32 (value_size page_size + h)).

(** src/page_header.c:7-10 [get_space_required_for_page_header] *)
Definition get_space_required_for_page_header (page_header_size page_size : Z) : Z :=
  u32 (value_size page_size + page_header_size).

(** src/page_header.c:12-15 [can_page_header_fit_on_page] *)
Definition can_page_header_fit_on_page (page_header_size page_size : Z) : bool :=
  get_space_required_for_page_header page_header_size page_size <=? page_size.

(** src/page_header.c:22-32 [get_page_header], [get_page_header_ua]: the
    returned pointer, as an offset into the page *)
Definition get_page_header (page_size : Z) : Z := value_size page_size.

(** A user of [get_page_header] may store any bytes inside the header; this is
    that store ([at_] is relative to the header pointer).  Not a function of
    /repo, it is how its callers use the returned pointer. *)
Definition write_page_header (p : mem) (page_size at_ : Z) (bs : list byte) : res mem :=
  wr p (get_page_header page_size + at_) bs.

(** src/page_header.c:34-46 [init_page_header] *)
Definition init_page_header (p : mem) (page_size page_header_size : Z) : res (bool * mem) :=
  if page_size <? u32 (value_size page_size + page_header_size) then Ok (false, p)
  else
    let* p1 := write_value p 0 page_size page_header_size in
    let* p2 := memset p1 (value_size page_size) Byte.x00 page_header_size in
    Ok (true, p2).
