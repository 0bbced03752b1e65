(** * tuple_size_def and the functions on it (src/tuple_def.c) *)
From Verif Require Export PageUtil.

(** inc/tuplestore/tuple_def.h [struct tuple_size_def]; [sd_size] is the union
    of [size] and [min_size], [sd_containee_size] the union of
    [containee_size] and [containee_bit_field_size] *)
Record size_def := mk_size_def {
  sd_variable : bool;
  sd_size : Z;
  sd_max_size : Z;
  sd_has_size : bool;
  sd_has_count : bool;
  sd_containee_valid_bit : bool;
  sd_containee_bit_field : bool;
  sd_containee_size : Z
}.

(** src/tuple_def.c:68-92 [get_tuple_size_using_tuple_size_def]; the tuple is
    at offset [o] of buffer [m].  [b2n b] is the C conversion of a boolean. *)
Definition b2n (b : bool) : Z := if b then 1 else 0.
Definition tuple_size (d : size_def) (m : mem) (o : Z) : res Z :=
  if negb (sd_variable d) then Ok (sd_size d)
  else if sd_has_size d then
    let* size := read_value m o (sd_max_size d) in
    Ok (if size =? 0 then sd_max_size d else size)
  else
    let* n := read_value m o (sd_max_size d) in
    if sd_containee_bit_field d then
      Ok (u32 (value_size (sd_max_size d) +
               bitmap_size_in_bytes (u64 (n * u32 (b2n (sd_containee_valid_bit d) + sd_containee_size d)))))
    else
      Ok (u32 (value_size (sd_max_size d) +
               bitmap_size_in_bytes (u32 (n * b2n (sd_containee_valid_bit d))) +
               n * sd_containee_size d)).

(** src/tuple_def.c:99-117 [get_tuple_size_using_tuple_size_def2]; the callback
    [read_tuple_prefix] is given as the bytes it stored in the buffer, at most
    the number of bytes asked for; the return value is 0 on a short read *)
Definition tuple_size2 (d : size_def) (prefix : Z -> list byte) : res Z :=
  if negb (sd_variable d) then Ok (sd_size d)
  else
    let bytes_to_read := value_size (sd_max_size d) in
    let bytes := firstn (Z.to_nat bytes_to_read) (prefix bytes_to_read) in
    let* buffer := wr (repeat Byte.x00 4) 0 bytes in
    if zlen bytes <? bytes_to_read then Ok 0
    else tuple_size d buffer 0.

(** src/tuple_def.c:124-127 *)
Definition is_variable_sized (d : size_def) : bool := sd_variable d.

(** src/tuple_def.c:139-145 [get_minimum_tuple_size_using_tuple_size_def] *)
Definition min_tuple_size (d : size_def) : Z := sd_size d.
(** src/tuple_def.c:147-153 [get_maximum_tuple_size_using_tuple_size_def] *)
Definition max_tuple_size (d : size_def) : Z :=
  if negb (sd_variable d) then sd_size d else sd_max_size d.

(** src/tuple_def.c:166-181 [initialize_minimal_tuple_for_tuple_size_info] *)
Definition init_minimal_tuple_sd (d : size_def) (m : mem) (o : Z) : res (Z * mem) :=
  if negb (sd_variable d) then
    let* m1 := memset m o Byte.x00 (sd_size d) in Ok (sd_size d, m1)
  else
    let* m1 := memset m o Byte.x00 (sd_size d) in
    let* m2 := if sd_has_size d then write_value m1 o (sd_max_size d) (sd_size d) else Ok m1 in
    Ok (sd_size d, m2).

(** src/tuple_def.c:183-228 [serialize_tuple_size_def]: the bytes stored at
    [data] and their number.  [flag b i] is the bit [b << i]. *)
Definition flag (b : bool) (i : Z) : Z := if b then Z.shiftl 1 i else 0.
Definition serialize_size_def (d : size_def) : list byte :=
  if negb (sd_variable d) then z2b 0 :: enc 4 (sd_size d)
  else
    let s0 := Z.lor (flag true 0) (Z.lor (flag (sd_has_size d) 1) (flag (sd_has_count d) 2)) in
    if sd_has_size d then
      z2b s0 :: enc 4 (sd_size d) ++ enc 4 (sd_max_size d)
    else
      z2b (Z.lor s0 (Z.lor (flag (sd_containee_valid_bit d) 3) (flag (sd_containee_bit_field d) 4)))
        :: enc 4 (sd_size d) ++ enc 4 (sd_max_size d) ++ enc 4 (sd_containee_size d).

(** src/tuple_def.c:230-268 [deserialize_tuple_size_def]; [d0] is the previous
    (uninitialised) content of the struct; fields that the function does not
    store keep their value.  [None] is return 0. *)
Definition deserialize_size_def (d0 : size_def) (m : mem) (size : Z) : res (option size_def) :=
  if size =? 0 then Ok None
  else
    let* s0 := rd m 0 1 in
    let f i := Z.testbit (dec s0) i in
    if negb (f 0) then
      if size <? 1 + 4 then Ok None
      else
        let* bs := rd m 1 4 in
        Ok (Some (mk_size_def false (dec bs) (sd_max_size d0) (sd_has_size d0) (sd_has_count d0)
                    (sd_containee_valid_bit d0) (sd_containee_bit_field d0) (sd_containee_size d0)))
    else if size <? 1 + 8 then Ok None
    else
      let* mn := rd m 1 4 in
      let* mx := rd m 5 4 in
      if f 1 then
        Ok (Some (mk_size_def true (dec mn) (dec mx) (f 1) (f 2)
                    (sd_containee_valid_bit d0) (sd_containee_bit_field d0) (sd_containee_size d0)))
      else if size <? 9 + 4 then Ok None
      else
        let* cs := rd m 9 4 in
        Ok (Some (mk_size_def true (dec mn) (dec mx) (f 1) (f 2) (f 3) (f 4) (dec cs))).
