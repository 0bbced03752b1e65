(** * Containers: element access and update inside one container
    (inc/tuplestore/data_type_info.h, the static inline functions)

    [d] is the type ([dti]), [m] the buffer and [o] the offset of [data] in it.
    Pointers returned by the C functions are absolute offsets into [m]. *)
From Verif Require Export Datum.

(** inc/tuplestore/data_type_info.h:515-535 [get_prefix_bitmap_size_in_bits_for_container_type_info] *)
Definition prefix_bitmap_bits (d : dti) (m : mem) (o : Z) : res Z :=
  if negb (is_container_type_info d) then Ok 0
  else match type d with
       | TUPLE => Ok (prefix_bitmap_size_in_bits d)
       | STRING | BINARY => Ok 0
       | _ =>
         let* n := get_element_count d m o in
         Ok (match type (containee d) with
             | BIT_FIELD => u64 (n * u32 (b2n (needs_is_valid_bit (containee d)) + size (containee d)))
             | _ => u32 (n * b2n (needs_is_valid_bit (containee d)))
             end)
       end.

(** inc/tuplestore/data_type_info.h:432-443 [overwrite_size_for_container_type_info_with_size_in_prefix] *)
Definition overwrite_size (d : dti) (m : mem) (o new_size : Z) : res mem :=
  if negb (has_size_in_prefix d) then Ok m
  else if max_size d <? new_size then Ok m
  else write_value m (o + 0) (max_size d) new_size.

(** inc/tuplestore/data_type_info.h:537-557 [get_data_type_info_for_containee_of_container_without_data] *)
Definition containee_type_without_data (d : dti) (i : Z) : option dti :=
  if negb (is_container_type_info d) then None
  else if negb (is_variable_element_count d) && (element_count d <=? i) then None
  else match type d with
       | TUPLE => option_map snd (nth_error (containees d) (Z.to_nat i))
       | STRING | BINARY => Some uint8_type
       | _ => Some (containee d)
       end.

(** inc/tuplestore/data_type_info.h:39-52 [data_positional_info] *)
Record pinfo := mk_pinfo { pi_off : Z; pi_valid : Z; pi_type : dti }.

(** inc/tuplestore/data_type_info.h:586-657
    [get_data_positional_info_for_containee_of_container_CONTAINITY_UNSAFE],
    first call (the later calls return the cached result) *)
Definition get_pos (d : dti) (m : mem) (o i : Z) : res pinfo :=
  match type d with
  | TUPLE =>
      match nth_error (containees d) (Z.to_nat i) with
      | Some (p, t) => Ok (mk_pinfo (p_off p) (p_valid p) t)
      | None => UB
      end
  | _ =>
      let* bits := prefix_bitmap_bits d m o in
      let first_element_offset := u32 (offset_of_prefix_bitmap d + bitmap_size_in_bytes bits) in
      let c := match type d with STRING | BINARY => uint8_type | _ => containee d end in
      match type c with
      | BIT_FIELD =>
          if needs_is_valid_bit c
          then Ok (mk_pinfo (u64 (u32 (1 + size c) * i + 1)) (u64 (u32 (1 + size c) * i)) c)
          else Ok (mk_pinfo (u64 (size c * i)) 0 c)
      | _ =>
        if negb (is_variable_sized_type_info c)
        then Ok (mk_pinfo (u32 (first_element_offset + size c * i)) (u32 (i * b2n (needs_is_valid_bit c))) c)
        else Ok (mk_pinfo (u32 (first_element_offset + value_size (max_size d) * i)) 0 c)
      end
  end.

(** inc/tuplestore/data_type_info.h:659-677 [is_containee_null_in_container_CONTAINITY_UNSAFE] *)
Definition is_null (d : dti) (m : mem) (o : Z) (pi : pinfo) : res bool :=
  if negb (is_nullable_type_info (pi_type pi)) then Ok false
  else if negb (is_variable_sized_type_info (pi_type pi)) then
    let* b := get_bit m (o + offset_of_prefix_bitmap d) (pi_valid pi) in Ok (negb b)
  else
    let* v := read_value m (o + pi_off pi) (max_size d) in Ok (v =? 0).

(** inc/tuplestore/data_type_info.h:692-714 [get_pointer_to_containee_from_container_CONTAINITY_UNSAFE] *)
Definition get_ptr (d : dti) (m : mem) (o : Z) (pi : pinfo) : res (option Z) :=
  let t := pi_type pi in
  let* null :=
    if needs_is_valid_bit t
    then let* b := get_bit m (o + offset_of_prefix_bitmap d) (pi_valid pi) in Ok (negb b)
    else Ok false in
  if null : bool then Ok None
  else match type t with
       | BIT_FIELD => Ok (Some (o + offset_of_prefix_bitmap d))
       | _ =>
         if negb (is_variable_sized_type_info t) then Ok (Some (o + pi_off pi))
         else
           let* a := read_value m (o + pi_off pi) (max_size d) in
           Ok (if a =? 0 then None else Some (o + a))
       end.

(** inc/tuplestore/data_type_info.h:729-747 [get_size_of_containee_from_container_CONTAINITY_UNSAFE] *)
Definition containee_size (d : dti) (m : mem) (o : Z) (pi : pinfo) : res Z :=
  match type (pi_type pi) with
  | BIT_FIELD => Ok 0
  | _ =>
    if negb (is_variable_sized_type_info (pi_type pi)) then Ok (size (pi_type pi))
    else
      let* c := get_ptr d m o pi in
      match c with
      | None => Ok 0
      | Some a => get_size (pi_type pi) m a
      end
  end.

(** inc/tuplestore/data_type_info.h:761-837 [get_datum_for_type_info]; [None]
    is return 0.  [float_accesses.h] copies the bytes of a float, so a float is
    its bit pattern. *)
Definition get_datum (d : dti) (m : mem) (o : Z) : res (option datum) :=
  match type d with
  | BIT_FIELD => Ok None
  | UINT => let* bs := rd m o (size d) in Ok (Some (DUint (dec bs)))
  | INT => let* bs := rd m o (size d) in Ok (Some (DInt (sdec bs)))
  | FLOAT =>
      let* bs := rd m o (size d) in
      Ok (Some (if size d =? 4 then DFloat (dec bs) else DDouble (dec bs)))
  | LARGE_UINT => let* bs := rd m o (size d) in Ok (Some (DLargeUint (dec bs)))
  | LARGE_INT => let* bs := rd m o (size d) in Ok (Some (DLargeInt (sdec bs)))
  | STRING =>
      let s := o + offset_of_prefix_bitmap d in
      let* n := get_element_count d m o in
      let* n' := strnlen m s n in
      Ok (Some (DStr m s n'))
  | BINARY =>
      let s := o + offset_of_prefix_bitmap d in
      let* n := get_element_count d m o in
      Ok (Some (DStr m s n))
  | TUPLE | ARRAY => Ok (Some (DPtr m o))
  end.

(** inc/tuplestore/data_type_info.h:839-864
    [get_datum_to_containee_from_container_CONTAINITY_UNSAFE] and
    866-877 [get_datum_to_containee_from_container] *)
Definition get_containee_datum (d : dti) (m : mem) (o i : Z) : res (option datum) :=
  if negb (is_container_type_info d) then Ok None
  else
    let* n := get_element_count d m o in
    if n <=? i then Ok None
    else
      let* pi := get_pos d m o i in
      let* c := get_ptr d m o pi in
      match c with
      | None => Ok (Some DNull)
      | Some a =>
        match type (pi_type pi) with
        | BIT_FIELD =>
            let* v := get_bits m a (pi_off pi) (pi_off pi + size (pi_type pi) - 1) in
            Ok (Some (DBits v))
        | _ => get_datum (pi_type pi) m a
        end
      end.

(** inc/tuplestore/data_type_info.h:879-922
    [move_variable_sized_containee_to_end_of_container_CONTAINITY_UNSAFE].  The
    return value (whether something moved) is not used by any caller in the
    library; it is [is_moved] in PosCache.v.  The loop bound, the element count, is read
    once: the loop stores offsets only. *)
Definition move_to_end (d : dti) (m : mem) (o i : Z) (pi : pinfo) : res mem :=
  if negb (is_variable_sized_type_info (pi_type pi)) then Ok m
  else
    let* c := get_ptr d m o pi in
    match c with
    | None => Ok m
    | Some a =>
      let containee_byte_offset := u32 (a - o) in
      let* sz := get_size (pi_type pi) m a in
      let* container_size := get_size d m o in
      if u32 (containee_byte_offset + sz) =? container_size then Ok m
      else
        let* m1 := mem_left_rotate m a (u32 (container_size - containee_byte_offset)) sz in
        let* n := get_element_count d m1 o in
        let* m2 := for_loop (Z.to_nat n) 0 (fun j m =>
          let* pj := get_pos d m o j in
          if (j =? i) || negb (is_variable_sized_type_info (pi_type pj)) then Ok m
          else
            let* oj := read_value m (o + pi_off pj) (max_size d) in
            if containee_byte_offset <? oj
            then write_value m (o + pi_off pj) (max_size d) (u32 (oj - sz))
            else Ok m) m1 in
        write_value m2 (o + pi_off pi) (max_size d) (u32 (container_size - sz))
    end.

(** inc/tuplestore/data_type_info.h:937-955 [initialize_minimal_data_for_type_info] *)
Definition init_minimal (d : dti) (m : mem) (o : Z) : res (Z * mem) :=
  match type d with
  | BIT_FIELD => Ok (0, m)
  | _ =>
    if negb (is_variable_sized_type_info d) then
      let* m1 := memset m o Byte.x00 (size d) in Ok (size d, m1)
    else
      let* m1 := memset m o Byte.x00 (size d) in
      let* m2 := if has_size_in_prefix d then write_value m1 (o + 0) (max_size d) (size d) else Ok m1 in
      Ok (size d, m2)
  end.

(** inc/tuplestore/data_type_info.h:957-963 [are_zeroes] *)
Fixpoint are_zeroes (m : mem) (o : Z) (n : nat) : res bool :=
  match n with
  | O => Ok true
  | S n' => let* b := rd m o 1 in if dec b =? 0 then are_zeroes m (o + 1) n' else Ok false
  end.
(** inc/tuplestore/data_type_info.h:965-986 [is_minimal_data_for_type_info] *)
Definition is_minimal (d : dti) (m : mem) (o : Z) : res bool :=
  match type d with
  | BIT_FIELD => Ok false
  | _ =>
    if negb (is_variable_sized_type_info d) then are_zeroes m o (Z.to_nat (size d))
    else
      let* sz := get_size d m o in
      if negb (sz =? size d) then Ok false
      else if has_size_in_prefix d then
        are_zeroes m (o + value_size (max_size d)) (Z.to_nat (u32 (sz - value_size (max_size d))))
      else are_zeroes m o (Z.to_nat sz)
  end.

(** inc/tuplestore/data_type_info.h:988-1020 [set_containee_to_NULL_in_container_CONTAINITY_UNSAFE] *)
Definition set_null (d : dti) (m : mem) (o i : Z) (pi : pinfo) : res (bool * mem) :=
  let* null := is_null d m o pi in
  if null : bool then Ok (true, m)
  else if negb (is_nullable_type_info (pi_type pi)) then Ok (false, m)
  else if needs_is_valid_bit (pi_type pi) then
    let* m1 := reset_bit m (o + offset_of_prefix_bitmap d) (pi_valid pi) in Ok (true, m1)
  else
    let* container_size := get_size d m o in
    let* c := get_ptr d m o pi in
    match c with
    | None => UB
    | Some a =>
      let* sz := get_size (pi_type pi) m a in
      let* m1 := move_to_end d m o i pi in
      let* m2 := write_value m1 (o + pi_off pi) (max_size d) 0 in
      let* m3 := if has_size_in_prefix d
                 then write_value m2 (o + 0) (max_size d) (u32 (container_size - sz)) else Ok m2 in
      Ok (true, m3)
    end.

(** the size test of inc/tuplestore/data_type_info.h:1056, 1066, 1077, 1088
    (and of 1197, 1215, 1232, 1249): the new size is acceptable *)
Definition size_acceptable (d : dti) (old_size new_size inc : Z) : bool :=
  negb ((max_size d <? new_size) || ((old_size <? new_size) && (inc <? u32 (new_size - old_size)))).

(** inc/tuplestore/data_type_info.h:1035-1095 [can_set_datum_for_type_info] *)
Definition can_set_datum (d : dti) (m : mem) (o : Z) (is_valid : bool) (inc : Z) (uval : datum) : res bool :=
  if is_datum_NULL uval then Ok false
  else match type d with
       | BIT_FIELD => Ok false
       | ty =>
         if negb (is_variable_sized_type_info d) then Ok true
         else
           match ty with
           | STRING =>
               let* (sm, so, sn) := string_value uval in
               let* sn' := strnlen sm so sn in
               let* old_size := if is_valid then get_size d m o else Ok 0 in
               Ok (size_acceptable d old_size (u32 (value_size (max_size d) + sn')) inc)
           | BINARY =>
               let* (sm, so, sn) := string_value uval in
               let* old_size := if is_valid then get_size d m o else Ok 0 in
               Ok (size_acceptable d old_size (u32 (value_size (max_size d) + sn)) inc)
           | TUPLE | ARRAY =>
               let* old_size := if is_valid then get_size d m o else Ok 0 in
               let* new_size := if is_EMPTY_DATUM uval then Ok (size d)
                                else let* (vm, vo) := tuple_value uval in get_size d vm vo in
               Ok (size_acceptable d old_size new_size inc)
           | _ => Ok false
           end
       end.

(** inc/tuplestore/data_type_info.h:1097-1257 [set_datum_for_type_info] *)
Definition set_datum (d : dti) (m : mem) (o : Z) (is_valid : bool) (inc : Z) (uval : datum) : res (bool * mem) :=
  if is_datum_NULL uval then Ok (false, m)
  else match type d with
       | BIT_FIELD => Ok (false, m)
       | ty =>
         if negb (is_variable_sized_type_info d) then
           match ty with
           | UINT => let* v := uint_value uval in
                     let* m1 := wr m o (enc (Z.to_nat (size d)) v) in Ok (true, m1)
           | INT => let* v := int_value uval in
                    let* m1 := wr m o (enc (Z.to_nat (size d)) v) in Ok (true, m1)
           | FLOAT =>
               let* v := if size d =? 4 then float_value uval else double_value uval in
               let* m1 := wr m o (enc (Z.to_nat (size d)) v) in Ok (true, m1)
           | LARGE_UINT => let* v := large_uint_value uval in
                           let* m1 := wr m o (enc (Z.to_nat (size d)) v) in Ok (true, m1)
           | LARGE_INT => let* v := large_int_value uval in
                          let* m1 := wr m o (enc (Z.to_nat (size d)) v) in Ok (true, m1)
           | STRING =>
               let* (sm, so, sn) := string_value uval in
               let* n0 := strnlen sm so sn in
               let n := Z.min n0 (size d) in
               let* m1 := memcopy m o sm so n in
               let* m2 := if n <? size d then memset m1 (o + n) Byte.x00 (size d - n) else Ok m1 in
               Ok (true, m2)
           | BINARY =>
               let* (sm, so, sn) := string_value uval in
               let* m1 := memcopy m o sm so (Z.min sn (size d)) in
               Ok (true, m1)
           | TUPLE | ARRAY =>
               if is_EMPTY_DATUM uval then let* (_, m1) := init_minimal d m o in Ok (true, m1)
               else
                 let* (vm, vo) := tuple_value uval in
                 let* m1 := memcopy m o vm vo (size d) in
                 Ok (true, m1)
           | _ => Ok (false, m)
           end
         else
           match ty with
           | STRING =>
               let* (sm, so, sn) := string_value uval in
               let* sn' := strnlen sm so sn in
               let* old_size := if is_valid then get_size d m o else Ok 0 in
               if negb (size_acceptable d old_size (u32 (value_size (max_size d) + sn')) inc) then Ok (false, m)
               else
                 let* m1 := write_value m o (max_size d) sn' in
                 let* m2 := memcopy m1 (o + value_size (max_size d)) sm so sn' in
                 Ok (true, m2)
           | BINARY =>
               let* (sm, so, sn) := string_value uval in
               let* old_size := if is_valid then get_size d m o else Ok 0 in
               if negb (size_acceptable d old_size (u32 (value_size (max_size d) + sn)) inc) then Ok (false, m)
               else
                 let* m1 := write_value m o (max_size d) sn in
                 let* m2 := memcopy m1 (o + value_size (max_size d)) sm so sn in
                 Ok (true, m2)
           | TUPLE | ARRAY =>
               let* old_size := if is_valid then get_size d m o else Ok 0 in
               let* new_size := if is_EMPTY_DATUM uval then Ok (size d)
                                else let* (vm, vo) := tuple_value uval in get_size d vm vo in
               if negb (size_acceptable d old_size new_size inc) then Ok (false, m)
               else if is_EMPTY_DATUM uval then let* (_, m1) := init_minimal d m o in Ok (true, m1)
               else
                 let* (vm, vo) := tuple_value uval in
                 let* n := get_size d vm vo in
                 let* m1 := memcopy m o vm vo n in
                 Ok (true, m1)
           | _ => Ok (false, m)
           end
       end.

(** inc/tuplestore/data_type_info.h:1259-1295
    [can_set_datum_to_containee_in_container] and its CONTAINITY_UNSAFE part *)
Definition can_set_containee (d : dti) (m : mem) (o i inc : Z) (uval : datum) : res bool :=
  if negb (is_container_type_info d) then Ok false
  else
    let* n := get_element_count d m o in
    if n <=? i then Ok false
    else
      let* pi := get_pos d m o i in
      let t := pi_type pi in
      if is_datum_NULL uval then Ok (is_nullable_type_info t)
      else if negb (is_variable_sized_type_info t) then Ok true
      else
        let* old_container_size := get_size d m o in
        let inc' := Z.min inc (u32 (max_size d - old_container_size)) in
        let* c := get_ptr d m o pi in
        match c with
        | Some a => can_set_datum t m a true inc' uval
        | None => can_set_datum t m (o + old_container_size) false inc' uval
        end.

(** inc/tuplestore/data_type_info.h:1297-1376
    [set_datum_to_containee_in_container] and its CONTAINITY_UNSAFE part *)
Definition set_containee (d : dti) (m : mem) (o i inc : Z) (uval : datum) : res (bool * mem) :=
  if negb (is_container_type_info d) then Ok (false, m)
  else
    let* n := get_element_count d m o in
    if n <=? i then Ok (false, m)
    else
      let* pi := get_pos d m o i in
      let t := pi_type pi in
      if is_datum_NULL uval then set_null d m o i pi
      else if negb (is_variable_sized_type_info t) then
        let* m1 := if needs_is_valid_bit t
                   then set_bit m (o + offset_of_prefix_bitmap d) (pi_valid pi) else Ok m in
        match type t with
        | BIT_FIELD =>
            let* v := bit_field_value uval in
            let* m2 := set_bits m1 (o + offset_of_prefix_bitmap d) (pi_off pi) (pi_off pi + size t - 1) v in
            Ok (true, m2)
        | _ =>
            let* c := get_ptr d m1 o pi in
            match c with
            | Some a => set_datum t m1 a true inc uval
            | None => UB
            end
        end
      else
        let* m1 := move_to_end d m o i pi in
        let* old_container_size := get_size d m1 o in
        let inc' := Z.min inc (u32 (max_size d - old_container_size)) in
        let* c := get_ptr d m1 o pi in
        let valid := match c with Some _ => true | None => false end in
        let a := match c with Some a => a | None => o + old_container_size end in
        let* old_size := if valid then get_size t m1 a else Ok 0 in
        let* (result, m2) := set_datum t m1 a valid inc' uval in
        let* m3 := if result && negb valid
                   then write_value m2 (o + pi_off pi) (max_size d) old_container_size else Ok m2 in
        let* m4 := if result && has_size_in_prefix d then
                     let* new_size := get_size t m3 a in
                     write_value m3 (o + 0) (max_size d) (u32 (old_container_size - old_size + new_size))
                   else Ok m3 in
        Ok (result, m4).

(** inc/tuplestore/data_type_info.h:1378-1440 [can_expand_container]: the tests
    and the new size; shared with [expand_container], 1442-1483 and the size
    computations there.  [None] is return 0, [Some None] the early return 1 *)
Definition expand_plan (d : dti) (m : mem) (o index slots inc : Z) : res (option (option (Z * Z * Z * Z))) :=
  if negb (is_variable_element_count d) then Ok None
  else
    let* n := get_element_count d m o in
    if 4294967295 <? slots + n then Ok None
    else if n <? index then Ok None
    else if slots =? 0 then Ok (Some None)
    else
      let c := containee d in
      let new_n := u32 (n + slots) in
      let* old_size := get_size d m o in
      let pbo := offset_of_prefix_bitmap d in
      let new_size :=
        match type c with
        | BIT_FIELD => u32 (pbo + bitmap_size_in_bytes (u64 (u32 (b2n (needs_is_valid_bit c) + size c) * new_n)))
        | _ =>
          if negb (is_variable_sized_type_info c)
          then u32 (pbo + bitmap_size_in_bytes (u32 (new_n * b2n (needs_is_valid_bit c))) + size c * new_n)
          else u32 (old_size + value_size (max_size d) * slots)
        end in
      if negb (size_acceptable d old_size new_size inc) then Ok None
      else Ok (Some (Some (n, new_n, old_size, new_size))).
Definition can_expand (d : dti) (m : mem) (o index slots inc : Z) : res bool :=
  let* p := expand_plan d m o index slots inc in
  Ok (match p with None => false | Some _ => true end).

(** inc/tuplestore/data_type_info.h:1506-1515 and 1571-1580 *)
Definition zero_unused_bits (m : mem) (o bits : Z) : res mem :=
  let upper := (bits + 7) / 8 * 8 in
  if bits <? upper then set_bits m o bits (upper - 1) 0 else Ok m.

(** inc/tuplestore/data_type_info.h:1592-1600, 1737-1746: the size and the
    element count in the prefix *)
Definition write_prefix (d : dti) (m : mem) (o new_size new_n : Z) : res mem :=
  let* m1 := if has_size_in_prefix d then write_value m (o + 0) (max_size d) new_size else Ok m in
  if has_element_count_in_prefix d
  then write_value m1 (o + offset_of_prefix_count d) (max_size d) new_n else Ok m1.

(** inc/tuplestore/data_type_info.h:1476-1509, the BIT_FIELD case of [expand_container] *)
Definition expand_bits (d : dti) (m : mem) (o index slots n new_n : Z) : res mem :=
  let c := containee d in
  let pbo := offset_of_prefix_bitmap d in
  let k := u32 (b2n (needs_is_valid_bit c) + size c) in
  let* m1 := for_loop (Z.to_nat (n - index)) 0 (fun i m =>
    let from := u64 (u32 (n - 1 - i) * k) in
    let to := u64 (u32 (new_n - 1 - i) * k) in
    let* t := get_bits m (o + pbo) from (from + k - 1) in
    set_bits m (o + pbo) to (to + k - 1) t) m in
  let* m2 := for_loop (Z.to_nat slots) 0 (fun i m =>
    let to := u64 (u32 (index + i) * k) in
    set_bits m (o + pbo) to (to + k - 1) 0) m1 in
  zero_unused_bits m2 (o + pbo) (u64 (new_n * k)).
(** inc/tuplestore/data_type_info.h:1510-1567, the fixed size case *)
Definition expand_fixed (d : dti) (m : mem) (o index slots n new_n old_size : Z) : res mem :=
  let c := containee d in
  let pbo := offset_of_prefix_bitmap d in
  let v := needs_is_valid_bit c in
  let bm_old := bitmap_size_in_bytes (u32 (n * b2n v)) in
  let bm_new := bitmap_size_in_bytes (u32 (new_n * b2n v)) in
  let* m1 := if negb (bm_old =? bm_new)
             then memmove m (o + u32 (pbo + bm_new)) (o + u32 (pbo + bm_old)) (u32 (old_size - u32 (pbo + bm_old)))
             else Ok m in
  let* m3 := if v then
      let* m2 := for_loop (Z.to_nat (n - index)) 0 (fun i m =>
        let* t := get_bits m (o + pbo) (u32 (n - 1 - i)) (u32 (n - 1 - i)) in
        set_bits m (o + pbo) (u32 (new_n - 1 - i)) (u32 (new_n - 1 - i)) t) m1 in
      for_loop (Z.to_nat slots) 0 (fun i m => reset_bit m (o + pbo) (u32 (index + i))) m2
    else Ok m1 in
  let first := u32 (pbo + bm_new) in
  let* m4 := memmove m3 (o + first + u32 (u32 (index + slots) * size c)) (o + first + u32 (index * size c))
               (u32 ((n - index) * size c)) in
  let* m5 := memset m4 (o + first + u32 (index * size c)) Byte.x00 (u32 (slots * size c)) in
  if v then zero_unused_bits m5 (o + pbo) new_n else Ok m5.
(** inc/tuplestore/data_type_info.h:1568-1592, the variable size case *)
Definition expand_var (d : dti) (m : mem) (o index slots new_n old_size : Z) : res mem :=
  let pbo := offset_of_prefix_bitmap d in
  let vs := value_size (max_size d) in
  let from := u32 (pbo + vs * index) in
  let to := u32 (pbo + vs * (index + slots)) in
  let* m1 := memmove m (o + to) (o + from) (u32 (old_size - from)) in
  let* m2 := memset m1 (o + from) Byte.x00 (u32 (to - from)) in
  for_loop (Z.to_nat new_n) 0 (fun i m =>
    let at_ := o + pbo + u32 (i * vs) in
    let* a := read_value m at_ (max_size d) in
    if negb (a =? 0) then write_value m at_ (max_size d) (u32 (a + (to - from))) else Ok m) m2.

(** inc/tuplestore/data_type_info.h:1442-1601 [expand_container] *)
Definition expand (d : dti) (m : mem) (o index slots inc : Z) : res (bool * mem) :=
  let* p := expand_plan d m o index slots inc in
  match p with
  | None => Ok (false, m)
  | Some None => Ok (true, m)
  | Some (Some (n, new_n, old_size, new_size)) =>
    let c := containee d in
    let* m' :=
      match type c with
      | BIT_FIELD => expand_bits d m o index slots n new_n
      | _ =>
        if negb (is_variable_sized_type_info c)
        then expand_fixed d m o index slots n new_n old_size
        else expand_var d m o index slots new_n old_size
      end in
    let* m'' := write_prefix d m' o new_size new_n in
    Ok (true, m'')
  end.

(** inc/tuplestore/data_type_info.h:1603-1619 [can_discard_from_container] *)
Definition can_discard (d : dti) (m : mem) (o index slots : Z) : res bool :=
  if negb (is_variable_element_count d) then Ok false
  else
    let* n := get_element_count d m o in
    if n <=? index then Ok false
    else if n - index <? slots then Ok false
    else Ok true.

(** inc/tuplestore/data_type_info.h:1655-1671, the BIT_FIELD case of
    [discard_from_container]; the new size and the buffer *)
Definition discard_bits (d : dti) (m : mem) (o index slots n new_n : Z) : res (Z * mem) :=
  let c := containee d in
  let pbo := offset_of_prefix_bitmap d in
  let k := u32 (b2n (needs_is_valid_bit c) + size c) in
  let new_size := u32 (pbo + bitmap_size_in_bytes (u64 (k * new_n))) in
  let* m1 := for_loop (Z.to_nat (n - (index + slots))) 0 (fun i m =>
    let from := u64 (u32 (index + slots + i) * k) in
    let to := u64 (u32 (index + i) * k) in
    let* t := get_bits m (o + pbo) from (from + k - 1) in
    set_bits m (o + pbo) to (to + k - 1) t) m in
  Ok (new_size, m1).
(** inc/tuplestore/data_type_info.h:1672-1708, the fixed size case *)
Definition discard_fixed (d : dti) (m : mem) (o index slots n new_n old_size : Z) : res (Z * mem) :=
  let c := containee d in
  let pbo := offset_of_prefix_bitmap d in
  let v := needs_is_valid_bit c in
  let bm_old := bitmap_size_in_bytes (u32 (n * b2n v)) in
  let bm_new := bitmap_size_in_bytes (u32 (new_n * b2n v)) in
  let new_size := u32 (pbo + bm_new + size c * new_n) in
  let* m1 := if v then
      for_loop (Z.to_nat (n - (index + slots))) 0 (fun i m =>
        let* t := get_bits m (o + pbo) (u32 (index + slots + i)) (u32 (index + slots + i)) in
        set_bits m (o + pbo) (u32 (index + i)) (u32 (index + i)) t) m
    else Ok m in
  let* m2 := if negb (bm_old =? bm_new)
             then memmove m1 (o + u32 (pbo + bm_new)) (o + u32 (pbo + bm_old)) (u32 (old_size - u32 (pbo + bm_old)))
             else Ok m1 in
  let first := u32 (pbo + bm_new) in
  let* m3 := memmove m2 (o + first + u32 (index * size c)) (o + first + u32 (u32 (index + slots) * size c))
               (u32 ((n - (index + slots)) * size c)) in
  Ok (new_size, m3).
(** inc/tuplestore/data_type_info.h:1709-1738, the variable size case *)
Definition discard_var (d : dti) (m : mem) (o index slots new_n : Z) : res (Z * mem) :=
  let pbo := offset_of_prefix_bitmap d in
  let* m1 := for_loop (Z.to_nat slots) 0 (fun i m =>
    let* pi := get_pos d m o (u32 (index + i)) in
    let* (_, m') := set_null d m o (u32 (index + i)) pi in Ok m') m in
  let* old_size := get_size d m1 o in
  let vs := value_size (max_size d) in
  let new_size := u32 (old_size - vs * slots) in
  let from := u32 (pbo + vs * (index + slots)) in
  let to := u32 (pbo + vs * index) in
  let* m2 := memmove m1 (o + to) (o + from) (u32 (old_size - from)) in
  let* m3 := for_loop (Z.to_nat new_n) 0 (fun i m =>
    let at_ := o + pbo + u32 (i * vs) in
    let* a := read_value m at_ (max_size d) in
    if negb (a =? 0) then write_value m at_ (max_size d) (u32 (a - (from - to))) else Ok m) m2 in
  Ok (new_size, m3).

(** inc/tuplestore/data_type_info.h:1621-1747 [discard_from_container] *)
Definition discard (d : dti) (m : mem) (o index slots : Z) : res (bool * mem) :=
  let* can := can_discard d m o index slots in
  if negb can then Ok (false, m)
  else if slots =? 0 then Ok (true, m)
  else
    let c := containee d in
    let* n := get_element_count d m o in
    let new_n := u32 (n - slots) in
    let* old_size := get_size d m o in
    let* (new_size, m') :=
      match type c with
      | BIT_FIELD => discard_bits d m o index slots n new_n
      | _ =>
        if negb (is_variable_sized_type_info c)
        then discard_fixed d m o index slots n new_n old_size
        else discard_var d m o index slots new_n
      end in
    let* m'' := write_prefix d m' o new_size new_n in
    Ok (true, m'').
