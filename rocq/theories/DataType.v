(** * data_type_info: the struct, its helpers and finalization
    (inc/tuplestore/data_type_info.h, src/data_type_info.c, src/tuple_def.c) *)
From Verif Require Export SizeDef.

(** inc/tuplestore/data_type_info.h:8-30 [enum data_type] *)
Inductive data_type :=
  BIT_FIELD | UINT | INT | FLOAT | LARGE_UINT | LARGE_INT | STRING | BINARY | TUPLE | ARRAY.
Definition data_type_eqb (a b : data_type) : bool :=
  match a, b with
  | BIT_FIELD, BIT_FIELD | UINT, UINT | INT, INT | FLOAT, FLOAT | LARGE_UINT, LARGE_UINT
  | LARGE_INT, LARGE_INT | STRING, STRING | BINARY, BINARY | TUPLE, TUPLE | ARRAY, ARRAY => true
  | _, _ => false
  end.

(** inc/tuplestore/data_type_info.h:39-52, 60-66 [data_positional_info] and
    [data_position_info], without the type.  [p_off] is the union of
    [byte_offset], [byte_offset_to_byte_offset] and
    [bit_offset_in_prefix_bitmap]; [p_valid] is [bit_offset_to_is_valid_bit]. *)
Record position := mk_position { field_name : list byte; p_off : Z; p_valid : Z }.

(** inc/tuplestore/data_type_info.h:68-116 [struct data_type_info], without
    [is_static] (memory management only).  [size] is the union of
    [bit_field_size], [size] and [min_size].  The pointers to other types are
    the types themselves: a type is a finite tree.  [element_count] of a TUPLE
    is the length of [containees]. *)
Inductive dti := mk_dti {
  is_finalized : bool;
  type_name : list byte;
  type : data_type;
  is_nullable : bool;
  is_variable_sized_ : bool;
  size : Z;
  max_size : Z;
  has_variable_element_count : bool;
  element_count_ : Z;
  prefix_bitmap_size_in_bits : Z;
  containee_ : option dti;
  containees : list (position * dti)
}.
Definition element_count (d : dti) : Z :=
  match type d with TUPLE => zlen (containees d) | _ => element_count_ d end.

(** src/data_type_info_defaults.c [UINT_NON_NULLABLE[1]], finalized *)
Definition uint8_type : dti := mk_dti true [] UINT false false 1 0 false 0 0 None [].

(** [dti->containee]; a NULL pointer is modelled by the default, only ARRAY,
    STRING and BINARY types have one *)
Definition containee (d : dti) : dti :=
  match containee_ d with Some c => c | None => uint8_type end.

(** inc/tuplestore/data_type_info.h:31 *)
Definition is_container_data_type (t : data_type) : bool :=
  match t with STRING | BINARY | TUPLE | ARRAY => true | _ => false end.
(** inc/tuplestore/data_type_info.h:397-400 *)
Definition is_variable_sized_type_info (d : dti) : bool := is_variable_sized_ d.
(** inc/tuplestore/data_type_info.h:387-390 *)
Definition is_nullable_type_info (d : dti) : bool := is_variable_sized_type_info d || is_nullable d.
(** inc/tuplestore/data_type_info.h:392-395 *)
Definition needs_is_valid_bit (d : dti) : bool := negb (is_variable_sized_type_info d) && is_nullable d.
(** inc/tuplestore/data_type_info.h:445-448 *)
Definition is_container_type_info (d : dti) : bool := is_container_data_type (type d).
(** inc/tuplestore/data_type_info.h:451-471 *)
Definition is_variable_element_count (d : dti) : bool :=
  if negb (is_container_type_info d) then false
  else if negb (is_variable_sized_type_info d) then false
  else match type d with
       | TUPLE => false
       | STRING | BINARY => true
       | _ => has_variable_element_count d
       end.
(** inc/tuplestore/data_type_info.h:487-508 *)
Definition has_size_in_prefix (d : dti) : bool :=
  if negb (is_container_type_info d) then false
  else if negb (is_variable_sized_type_info d) then false
  else match type d with
       | TUPLE => true
       | STRING | BINARY => false
       | _ => is_variable_sized_type_info (containee d)
       end.
(** inc/tuplestore/data_type_info.h:510-513 *)
Definition has_element_count_in_prefix (d : dti) : bool := is_variable_element_count d.
(** inc/tuplestore/data_type_info.h:163-170, the prefix offsets *)
Definition bytes_for_prefix_size (d : dti) : Z := value_size (max_size d) * b2n (has_size_in_prefix d).
Definition offset_of_prefix_count (d : dti) : Z := 0 + bytes_for_prefix_size d.
Definition bytes_for_prefix_count (d : dti) : Z := value_size (max_size d) * b2n (has_element_count_in_prefix d).
Definition offset_of_prefix_bitmap (d : dti) : Z := offset_of_prefix_count d + bytes_for_prefix_count d.

(** inc/tuplestore/data_type_info.h:402-430 [get_size_for_type_info] *)
Definition get_size (d : dti) (m : mem) (o : Z) : res Z :=
  match type d with
  | BIT_FIELD => Ok 0
  | _ =>
    if negb (is_variable_sized_type_info d) then Ok (size d)
    else if has_size_in_prefix d then
      let* s := read_value m o (max_size d) in
      Ok (if s =? 0 then max_size d else s)
    else
      let* n := read_value m (o + offset_of_prefix_count d) (max_size d) in
      match type (containee d) with
      | BIT_FIELD =>
          Ok (u32 (value_size (max_size d) +
                   bitmap_size_in_bytes (u64 (n * u32 (b2n (needs_is_valid_bit (containee d)) + size (containee d))))))
      | _ =>
          Ok (u32 (value_size (max_size d) +
                   bitmap_size_in_bytes (u32 (n * b2n (needs_is_valid_bit (containee d)))) +
                   n * size (containee d)))
      end
  end.

(** inc/tuplestore/data_type_info.h:473-485 [get_element_count_for_container_type_info] *)
Definition get_element_count (d : dti) (m : mem) (o : Z) : res Z :=
  if negb (is_container_type_info d) then Ok 0
  else if negb (is_variable_element_count d) then Ok (element_count d)
  else read_value m (o + offset_of_prefix_count d) (max_size d).

(** src/data_type_info.c:43-246 [finalize_type_info].  The result is the return
    value and the struct afterwards.  When it returns 0 the struct may be
    partially updated: the callers in this file that ignore the return value
    then read that partial state, so it is modelled as well. *)
Definition set_fin (d : dti) (fin vs : bool) (sz : Z) (hv : bool) (pb : Z) (c : option dti) (cs : list (position * dti)) : dti :=
  mk_dti fin (type_name d) (type d) (is_nullable d) vs sz (max_size d) hv (element_count_ d) pb c cs.

(** src/data_type_info.c:136-155, the body of the first loop over the elements
    of a TUPLE, for one finalized element: assigns its bits in the prefix bitmap *)
Definition assign_bits (p : position) (t : dti) (bits : Z) : position * Z :=
  let '(p1, bits1) :=
    if needs_is_valid_bit t then (mk_position (field_name p) (p_off p) bits, u64 (bits + 1)) else (p, bits) in
  match type t with
  | BIT_FIELD => (mk_position (field_name p1) bits1 (p_valid p1), u64 (bits1 + size t))
  | _ => (p1, bits1)
  end.
(** src/data_type_info.c:168-190, the second loop: assigns the byte offsets;
    [sz] is [dti->size] (or [min_size]) so far *)
Fixpoint assign_offsets (ms : Z) (cs : list (position * dti)) (sz : Z) : Z * list (position * dti) :=
  match cs with
  | [] => (sz, [])
  | (p, t) :: cs' =>
      let '(p1, sz1) :=
        match type t with
        | BIT_FIELD => (p, sz)
        | _ =>
          if is_variable_sized_type_info t
          then (mk_position (field_name p) sz (p_valid p), u32 (sz + value_size ms))
          else (mk_position (field_name p) sz (p_valid p), u32 (sz + size t))
        end in
      let '(sz', r) := assign_offsets ms cs' sz1 in
      (sz', (p1, t) :: r)
  end.

(** src/data_type_info.c:158-195, TUPLE after the first loop succeeded with
    [vs], [bits] and the updated elements [cs] *)
Definition finalize_tuple (d : dti) (vs : bool) (bits : Z) (cs : list (position * dti)) : bool * dti :=
  let sz0 := if vs then value_size (max_size d) else 0 in
  let sz1 := u32 (sz0 + bitmap_size_in_bytes bits) in
  let '(sz, cs2) := assign_offsets (max_size d) cs sz1 in
  if vs && (max_size d <? sz) then (false, set_fin d false vs sz false bits (containee_ d) cs2)
  else (true, set_fin d true vs sz false bits (containee_ d) cs2).

(** src/data_type_info.c:201-239, ARRAY, once the containee [c] is finalized *)
Definition finalize_array (d : dti) (c : dti) : bool * dti :=
  let hv := has_variable_element_count d in
  let vs := hv || is_variable_sized_type_info c in
  let n := element_count_ d in
  let valid := b2n (needs_is_valid_bit c) in
  if negb hv && (n =? 0)
  then (false, set_fin d false vs (size d) hv (prefix_bitmap_size_in_bits d) (Some c) (containees d))
  else
    let pb :=
      if hv then prefix_bitmap_size_in_bits d
      else match type c with
           | BIT_FIELD => u64 (n * u32 (valid + size c))
           | _ => if negb (is_variable_sized_type_info c) then u32 (n * valid) else 0
           end in
    if negb vs then
      (true, set_fin d true vs
               (match type c with
                | BIT_FIELD => u32 (bitmap_size_in_bytes pb)
                | _ => u32 (bitmap_size_in_bytes pb + n * size c)
                end) hv pb (Some c) (containees d))
    else
      let ms0 := offset_of_prefix_bitmap (set_fin d true vs 0 hv pb (Some c) (containees d)) in
      let ms1 :=
        if hv then ms0
        else match type c with
             | BIT_FIELD => u32 (ms0 + bitmap_size_in_bytes (u64 (u32 (valid + size c) * n)))
             | _ => if negb (is_variable_sized_type_info c)
                    then u32 (ms0 + (bitmap_size_in_bytes (u32 (valid * n)) + size c * n))
                    else u32 (ms0 + value_size (max_size d) * n)
             end in
      if max_size d <? ms1
      then (false, set_fin d false vs ms1 hv pb (Some c) (containees d))
      else (true, set_fin d true vs ms1 hv pb (Some c) (containees d)).

(** src/data_type_info.c:43-246.  STRING and BINARY get the static
    [UINT_NON_NULLABLE[1]], which always finalizes.  An ARRAY without containee
    would dereference NULL; the definition macros exclude it and the model
    returns 0. *)
Fixpoint finalize (d : dti) : bool * dti :=
  if is_finalized d then (true, d)
  else
    let hv := has_variable_element_count d in
    let pb := prefix_bitmap_size_in_bits d in
    let numeral (ok : bool) :=
      if ok then (true, set_fin d true false (size d) hv pb (containee_ d) (containees d))
      else (false, d) in
    match type d with
    | BIT_FIELD => numeral (negb ((size d <? 1) || (64 <? size d)))
    | UINT | INT => numeral (negb ((size d <? 1) || (8 <? size d)))
    | FLOAT => numeral (negb (negb (size d =? 4) && negb (size d =? 8)))
    | LARGE_UINT | LARGE_INT => numeral (negb ((size d <? 1) || (32 <? size d)))
    | STRING | BINARY =>
        if negb hv && (element_count_ d =? 0)
        then (false, set_fin d false hv (size d) hv pb (Some uint8_type) (containees d))
        else if hv then
          let ok := negb (max_size d <? value_size (max_size d)) in
          (ok, set_fin d ok hv (value_size (max_size d)) hv 0 (Some uint8_type) (containees d))
        else (true, set_fin d true hv (element_count_ d) hv 0 (Some uint8_type) (containees d))
    | TUPLE =>
        match containees d with
        | [] => (false, d)
        | _ =>
          let '(ok, vs, bits, cs) :=
            (fix elements (cs : list (position * dti)) (vs : bool) (bits : Z) : bool * bool * Z * list (position * dti) :=
               match cs with
               | [] => (true, vs, bits, [])
               | (p, t) :: cs' =>
                   let '(ok, t1) := finalize t in
                   if negb ok then (false, vs, bits, (p, t1) :: cs')
                   else
                     let vs1 := if is_variable_sized_type_info t1 then true else vs in
                     let '(p1, bits1) := assign_bits p t1 bits in
                     let '(ok2, vs2, bits2, cs2) := elements cs' vs1 bits1 in
                     (ok2, vs2, bits2, (p1, t1) :: cs2)
               end) (containees d) false 0 in
          if negb ok then (false, set_fin d false vs (size d) false bits (containee_ d) cs)
          else finalize_tuple d vs bits cs
        end
    | ARRAY =>
        match containee_ d with
        | None => (false, d)
        | Some c =>
            let '(ok, c1) := finalize c in
            if negb ok
            then (false, set_fin d false (is_variable_sized_ d) (size d) hv pb (Some c1) (containees d))
            else finalize_array d c1
        end
    end.

(** src/tuple_def.c:7-60 [initialize_tuple_size_def] on a finalized type; [d0]
    is the previous content of the struct.  [None] is return 0. *)
Definition initialize_size_def (d0 : size_def) (t : dti) : option size_def :=
  match type t with
  | BIT_FIELD => None
  | _ =>
    match finalize t with
    | (false, _) => None
    | (true, d) =>
      if negb (is_variable_sized_type_info d) then
        if size d =? 0 then None
        else Some (mk_size_def false (size d) (sd_max_size d0) (sd_has_size d0) (sd_has_count d0)
                     (sd_containee_valid_bit d0) (sd_containee_bit_field d0) (sd_containee_size d0))
      else
        let hs := has_size_in_prefix d in
        let hc := has_element_count_in_prefix d in
        if negb hs && negb hc then None
        else if hs then
          Some (mk_size_def true (size d) (max_size d) hs hc
                  (sd_containee_valid_bit d0) (sd_containee_bit_field d0) (sd_containee_size d0))
        else
          let c := containee d in
          Some (mk_size_def true (size d) (max_size d) hs hc (needs_is_valid_bit c)
                  (data_type_eqb (type c) BIT_FIELD) (size c))
    end
  end.
