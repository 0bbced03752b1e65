(** * Elements of one container, with a position that the caller keeps
    (inc/tuplestore/data_type_info.h)

    The functions on the elements of a container take a [data_positional_info]
    from the caller.  When it is INVALID the function computes the position of
    the element and leaves it there; otherwise it uses what it finds (586-590).
    [None] is INVALID_DATA_POSITIONAL_INFO (line 57). *)
From Verif Require Export Container.

Notation cache := (option pinfo).
(** inc/tuplestore/data_type_info.h:586-590: the test for a valid position, and
    then the computation *)
Definition locate (d : dti) (m : mem) (o i : Z) (c : cache) : res pinfo :=
  match c with
  | Some p => Ok p
  | None => get_pos d m o i
  end.
(** the tests at the beginning of the functions that check their index, e.g.
    inc/tuplestore/data_type_info.h:681-687: not a container, or not an index of
    it.  Then the position is not touched and the result is [refused]. *)
Definition on_element {A} (d : dti) (m : mem) (o i : Z) (c : cache) (refused : A) (k : pinfo -> res A) : res (A * cache) :=
  if negb (is_container_type_info d) then Ok (refused, c)
  else
    let* n := get_element_count d m o in
    if n <=? i then Ok (refused, c)
    else
      let* p := locate d m o i c in
      let* a := k p in
      Ok (a, Some p).

(** inc/tuplestore/data_type_info.h:646-657 [get_data_positional_info_for_containee_of_container] *)
Definition position_of (d : dti) (m : mem) (o i : Z) (c : cache) : res (bool * cache) :=
  on_element d m o i c false (fun _ => Ok true).
(** inc/tuplestore/data_type_info.h:679-690 [is_containee_null_in_container] *)
Definition is_element_null (d : dti) (m : mem) (o i : Z) (c : cache) : res (bool * cache) :=
  on_element d m o i c true (is_null d m o).
(** inc/tuplestore/data_type_info.h:716-727 [get_pointer_to_containee_from_container] *)
Definition pointer_to_element (d : dti) (m : mem) (o i : Z) (c : cache) : res (option Z * cache) :=
  on_element d m o i c None (get_ptr d m o).
(** inc/tuplestore/data_type_info.h:749-760 [get_size_of_containee_from_container] *)
Definition size_of_element (d : dti) (m : mem) (o i : Z) (c : cache) : res (Z * cache) :=
  on_element d m o i c 0 (containee_size d m o).
(** inc/tuplestore/data_type_info.h:839-864 and 866-877 [get_datum_to_containee_from_container] *)
Definition read_element (d : dti) (m : mem) (o i : Z) (c : cache) : res (option datum * cache) :=
  on_element d m o i c None (fun p =>
    let* a := get_ptr d m o p in
    match a with
    | None => Ok (Some DNull)
    | Some a =>
        match type (pi_type p) with
        | BIT_FIELD => let* v := get_bits m a (pi_off p) (pi_off p + size (pi_type p) - 1) in Ok (Some (DBits v))
        | _ => get_datum (pi_type p) m a
        end
    end).
(** inc/tuplestore/data_type_info.h:1259-1283 and 1285-1296 [can_set_datum_to_containee_in_container] *)
Definition can_set_element_of (d : dti) (m : mem) (o i inc : Z) (v : datum) (c : cache) : res (bool * cache) :=
  on_element d m o i c false (fun p =>
    let t := pi_type p in
    if is_datum_NULL v then Ok (is_nullable_type_info t)
    else if negb (is_variable_sized_type_info t) then Ok true
    else
      let* old_container_size := get_size d m o in
      let inc' := Z.min inc (u32 (max_size d - old_container_size)) in
      let* a := get_ptr d m o p in
      match a with
      | Some a => can_set_datum t m a true inc' v
      | None => can_set_datum t m (o + old_container_size) false inc' v
      end).
(** inc/tuplestore/data_type_info.h:1298-1363 and 1365-1376 [set_datum_to_containee_in_container] *)
Definition set_element_of (d : dti) (m : mem) (o i inc : Z) (v : datum) (c : cache) : res ((bool * mem) * cache) :=
  on_element d m o i c (false, m) (fun p =>
    let t := pi_type p in
    if is_datum_NULL v then set_null d m o i p
    else if negb (is_variable_sized_type_info t) then
      let* m1 := if needs_is_valid_bit t
                 then set_bit m (o + offset_of_prefix_bitmap d) (pi_valid p) else Ok m in
      match type t with
      | BIT_FIELD =>
          let* b := bit_field_value v in
          let* m2 := set_bits m1 (o + offset_of_prefix_bitmap d) (pi_off p) (pi_off p + size t - 1) b in
          Ok (true, m2)
      | _ =>
          let* a := get_ptr d m1 o p in
          match a with
          | Some a => set_datum t m1 a true inc v
          | None => UB
          end
      end
    else
      let* m1 := move_to_end d m o i p in
      let* old_container_size := get_size d m1 o in
      let inc' := Z.min inc (u32 (max_size d - old_container_size)) in
      let* a := get_ptr d m1 o p in
      let valid := match a with Some _ => true | None => false end in
      let a := match a with Some a => a | None => o + old_container_size end in
      let* old_size := if valid then get_size t m1 a else Ok 0 in
      let* (result, m2) := set_datum t m1 a valid inc' v in
      let* m3 := if result && negb valid
                 then write_value m2 (o + pi_off p) (max_size d) old_container_size else Ok m2 in
      let* m4 := if result && has_size_in_prefix d then
                   let* new_size := get_size t m3 a in
                   write_value m3 (o + 0) (max_size d) (u32 (old_container_size - old_size + new_size))
                 else Ok m3 in
      Ok (result, m4)).
(** inc/tuplestore/data_type_info.h:1022-1033 [set_containee_to_NULL_in_container] *)
Definition set_element_null (d : dti) (m : mem) (o i : Z) (c : cache) : res ((bool * mem) * cache) :=
  on_element d m o i c (false, m) (set_null d m o i).
(** the return value of inc/tuplestore/data_type_info.h:879-922
    [move_variable_sized_containee_to_end_of_container_CONTAINITY_UNSAFE]:
    whether the element has to be moved; [move_to_end] is what it does *)
Definition is_moved (d : dti) (m : mem) (o : Z) (p : pinfo) : res bool :=
  if negb (is_variable_sized_type_info (pi_type p)) then Ok false
  else
    let* c := get_ptr d m o p in
    match c with
    | None => Ok false
    | Some a =>
        let* sz := get_size (pi_type p) m a in
        let* container_size := get_size d m o in
        Ok (negb (u32 (u32 (a - o) + sz) =? container_size))
    end.
(** inc/tuplestore/data_type_info.h:924-935 [move_variable_sized_containee_to_end_of_container] *)
Definition move_element_to_end (d : dti) (m : mem) (o i : Z) (c : cache) : res ((bool * mem) * cache) :=
  on_element d m o i c (false, m) (fun p =>
    let* b := is_moved d m o p in
    let* m' := move_to_end d m o i p in
    Ok (b, m')).
