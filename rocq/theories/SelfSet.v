(** * Storing a value of a tuple in the same tuple

    In Container.v the buffer that a datum points to is separate from the data
    it is stored into.  Here the datum points into the data itself, as the one
    returned by [get_value] on the same tuple does: its bytes are read from the
    buffer as it is when they are read. *)
From Verif Require Export Compare.

(** the bytes a datum into the buffer has when the buffer has become [m] *)
Definition seen_in (m : mem) (v : datum) : datum :=
  match v with DStr _ so n => DStr m so n | DPtr _ so => DPtr m so | v => v end.

(** inc/tuplestore/data_type_info.h:1097-1257 [set_datum_for_type_info]: the
    bytes are read by one [memory_move] before anything is written, but for
    STRING and BINARY of variable size (1192-1221), where the element count is
    written first *)
Definition set_own_datum (d : dti) (m : mem) (o : Z) (is_valid : bool) (inc : Z) (v : datum) : res (bool * mem) :=
  match v with
  | DStr _ so sn =>
      if is_variable_sized_type_info d && (match type d with STRING | BINARY => true | _ => false end) then
        let* n := match type d with STRING => strnlen m so sn | _ => Ok sn end in
        let* old_size := if is_valid then get_size d m o else Ok 0 in
        if negb (size_acceptable d old_size (u32 (value_size (max_size d) + n)) inc) then Ok (false, m)
        else
          let* m1 := write_value m o (max_size d) n in
          let* m2 := memmove m1 (o + value_size (max_size d)) so n in
          Ok (true, m2)
      else set_datum d m o is_valid inc (seen_in m v)
  | _ => set_datum d m o is_valid inc (seen_in m v)
  end.

(** inc/tuplestore/data_type_info.h:1297-1376
    [set_datum_to_containee_in_container] and its CONTAINITY_UNSAFE part *)
Definition set_own_containee (d : dti) (m : mem) (o i inc : Z) (v : datum) : res (bool * mem) :=
  if negb (is_container_type_info d) then Ok (false, m)
  else
    let* n := get_element_count d m o in
    if n <=? i then Ok (false, m)
    else
      let* pi := get_pos d m o i in
      let t := pi_type pi in
      if is_datum_NULL v then set_null d m o i pi
      else if negb (is_variable_sized_type_info t) then
        let* m1 := if needs_is_valid_bit t
                   then set_bit m (o + offset_of_prefix_bitmap d) (pi_valid pi) else Ok m in
        match type t with
        | BIT_FIELD =>
            let* z := bit_field_value v in
            let* m2 := set_bits m1 (o + offset_of_prefix_bitmap d) (pi_off pi) (pi_off pi + size t - 1) z in
            Ok (true, m2)
        | _ =>
            let* c := get_ptr d m1 o pi in
            match c with
            | Some a => set_own_datum t m1 a true inc v
            | None => UB
            end
        end
      else
        let* m1 := move_to_end d m o i pi in
        let* old_container_size := get_size d m1 o in
        let inc' := Z.min inc (u32 (max_size d - old_container_size)) in
        let* c := get_ptr d m1 o pi in
        let valid := match c with Some _ => true | None => false end in
        let a := match c with Some a => a | None => o + old_container_size end in
        let* old_size := if valid then get_size t m1 a else Ok 0 in
        let* (result, m2) := set_own_datum t m1 a valid inc' v in
        let* m3 := if result && negb valid
                   then write_value m2 (o + pi_off pi) (max_size d) old_container_size else Ok m2 in
        let* m4 := if result && has_size_in_prefix d then
                     let* new_size := get_size t m3 a in
                     write_value m3 (o + 0) (max_size d) (u32 (old_container_size - old_size + new_size))
                   else Ok m3 in
        Ok (result, m4).

(** src/tuple.c:209-273 [set_element_in_tuple_INTERNAL] *)
Fixpoint set_own_internal (d : dti) (pa : list Z) (m : mem) (o : Z) (v : datum) (inc : Z) (var : bool) : res (bool * mem) :=
  match pa with
  | [] => if is_datum_NULL v then Ok (false, m) else set_own_datum d m o true inc v
  | [i] => set_own_containee d m o i inc v
  | i :: pa' =>
      if negb (is_container_type_info d) then Ok (false, m)
      else
        let* n := get_element_count d m o in
        if n <=? i then Ok (false, m)
        else
          let* inc' := if is_variable_sized_type_info d
                       then let* sz := get_size d m o in Ok (Z.min inc (u32 (max_size d - sz)))
                       else Ok inc in
          let* pi := get_pos d m o i in
          let* m1 := if var then move_to_end d m o i pi else Ok m in
          let* c := get_ptr d m1 o pi in
          match c with
          | None => Ok (false, m1)
          | Some a =>
            if var then
              let* container_old := get_size d m1 o in
              let* child_old := containee_size d m1 o pi in
              let* (result, m2) := set_own_internal (pi_type pi) pa' m1 a v inc' var in
              if result : bool then
                let* child_new := containee_size d m2 o pi in
                let* m3 := overwrite_size d m2 o (u32 (container_old - child_old + child_new)) in
                Ok (true, m3)
              else Ok (false, m2)
            else set_own_internal (pi_type pi) pa' m1 a v inc' var
          end
  end.
(** src/tuple.c:275-285 [set_element_in_tuple] with a value that points into the
    tuple *)
Definition set_own_element (d : dti) (pa : list Z) (m : mem) (o : Z) (v : datum) (inc : Z) : res (bool * mem) :=
  match get_type_info d pa with
  | None => Ok (false, m)
  | Some t => set_own_internal d pa m o v inc (is_variable_sized_type_info t)
  end.
(** src/tuple.c:287-312 [set_element_in_tuple_from_tuple] with the same tuple as
    source and target *)
Definition set_element_from_itself (cv : conversions) (d : dti) (pa : list Z) (m : mem) (o : Z) (pa_in : list Z) (inc : Z) : res (bool * mem) :=
  let* v := get_value d pa_in m o in
  match v, get_type_info d pa_in, get_type_info d pa with
  | Some v, Some t_in, Some t =>
      let* same := are_identical t t_in in
      if same : bool then set_own_element d pa m o v inc
      else if is_primitive_numeral t && is_primitive_numeral t_in then
        let* w := type_cast_into cv DEmpty t v t_in in
        match w with Some w => set_own_element d pa m o w inc | None => Ok (false, m) end
      else match type t, type t_in with
           | STRING, STRING | STRING, BINARY | BINARY, STRING | BINARY, BINARY => set_own_element d pa m o v inc
           | _, _ => Ok (false, m)
           end
  | _, _, _ => Ok (false, m)
  end.
