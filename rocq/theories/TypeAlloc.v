(** * Deserializing types with their memory management (src/data_type_info.c)

    TypeSerde.v has the type that [deserialize_type_info] returns.  Here the same
    function with its calls of [malloc], [free] and [destroy_type_info_recursively]:
    it returns the type together with the address of its struct.  The values of
    the scalar fields are in the type; the structs on the heap are only kept up to
    date in what memory management reads: [is_static], [type] and the pointers. *)
From Verif Require Export TypeHeap TypeSerde.

(** the fields of a struct that are not pointers *)
Definition scalars_of (d : dti) : dti :=
  mk_dti (is_finalized d) (type_name d) (type d) (is_nullable d) (is_variable_sized_ d) (size d) (max_size d)
    (has_variable_element_count d) (element_count_ d) (prefix_bitmap_size_in_bits d) None [].

Section DeserializeAt.
  Variable (malloc : nat -> (Z -> option node) -> Z).
  (** src/data_type_info_defaults.c: the static struct of a numeral type *)
  Variable (static_at : data_type -> bool -> Z -> Z).
  Variable (e : environment) (m : mem).

  (** src/data_type_info.c:583-593 and alike: [malloc], then the struct is assigned *)
  Definition new_type (w : world) (d : dti) (c : Z) : option (dti * Z) * world :=
    let (b, w1) := new malloc w (mk_node false (scalars_of d) c []) in
    if b =? 0 then (None, w1) else (Some (d, b), w1).
  (** the static struct when the name is empty, otherwise a new one *)
  Definition numeral_at (w : world) (d : dti) : option (dti * Z) * world :=
    match type_name d with
    | [] => (Some (d, static_at (type d) (is_nullable d) (size d)), w)
    | _ => new_type w d 0
    end.
  (** :739-821; the type of code 8 or 11 is not the same as a static one *)
  Definition float_at (w : world) (type_no : Z) (d : dti) : option (dti * Z) * world :=
    if (type_no =? 1) || (type_no =? 2) then numeral_at w d else new_type w d 0.
  Definition deserialize_numeral_at (w : world) (ty : data_type) (nu : bool) (limit o n : Z) : res (option (dti * Z) * world) :=
    let* r := deserialize_numeral e m ty nu limit o n in
    Ok (match r with Parsed d => numeral_at w d | _ => (None, w) end).
  (** :920-997; the containee is [UINT_NON_NULLABLE[1]] *)
  Definition deserialize_string_at (w : world) (ty : data_type) (code o n : Z) : res (option (dti * Z) * world) :=
    let* r := deserialize_string m ty code o n in
    Ok (match r with Parsed d => new_type w d (static_at UINT false 1) | _ => (None, w) end).
  (** the numbers in the header of a TUPLE *)
  Definition read_numbers (o n : Z) (two : bool) : res (option (Z * Z)) :=
    let* v1 := read_u32 m o n 1 in
    match v1 with
    | None => Ok None
    | Some v1 =>
        let* v2 := if two then read_u32 m o n 5 else Ok (Some 0) in
        Ok (match v2 with None => None | Some v2 => Some (v1, v2) end)
    end.
  (** [dti_p->containees[i].al.type_info = a], in the order of [i]: the entries
      that are not yet assigned are left out *)
  Definition add_containee (w : world) (b : Z) (p : position) (a : Z) : res world :=
    let* n := deref w b in
    Ok (mk_world (store (heap w) b (Some (mk_node (is_static n) (scalars n) (containee_at n) (containees_at n ++ [(p, a)])))) (mallocs w) (alloc_error w) (called w)).
  (** :1069-1076 DESTROY_ALL_CHILDREN_UNTIL_i_AND_FAIL; [fuel] is enough for any type read *)
  Definition destroy_children (fuel : nat) (w : world) (b : Z) : res world :=
    let* n := deref w b in
    let* w1 := each (destroy_type fuel None) (map snd (containees_at n)) w in
    free w1 b.

  (** :1049-1077, the loop over the elements of a TUPLE at [b]; [f] is
      [deserialize_type_info] *)
  Definition elements_at (f : world -> Z -> Z -> res (option (dti * Z) * world)) (fuel : nat) (o n b : Z) :=
    fix elements (k : nat) (left c : Z) (w : world) : res (option (list (position * dti)) * world) :=
      if left =? 0 then Ok (Some [], w)
      else
        match k with
        | O => UB
        | S k' =>
            let* r := deserialize_name m (o + c) (u32 (n - c)) in
            match r with
            | None => let* w1 := destroy_children fuel w b in Ok (None, w1)
            | Some (fname, l) =>
                let c1 := u32 (c + l) in
                let* (t, w1) := f w (o + c1) (u32 (n - c1)) in
                match t with
                | None => let* w2 := destroy_children fuel w1 b in Ok (None, w2)
                | Some (t, a) =>
                    let t1 := snd (finalize t) in
                    let q := old_position e (o + c) in
                    let p := mk_position fname (p_off q) (p_valid q) in
                    let* w2 := add_containee w1 b p a in
                    let* (cs, w3) := elements k' (left - 1) (u32 (c1 + byte_count t1)) w2 in
                    Ok (match cs with Some cs => Some ((p, t1) :: cs) | None => None end, w3)
                end
            end
        end.

  (** src/data_type_info.c:562-1141 [deserialize_type_info] *)
  Fixpoint deserialize_at (fuel : nat) (w : world) (o n : Z) : res (option (dti * Z) * world) :=
    match fuel with
    | O => UB
    | S fuel' =>
        if n <? 1 then Ok (None, w)
        else
          let* b := rd m o 1 in
          let code := dec b in
          match (if 2 <=? n then numeral_code code else None) with
          | Some (ty, nu, limit) => deserialize_numeral_at w ty nu limit o n
          | None =>
            if (5 <? code) && (code <=? 11) then
              let* r := deserialize_name m (o + 1) (u32 (n - 1)) in
              match r with
              | None => Ok (None, w)
              | Some (name, _) =>
                  let nu := code <=? 8 in
                  let type_no := if nu then code - 5 else code - 8 in
                  Ok (float_at w type_no (float_type e nu type_no name))
              end
            else if (120 <=? code) && (code <=? 122) then deserialize_string_at w STRING (code - 120) o n
            else if (123 <=? code) && (code <=? 125) then deserialize_string_at w BINARY (code - 123) o n
            else if (126 <=? code) && (code <=? 128) then
              (* :998-1081, TUPLE *)
              let* h := read_numbers o n (code =? 128) in
              match h with
              | None => Ok (None, w)
              | Some (count, ms) =>
                  let nu := if code =? 128 then true else code =? 126 in
                  let (b, w1) := new malloc w (mk_node false (mk_dti false [] TUPLE nu false 0 ms false 0 0 None []) 0 []) in
                  if b =? 0 then Ok (None, w1)
                  else
                    let c0 := if code =? 128 then 9 else 5 in
                    let* r := deserialize_name m (o + c0) (u32 (n - c0)) in
                    match r with
                    | None => let* w2 := free w1 b in Ok (None, w2)
                    | Some (name, l) =>
                        let* (cs, w2) := elements_at (deserialize_at fuel') (S fuel') o n b fuel' count (u32 (c0 + l)) w1 in
                        let old := old_struct e o in
                        Ok (match cs with
                            | Some cs => Some (mk_dti false name TUPLE nu (is_variable_sized_ old) (size old) ms false (element_count_ old)
                                                 (prefix_bitmap_size_in_bits old) (containee_ old) cs, b)
                            | None => None
                            end, w2)
                    end
              end
            else if (129 <=? code) && (code <=? 132) then
              (* :1082-1138, ARRAY *)
              let* h := read_header m o n (code =? 131) in
              match h with
              | None => Ok (None, w)
              | Some (v1, v2, name, c) =>
                  let* (t, w1) := deserialize_at fuel' w (o + c) (u32 (n - c)) in
                  match t with
                  | None => Ok (None, w1)
                  | Some (t, a) =>
                      let d := if code <=? 130 then mk_dti false name ARRAY (code =? 129) false 0 0 false v1 0 (Some t) []
                               else if code <=? 131 then mk_dti false name ARRAY true false 0 v2 false v1 0 (Some t) []
                               else mk_dti false name ARRAY false false 0 v1 true 0 0 (Some t) [] in
                      let (r, w2) := new_type w1 d a in
                      match r with
                      | None => let* w3 := destroy_type (S fuel') None w2 a in Ok (None, w3)
                      | Some _ => Ok (r, w2)
                      end
                  end
              end
            else Ok (None, w)
          end
    end.
End DeserializeAt.
(** the function of the code; the result is the type and its address, [None] is NULL *)
Definition deserialize_type_info_at (malloc : nat -> (Z -> option node) -> Z) (static_at : data_type -> bool -> Z -> Z)
    (e : environment) (m : mem) (w : world) (o n : Z) : res (option (dti * Z) * world) :=
  deserialize_at malloc static_at e m (S (length m)) w o n.
