(** * Datums as containers, comparison of datums and of tuples
    (src/datum.c, src/tuple.c) *)
From Verif Require Export Tuple TypeSerde Numerals.

(** src/datum.c:12-31 [get_element_count_for_datum] *)
Definition element_count_for_datum (v : datum) (d : dti) : res Z :=
  if negb (is_container_type_info d) then Ok 0
  else if is_datum_NULL v then Ok 0
  else match type d with
       | STRING | BINARY => let* (_, _, n) := string_value v in Ok n
       | _ => let* (m, o) := tuple_value v in get_element_count d m o
       end.
(** src/datum.c:33-75 [get_containee_from_datum]: the element and its type;
    [None] is return 0, a type [None] is the pointer NULL *)
Definition get_containee_from_datum (v : datum) (d : dti) (i : Z) : res (option (datum * option dti)) :=
  if negb (is_container_type_info d) then Ok None
  else if is_datum_NULL v then Ok (Some (DNull, None))
  else
    let* n := element_count_for_datum v d in
    if n <=? i then Ok None
    else match type d with
         | STRING | BINARY =>
             let* (m, o, _) := string_value v in
             let* b := rd m (o + i) 1 in
             Ok (Some (DUint (dec b), Some uint8_type))
         | _ =>
             let* (m, o) := tuple_value v in
             let* r := get_containee_datum d m o i in
             match r with
             | None => Ok None
             | Some w => let* p := get_pos d m o i in Ok (Some (w, Some (pi_type p)))
             end
         end.
(** src/datum.c:81-112 [get_nested_containee_from_datum]; the type NULL of an
    element of a NULL container is dereferenced when the path goes on *)
Fixpoint get_nested_containee (v : datum) (d : option dti) (pa : list Z) : res (option (datum * option dti)) :=
  match pa with
  | [] => Ok (Some (v, d))
  | i :: pa' =>
      match d with
      | None => UB
      | Some t =>
          let* r := get_containee_from_datum v t i in
          match r with
          | None => Ok None
          | Some (w, t') => get_nested_containee w t' pa'
          end
      end
  end.

(** src/datum.c:120: the types that can be compared as sequences *)
Definition is_sequence (d : dti) : bool := match type d with STRING | BINARY | ARRAY => true | _ => false end.
(** src/datum.c:114-124 [can_compare_datum] *)
Fixpoint can_compare (a b : dti) : res bool :=
  let* same := are_identical a b in
  if same : bool then Ok true
  else if is_primitive_numeral a && is_primitive_numeral b then Ok true
  else if is_sequence a && is_sequence b then
    match containee_ a, containee_ b with
    | Some x, Some y => can_compare x y
    | _, _ => UB
    end
  else Ok false.

(** src/datum.c:129-134 and 202-207: the tests for NULL *)
Definition compare_nulls (v1 v2 : datum) (otherwise : res Z) : res Z :=
  if is_datum_NULL v1 && is_datum_NULL v2 then Ok 0
  else if is_datum_NULL v1 && negb (is_datum_NULL v2) then Ok (-1)
  else if negb (is_datum_NULL v1) && is_datum_NULL v2 then Ok 1
  else otherwise.
(** src/datum.c:162-175 and alike: [for(i = 0; i < k && cmp == 0; i++) cmp = f(i);] *)
Fixpoint compare_loop (k : nat) (i : Z) (f : Z -> res Z) : res Z :=
  match k with
  | O => Ok 0
  | S k' => let* c := f i in if c =? 0 then compare_loop k' (i + 1) f else Ok c
  end.
(** src/datum.c:176-182 and alike: a proper prefix is less *)
Definition compare_counts (n1 n2 : Z) : Z := if negb (n1 =? n2) then if n2 <? n1 then 1 else -1 else 0.
(** src/datum.c:144-147, 164-167: the element at [i]; NULL when there is none *)
Definition child_of_datum (v : datum) (d : dti) (i : Z) : res (datum * option dti) :=
  let* r := get_containee_from_datum v d i in
  Ok (match r with Some x => x | None => (DNull, None) end).

(** src/datum.c:127-187 [compare_datum_internal].  The type of an element of the
    first value is taken from the type [d1] itself; in the code it comes with
    the element, and is the same pointer whenever the element is not NULL.  The
    type of an element of a STRING or BINARY is UINT_NON_NULLABLE[1], for which
    the function is [compare_primitive]. *)
Fixpoint compare_internal (d1 : dti) (d2 : option dti) (v1 v2 : datum) {struct d1} : res Z :=
  compare_nulls v1 v2
    (match d2 with
     | None => UB
     | Some d2 =>
       if is_primitive_numeral d1 then compare_primitive v1 d1 v2 d2
       else match type d1 with
            | TUPLE =>
                let* n := element_count_for_datum v1 d1 in
                (fix go (cs : list (position * dti)) (i : Z) {struct cs} : res Z :=
                   if n <=? i then Ok 0
                   else match cs with
                        | [] => UB
                        | (_, c) :: cs' =>
                            let* (w1, _) := child_of_datum v1 d1 i in
                            let* (w2, t2) := child_of_datum v2 d2 i in
                            let* cmp := compare_internal c t2 w1 w2 in
                            if cmp =? 0 then go cs' (i + 1) else Ok cmp
                        end) (containees d1) 0
            | _ =>
                let* n1 := element_count_for_datum v1 d1 in
                let* n2 := element_count_for_datum v2 d2 in
                let* cmp := compare_loop (Z.to_nat (Z.min n1 n2)) 0 (fun i =>
                  let* (w1, _) := child_of_datum v1 d1 i in
                  let* (w2, t2) := child_of_datum v2 d2 i in
                  match type d1 with
                  | ARRAY => match containee_ d1 with Some c => compare_internal c t2 w1 w2 | None => UB end
                  | _ => compare_nulls w1 w2 (match t2 with Some t2 => compare_primitive w1 uint8_type w2 t2 | None => UB end)
                  end) in
                Ok (if cmp =? 0 then compare_counts n1 n2 else cmp)
            end
     end).
(** src/datum.c:189-198 [compare_datum] *)
Definition compare_datum (v1 : datum) (d1 : option dti) (v2 : datum) (d2 : option dti) : res Z :=
  let compare := match d1 with Some t => compare_internal t d2 v1 v2 | None => compare_nulls v1 v2 UB end in
  match d1, d2 with
  | Some t1, Some t2 => let* ok := can_compare t1 t2 in if ok : bool then compare else Ok (-2)
  | _, _ => compare
  end.

(** src/datum.c:200-284 [compare_datum_internal2] and 286-289 [compare_datum2].
    The bytes of a STRING or BINARY are compared directly. *)
Fixpoint compare_internal2 (d : dti) (v1 v2 : datum) {struct d} : res Z :=
  compare_nulls v1 v2
    (if is_primitive_numeral d then compare_primitive2 v1 v2 d
     else match type d with
          | TUPLE =>
              let* n := element_count_for_datum v1 d in
              (fix go (cs : list (position * dti)) (i : Z) {struct cs} : res Z :=
                 if n <=? i then Ok 0
                 else match cs with
                      | [] => UB
                      | (_, c) :: cs' =>
                          let* (w1, _) := child_of_datum v1 d i in
                          let* (w2, _) := child_of_datum v2 d i in
                          let* cmp := compare_internal2 c w1 w2 in
                          if cmp =? 0 then go cs' (i + 1) else Ok cmp
                      end) (containees d) 0
          | STRING | BINARY =>
              let* n1 := element_count_for_datum v1 d in
              let* n2 := element_count_for_datum v2 d in
              let* (m1, o1, _) := string_value v1 in
              let* (m2, o2, _) := string_value v2 in
              let* cmp := compare_loop (Z.to_nat (Z.min n1 n2)) 0 (fun i =>
                let* b1 := rd m1 (o1 + i) 1 in
                let* b2 := rd m2 (o2 + i) 1 in
                Ok (compare_numbers (dec b1) (dec b2))) in
              Ok (if cmp =? 0 then compare_counts n1 n2 else cmp)
          | _ =>
              let* n1 := element_count_for_datum v1 d in
              let* n2 := element_count_for_datum v2 d in
              let* cmp := compare_loop (Z.to_nat (Z.min n1 n2)) 0 (fun i =>
                let* (w1, _) := child_of_datum v1 d i in
                let* (w2, _) := child_of_datum v2 d i in
                match containee_ d with Some c => compare_internal2 c w1 w2 | None => UB end) in
              Ok (if cmp =? 0 then compare_counts n1 n2 else cmp)
          end).
Definition compare_datum2 (v1 v2 : datum) (d : option dti) : res Z :=
  match d with Some t => compare_internal2 t v1 v2 | None => compare_nulls v1 v2 UB end.

(** the element at a path; NULL when it is not there (src/tuple.c:554-556 and alike) *)
Definition key_value (d : dti) (pa : list Z) (m : mem) (o : Z) : res datum :=
  let* v := get_value d pa m o in Ok (match v with Some v => v | None => DNull end).
(** src/tuple.c:550-572 [compare_elements_of_tuple].  [same] tells whether the
    types of the two elements are the same pointer. *)
Definition compare_elements_of_tuple (same : bool) (d1 : dti) (pa1 : list Z) (m1 : mem) (o1 : Z)
    (d2 : dti) (pa2 : list Z) (m2 : mem) (o2 : Z) : res Z :=
  let* v1 := key_value d1 pa1 m1 o1 in
  let* v2 := key_value d2 pa2 m2 o2 in
  if same then compare_datum2 v1 v2 (get_type_info d2 pa2)
  else compare_datum v1 (get_type_info d1 pa1) v2 (get_type_info d2 pa2).
(** src/tuple.c:628-644 [compare_elements_of_tuple2] *)
Definition compare_elements_of_tuple2 (d : dti) (pa : list Z) (m1 : mem) (o1 : Z) (m2 : mem) (o2 : Z) : res Z :=
  let* v1 := key_value d pa m1 o1 in
  let* v2 := key_value d pa m2 o2 in
  compare_datum2 v1 v2 (get_type_info d pa).
(** src/tuple.c:595-609 [compare_element_with_datum] *)
Definition compare_element_with_datum (same : bool) (d1 : dti) (pa1 : list Z) (m1 : mem) (o1 : Z) (v2 : datum) (d2 : option dti) : res Z :=
  let* v1 := key_value d1 pa1 m1 o1 in
  if same then compare_datum2 v1 v2 d2 else compare_datum v1 (get_type_info d1 pa1) v2 d2.

(** the loops of src/tuple.c:574-593, 611-626, 646-661, 663-678 over the keys.
    A key comes with its direction, 1 or -1; [cmp_dir == NULL] is 1 for all, and
    [element_ids == NULL] is the positions [0], [1], ... *)
Fixpoint compare_keys {K : Type} (compare : K -> res Z) (keys : list (K * Z)) : res Z :=
  match keys with
  | [] => Ok 0
  | (k, dir) :: keys' =>
      let* c := compare k in
      if c =? -2 then Ok (-2)
      else let c' := c * dir in if c' =? 0 then compare_keys compare keys' else Ok c'
  end.
(** src/tuple.c:646-661 [compare_tuples2] *)
Definition compare_tuples2 (m1 : mem) (o1 : Z) (m2 : mem) (o2 : Z) (d : dti) (keys : list (list Z * Z)) : res Z :=
  compare_keys (fun pa => compare_elements_of_tuple2 d pa m1 o1 m2 o2) keys.
(** src/tuple.c:574-593 [compare_tuples].  [same_def]: the definitions and the
    lists of positions are the same pointers. *)
Definition compare_tuples (same_def : bool) (m1 : mem) (o1 : Z) (d1 : dti) (m2 : mem) (o2 : Z) (d2 : dti)
    (keys : list ((list Z * list Z * bool) * Z)) : res Z :=
  if same_def then compare_tuples2 m1 o1 m2 o2 d2 (map (fun k => (snd (fst (fst k)), snd k)) keys)
  else compare_keys (fun k => let '(pa1, pa2, same) := k in compare_elements_of_tuple same d1 pa1 m1 o1 d2 pa2 m2 o2) keys.
(** src/tuple.c:611-626 [compare_tuple_with_datum] *)
Definition compare_tuple_with_datum (m1 : mem) (o1 : Z) (d1 : dti) (keys : list ((list Z * datum * option dti * bool) * Z)) : res Z :=
  compare_keys (fun k => let '(pa1, v2, d2, same) := k in compare_element_with_datum same d1 pa1 m1 o1 v2 d2) keys.
(** src/tuple.c:663-678 [compare_datums3] *)
Definition compare_datums3 (keys : list ((datum * datum * option dti) * Z)) : res Z :=
  compare_keys (fun k => let '(v1, v2, d) := k in compare_datum2 v1 v2 d) keys.

(** ** set_element_in_tuple_from_tuple

    src/tuple.c:287-312.  Both elements are given by their tuples and paths. *)
Definition set_element_from_tuple (cv : conversions) (d : dti) (pa : list Z) (m : mem) (o : Z)
    (d_in : dti) (pa_in : list Z) (m_in : mem) (o_in inc : Z) : res (bool * mem) :=
  let* v := get_value d_in pa_in m_in o_in in
  match v, get_type_info d_in pa_in, get_type_info d pa with
  | Some v, Some t_in, Some t =>
      let* same := are_identical t t_in in
      if same : bool then set_element d pa m o v inc
      else if is_primitive_numeral t && is_primitive_numeral t_in then
        let* w := type_cast_into cv DEmpty t v t_in in   (* datum uval_in_settable = {} *)
        match w with Some w => set_element d pa m o w inc | None => Ok (false, m) end
      else match type t, type t_in with
           | STRING, STRING | STRING, BINARY | BINARY, STRING | BINARY, BINARY => set_element d pa m o v inc
           | _, _ => Ok (false, m)
           end
  | _, _, _ => Ok (false, m)
  end.
