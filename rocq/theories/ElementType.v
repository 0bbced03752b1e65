(** * The type of an element of a container that has data
    (inc/tuplestore/data_type_info.h) *)
From Verif Require Export PosCache.

(** inc/tuplestore/data_type_info.h:559-584
    [get_data_type_info_for_containee_of_container]; [None] is NULL *)
Definition element_type_of (d : dti) (m : mem) (o i : Z) : res (option dti) :=
  if negb (is_container_type_info d) then Ok None
  else
    let* n := get_element_count d m o in
    if n <=? i then Ok None
    else match type d with
         | TUPLE => match nth_error (containees d) (Z.to_nat i) with Some (_, t) => Ok (Some t) | None => UB end
         | STRING | BINARY => Ok (Some uint8_type)
         | _ => Ok (Some (containee d))
         end.
