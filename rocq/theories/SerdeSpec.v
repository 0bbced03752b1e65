(** * What serialized type descriptions and type comparison mean

    Written from the comments in data_type_info.h, on the fields of a type that
    a user sets and the mathematical layout of [TypeSpec]. *)
From Verif Require Export TypeSpec TypeSerde.

(** the C string in a [char[64]] *)
Fixpoint until_zero (n : list byte) : list byte :=
  match n with [] => [] | b :: n' => if b2z b =? 0 then [] else b :: until_zero n' end.
Definition c_string (n : list byte) : list byte := until_zero (firstn 64 n).

(** the two types were described in the same way; the field names of tuples
    count only if [fields] is set *)
Fixpoint same_description (fields : bool) (a b : dti) : Prop :=
  type a = type b /\ c_string (type_name a) = c_string (type_name b)
  /\ t_variable a = t_variable b
  /\ (if t_variable a then max_size a = max_size b else is_nullable a = is_nullable b)
  /\ match type a with
     | STRING | BINARY => t_variable a = false -> element_count_ a = element_count_ b
     | TUPLE =>
         (fix all (l r : list (position * dti)) : Prop :=
            match l, r with
            | [], [] => True
            | (p, x) :: l', (q, y) :: r' =>
                (fields = true -> c_string (field_name p) = c_string (field_name q))
                /\ same_description fields x y /\ all l' r'
            | _, _ => False
            end) (containees a) (containees b)
     | ARRAY =>
         has_variable_element_count a = has_variable_element_count b
         /\ (has_variable_element_count a = false -> element_count_ a = element_count_ b)
         /\ match containee_ a, containee_ b with
            | Some x, Some y => same_description fields x y
            | _, _ => False
            end
     | _ => size a = size b
     end.

(** no name of a type (of a field if [fields]) fills all its 64 bytes *)
Fixpoint short_names (t : dti) : Prop :=
  zlen (c_string (type_name t)) < 64
  /\ match type t with
     | TUPLE => (fix all (cs : list (position * dti)) : Prop :=
                   match cs with [] => True | (_, c) :: cs' => short_names c /\ all cs' end) (containees t)
     | ARRAY => match containee_ t with Some c => short_names c | None => True end
     | _ => True
     end.

(** length of the serialized description of a type *)
Definition name_bytes (n : list byte) : Z := Z.min 64 (zlen (c_string n) + 1).
Fixpoint description_length (t : dti) : Z :=
  1 + name_bytes (type_name t)
  + match type t with
    | FLOAT => 0
    | STRING | BINARY => 4
    | TUPLE =>
        (if t_variable t then 8 else 4)
        + (fix go (cs : list (position * dti)) : Z :=
             match cs with [] => 0 | (p, c) :: cs' => name_bytes (field_name p) + description_length c + go cs' end) (containees t)
    | ARRAY =>
        (if t_variable t then if has_variable_element_count t then 4 else 8 else 4)
        + match containee_ t with Some c => description_length c | None => 0 end
    | _ => 1
    end.

(** the types that finalization must accept: numerals of a supported size,
    containers with at least one element when their number is fixed, whose
    smallest possible value does not exceed the maximum size *)
Fixpoint acceptable (t : dti) : Prop :=
  (t_variable t = true -> t_size t <= max_size t)
  /\ match type t with
     | BIT_FIELD => 1 <= size t <= 64
     | UINT | INT => 1 <= size t <= 8
     | FLOAT => size t = 4 \/ size t = 8
     | LARGE_UINT | LARGE_INT => 1 <= size t <= 32
     | STRING | BINARY => t_variable t = false -> element_count_ t <> 0
     | TUPLE =>
         containees t <> []
         /\ (fix all (cs : list (position * dti)) : Prop :=
               match cs with [] => True | (_, c) :: cs' => acceptable c /\ all cs' end) (containees t)
     | ARRAY =>
         (has_variable_element_count t = false -> element_count_ t <> 0)
         /\ match containee_ t with Some c => acceptable c | None => False end
     end.
