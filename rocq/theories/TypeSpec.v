(** * What a finalized type must look like

    Mathematical (unbounded) layout of a type, written from the description in
    README and data_type_info.h and not from the code of finalize_type_info. *)
From Verif Require Export DataType Spec.

(** is the type variable sized: a variable length STRING / BINARY, a TUPLE
    with a variable sized element, an ARRAY of variable length or of variable
    sized elements *)
Fixpoint t_variable (t : dti) : bool :=
  match type t with
  | STRING | BINARY => has_variable_element_count t
  | TUPLE => (fix any cs := match cs with [] => false | (_, c) :: cs' => t_variable c || any cs' end) (containees t)
  | ARRAY => has_variable_element_count t || match containee_ t with Some c => t_variable c | None => false end
  | _ => false
  end.

Definition is_bit_field (t : dti) : bool := data_type_eqb (type t) BIT_FIELD.
(** bits that an element of type [t] occupies in the prefix bitmap: a validity
    bit for nullable fixed size elements, and the bits of a bit field *)
Definition validity_bits (t : dti) : Z := if negb (t_variable t) && is_nullable t then 1 else 0.
Definition bits_in_bitmap (t : dti) : Z := validity_bits t + (if is_bit_field t then size t else 0).
Definition bytes_of_bits (n : Z) : Z := (n + 7) / 8.

(** bytes of an element of type [t] and size [sz] in the fixed part of a
    container with maximum size [ms]: an offset for variable sized elements *)
Definition slot_bytes (ms : Z) (t : dti) (sz : Z) : Z :=
  if is_bit_field t then 0 else if t_variable t then value_size ms else sz.

(** size of a fixed size type, smallest size of a variable sized one (number
    of bits of a bit field) *)
Fixpoint t_size (t : dti) : Z :=
  match type t with
  | STRING | BINARY =>
      if has_variable_element_count t then value_size (max_size t) else element_count_ t
  | TUPLE =>
      (if t_variable t then value_size (max_size t) else 0)
      + bytes_of_bits ((fix go cs := match cs with [] => 0 | (_, c) :: cs' => bits_in_bitmap c + go cs' end) (containees t))
      + (fix go cs := match cs with [] => 0 | (_, c) :: cs' => slot_bytes (max_size t) c (t_size c) + go cs' end) (containees t)
  | ARRAY =>
      match containee_ t with
      | None => 0
      | Some c =>
          (if t_variable c then value_size (max_size t) else 0)
          + (if has_variable_element_count t then value_size (max_size t)
             else bytes_of_bits (element_count_ t * bits_in_bitmap c)
                  + element_count_ t * slot_bytes (max_size t) c (t_size c))
      end
  | _ => size t
  end.

(** every size in the type, computed without wrap-around, is within the
    documented limit; the fields are [uint32_t] *)
Fixpoint within_limits (t : dti) : Prop :=
  0 <= size t < 4294967296 /\ 0 <= max_size t <= max_bytes /\ (0 <= element_count_ t < 4294967296 /\ zlen (containees t) < 4294967296)
  /\ (is_bit_field t = false -> t_size t <= max_bytes)
  /\ match type t with
     | TUPLE => (fix all (cs : list (position * dti)) := match cs with [] => True | (_, c) :: cs' => within_limits c /\ all cs' end) (containees t)
     | ARRAY => match containee_ t with Some c => within_limits c | None => True end
     | _ => True
     end.

(** types as a user can obtain them: a new struct, within the documented
    limits, around such types, or the result of a successful
    [finalize_type_info] *)
Inductive type_built : dti -> Prop :=
| tb_new t : is_finalized t = false -> within_limits t ->
    (type t = ARRAY -> containee_ t <> None) ->
    (forall c, type t = ARRAY -> containee_ t = Some c -> type_built c) ->
    (forall p c, type t = TUPLE -> In (p, c) (containees t) -> type_built c) ->
    type_built t
| tb_finalized t d : type_built t -> finalize t = (true, d) -> type_built d.
