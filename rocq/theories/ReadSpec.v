(** * What is read before and after an operation

    Specifications for the theorems of TupleProps.v, in terms of what a user
    reads at paths ([observe]) and of the described types. *)
From Verif Require Export TupleSpec.

(** neither path encloses the other *)
Definition unrelated (p q : list Z) : Prop := ~ (exists r, q = p ++ r) /\ ~ (exists r, p = q ++ r).

(** the same value is read; for a TUPLE or ARRAY as a whole the bytes may be
    arranged differently (its elements are read at longer paths) *)
Definition same_reading (a b : res (option obs)) : Prop :=
  a = b \/ exists x y, a = Ok (Some (OData x)) /\ b = Ok (Some (OData y)).

(** the value of an element that has not been set *)
Definition zero_value (t : dti) : obs :=
  match type t with
  | BIT_FIELD => OBits 0
  | UINT => OUint 0
  | INT => OInt 0
  | FLOAT => if size t =? 4 then OFloat 0 else ODouble 0
  | LARGE_UINT => OLargeUint 0
  | LARGE_INT => OLargeInt 0
  | STRING => OStr []
  | BINARY => OStr (if has_variable_element_count t then [] else repeat Byte.x00 (Z.to_nat (element_count_ t)))
  | TUPLE | ARRAY => OData (repeat Byte.x00 (Z.to_nat (t_size t)))
  end.
(** number of elements when none have been added *)
Definition min_elements (t : dti) : Z :=
  match type t with
  | TUPLE => zlen (containees t)
  | STRING | BINARY | ARRAY => if has_variable_element_count t then 0 else element_count_ t
  | _ => 0
  end.
(** elements that may be NULL: nullable and variable sized ones *)
Definition nullable (t : dti) : bool := is_nullable t || t_variable t.
(** what is read at path [pa] in data of type [t] that has not been set:
    nullable elements are NULL, others have their zero value *)
Fixpoint unset_reading (t : dti) (pa : list Z) : option obs :=
  match pa with
  | [] => Some (zero_value t)
  | i :: pa' =>
      if i <? min_elements t then
        match get_type_info t [i] with
        | None => None
        | Some c => if nullable c then Some ONull else unset_reading c pa'
        end
      else None
  end.
(** the same for an element of type [t] of a container *)
Definition unset_element (t : dti) (pa : list Z) : option obs :=
  if nullable t then Some ONull else unset_reading t pa.

(** ** layout: parts of a container as (first bit, number of bits) *)
Definition part : Set := Z * Z.
Definition apart (a b : part) : Prop := fst a + snd a <= fst b \/ fst b + snd b <= fst a.
Definition part_within (bits : Z) (a : part) : Prop := 0 <= fst a /\ 0 <= snd a /\ fst a + snd a <= bits.
(** does the data start with its size *)
Definition starts_with_size (t : dti) : bool :=
  match type t with
  | TUPLE => t_variable t
  | ARRAY => match containee_ t with Some c => t_variable c | None => false end
  | _ => false
  end.
(** is the number of elements stored in the data *)
Definition stores_count (t : dti) : bool :=
  match type t with STRING | BINARY | ARRAY => has_variable_element_count t | _ => false end.
Definition prefix_parts (t : dti) : list part :=
  let w := 8 * value_size (max_size t) in
  (if starts_with_size t then [(0, w)] else [])
  ++ (if stores_count t then [(if starts_with_size t then w else 0, w)] else []).
Definition prefix_bytes (t : dti) : Z :=
  (if starts_with_size t then value_size (max_size t) else 0) + (if stores_count t then value_size (max_size t) else 0).
(** validity bit, and bits or bytes, of an element at a position *)
Definition element_parts (t : dti) (p : pinfo) : list part :=
  let c := pi_type p in
  (if validity_bits c =? 1 then [(8 * prefix_bytes t + pi_valid p, 1)] else [])
  ++ [if is_bit_field c then (8 * prefix_bytes t + pi_off p, size c)
      else (8 * pi_off p, 8 * slot_bytes (max_size t) c (t_size c))].

(** ** what set, expand and discard guarantee for everything else *)
(** elements elsewhere read the same and have the same number of elements; the
    containers on the path keep their number of elements; a refused operation
    leaves every reading as it was *)
Definition leaves_others (d : dti) (pa : list Z) (m : mem) (o : Z) (r : bool) (m' : mem) : Prop :=
  (forall pb, path_ok pb -> unrelated pa pb -> observe d pb m' o = observe d pb m o /\ element_count_of d pb m' o = element_count_of d pb m o)
  /\ (forall pb pc, path_ok pb -> pc <> [] -> pa = pb ++ pc -> element_count_of d pb m' o = element_count_of d pb m o)
  /\ (r = false -> forall pb, path_ok pb -> same_reading (observe d pb m o) (observe d pb m' o) /\ element_count_of d pb m' o = element_count_of d pb m o).
(** the new size is within the old size plus [inc] and the maximum size; no
    byte beyond the old and the new data changes; the new size is exact: any
    copy of that many bytes reads the same *)
Definition respects_size (d : dti) (m : mem) (o inc : Z) (r : bool) (m' : mem) : Prop :=
  zlen m' = zlen m
  /\ exists s s', get_size d m o = Ok s /\ get_size d m' o = Ok s' /\ s' <= s + inc /\ (r = false -> s' = s)
     /\ (t_variable d = true -> s' <= max_size d) /\ (t_variable d = false -> s' = t_size d)
     /\ o + s' <= zlen m'
     /\ (forall k, 0 <= k < zlen m -> k < o \/ o + Z.max s s' <= k -> nth_error m' (Z.to_nat k) = nth_error m (Z.to_nat k))
     /\ (forall m2 o2, 0 <= o2 -> o2 + s' <= zlen m2 -> slice m2 o2 s' = slice m' o s' ->
           forall pb, path_ok pb -> observe d pb m2 o2 = observe d pb m' o /\ element_count_of d pb m2 o2 = element_count_of d pb m' o).
