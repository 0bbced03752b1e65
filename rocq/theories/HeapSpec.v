(** * What cloning and destroying types must do

    Specification for C61, from the descriptions in data_type_info.h. *)
From Verif Require Export TypeHeap.

(** the structs that a type consists of: a static one, or one from [malloc]
    with those it points to *)
Inductive shape := Static (a : Z) | Block (a : Z) (parts : list shape).
Definition root (t : shape) : Z := match t with Static a | Block a _ => a end.
(** the blocks to be freed, and the static structs, one for each pointer to it *)
Fixpoint blocks (t : shape) : list Z := match t with Static _ => [] | Block a ps => a :: flat_map blocks ps end.
Fixpoint statics (t : shape) : list Z := match t with Static a => [a] | Block _ ps => flat_map statics ps end.
Fixpoint depth (t : shape) : nat := match t with Static _ => 1%nat | Block _ ps => S (fold_right Nat.max 0%nat (map depth ps)) end.

(** the pointers to other types of a struct: [containee] for STRING, BINARY and
    ARRAY, [containees] for TUPLE *)
Definition links (n : node) : list Z :=
  match type (scalars n) with
  | STRING | BINARY | ARRAY => [containee_at n]
  | TUPLE => map snd (containees_at n)
  | _ => []
  end.
(** the structs from the root of [t] on have the shape [t] *)
Fixpoint shape_at (h : Z -> option node) (t : shape) : Prop :=
  match t with
  | Static a => exists n, h a = Some n /\ is_static n = true
  | Block a ps => exists n, h a = Some n /\ is_static n = false /\ links n = map root ps
      /\ (fix all ps := match ps with [] => True | p :: ps' => shape_at h p /\ all ps' end) ps
  end.

(** the structs from [a] on make up the type [d] of the other models *)
Definition same_scalars (n : node) (d : dti) : Prop :=
  scalars n = mk_dti (is_finalized d) (type_name d) (type d) (is_nullable d) (is_variable_sized_ d) (size d) (max_size d)
    (has_variable_element_count d) (element_count_ d) (prefix_bitmap_size_in_bits d) None [].
Fixpoint describes (h : Z -> option node) (a : Z) (d : dti) : Prop :=
  exists n, h a = Some n /\ same_scalars n d
  /\ match type d with
     | STRING | BINARY | ARRAY => match containee_ d with Some c => describes h (containee_at n) c | None => False end
     | TUPLE =>
         (fix all (cs : list (position * dti)) (ls : list (position * Z)) : Prop :=
            match cs, ls with
            | [], [] => True
            | (p, c) :: cs', (q, b) :: ls' => p = q /\ describes h b c /\ all cs' ls'
            | _, _ => False
            end) (containees d) (containees_at n)
     | _ => True
     end.

(** calls of a callback for a list of structs; none without a callback *)
Definition calls (cb : option Z) (l : list Z) : list (Z * Z) := match cb with None => [] | Some c => map (pair c) l end.
(** the allocator returns only addresses that are not in use *)
Definition allocates (malloc : nat -> (Z -> option node) -> Z) : Prop := forall k h, malloc k h <> 0 -> h (malloc k h) = None.

(** ** deserializing a type, C62 *)
(** the structs from [a] on are a type with the same tree as [d]: the kind of each
    struct and the names of the fields *)
Fixpoint laid_out (h : Z -> option node) (a : Z) (d : dti) : Prop :=
  exists n, h a = Some n /\ type (scalars n) = type d
  /\ match type d with
     | STRING | BINARY => exists c, h (containee_at n) = Some c /\ type (scalars c) = UINT
     | ARRAY => match containee_ d with Some c => laid_out h (containee_at n) c | None => False end
     | TUPLE =>
         (fix all (cs : list (position * dti)) (ls : list (position * Z)) : Prop :=
            match cs, ls with
            | [], [] => True
            | (p, c) :: cs', (q, b) :: ls' => field_name q = field_name p /\ laid_out h b c /\ all cs' ls'
            | _, _ => False
            end) (containees d) (containees_at n)
     | _ => True
     end.
Definition numeral_kind (ty : data_type) : Prop := match ty with STRING | BINARY | TUPLE | ARRAY => False | _ => True end.
(** the static types of the library exist *)
Definition statics_exist (static_at : data_type -> bool -> Z -> Z) (h : Z -> option node) : Prop :=
  forall ty nu sz, numeral_kind ty -> exists n, h (static_at ty nu sz) = Some n /\ is_static n = true /\ type (scalars n) = ty.
