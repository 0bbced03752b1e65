(** * The same contents, and histories that leave no unspecified bytes

    A value shorter than a fixed size BINARY leaves the rest of it unspecified
    (tuple.h; [string_of] in TreeSpec.v).  All other calls say exactly what the
    tuple holds afterwards. *)
From Verif Require Export TreeSpec SuccessSpec CompareSpec.

(** two tuples of one definition, whatever their bytes and their place, with
    the same contents *)
Definition same_contents (d : dti) (m1 : mem) (o1 : Z) (m2 : mem) (o2 : Z) : Prop :=
  data_at d m1 o1 /\ data_at d m2 o2 /\ exists T, has_tree d m1 o1 [] T /\ has_tree d m2 o2 [] T.

(** storing [v] in an element of type [t] leaves no unspecified bytes *)
Definition specified (t : dti) (v : datum) : Prop := type t = BINARY -> t_variable t = false -> v <> DNull -> size t <= zlen (str_of v).
Definition op_specified (d : dti) (op : operation) : Prop :=
  match op with Set_element pa v _ => forall t, get_type_info d pa = Some t -> specified t v | _ => True end.
