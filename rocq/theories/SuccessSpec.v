(** * When setting, expanding and discarding succeed, and what size data has

    Specifications for the theorems of SuccessProps.v, from the descriptions in
    tuple.h, data_type_info.h and README. *)
From Verif Require Export ReadSpec.

(** the place of the element at [pa] is there: its container is present and has
    more elements than the last position *)
Definition place_exists (d : dti) (pa : list Z) (m : mem) (o : Z) : Prop :=
  pa = [] \/ exists pb i t a n, pa = pb ++ [i] /\ element_at d pb m o t a /\ get_element_count t m a = Ok n /\ i < n.

(** bytes that the element at [pa] takes; none when it is NULL *)
Definition bytes_held (d : dti) (pa : list Z) (m : mem) (o s : Z) : Prop :=
  (get_value d pa m o = Ok (Some DNull) /\ s = 0) \/ (exists t a, element_at d pa m o t a /\ get_size t m a = Ok s).
(** bytes of a variable sized element of type [t] that stores [v] *)
Definition bytes_needed (t : dti) (v : datum) (s : Z) : Prop :=
  match v with
  | DStr _ _ _ => s = value_size (max_size t) + zlen (match type t with STRING => cut0 (str_of v) | _ => str_of v end)
  | DPtr vm vo => get_size t vm vo = Ok s
  | DEmpty => s = t_size t
  | _ => False
  end.

(** [g] more bytes are allowed for the element at [pa]: by the caller, and by
    the maximum size of every container that encloses it *)
Definition growth_allowed (d : dti) (pa : list Z) (m : mem) (o inc g : Z) : Prop :=
  g <= inc
  /\ forall pb pc t a s, pa = pb ++ pc -> pc <> [] -> element_at d pb m o t a -> t_variable t = true -> get_size t m a = Ok s -> s + g <= max_size t.
(** an element of type [t] at [pa] may change from [s] to [s'] bytes *)
Definition resizable (d : dti) (pa : list Z) (m : mem) (o inc : Z) (t : dti) (s s' : Z) : Prop :=
  s' <= max_size t /\ (s < s' -> growth_allowed d pa m o inc (s' - s)).

(** NULL needs a nullable element inside a container, a value of variable size
    needs room *)
Definition settable (d : dti) (pa : list Z) (m : mem) (o : Z) (t : dti) (v : datum) (inc : Z) : Prop :=
  place_exists d pa m o
  /\ match v with
     | DNull => pa <> [] /\ nullable t = true
     | _ => t_variable t = true -> exists s s', bytes_held d pa m o s /\ bytes_needed t v s' /\ resizable d pa m o inc t s s'
     end.

(** bytes of a container of type [t] of [s] bytes and [n] elements when [slots]
    unset elements are added *)
Definition expanded_size (t : dti) (s n slots : Z) : Z :=
  let c := containee t in
  if t_variable c then s + slots * value_size (max_size t)
  else prefix_bytes t + bytes_of_bits ((n + slots) * bits_in_bitmap c) + (n + slots) * slot_bytes (max_size t) c (t_size c).
Definition expandable (d : dti) (pa : list Z) (m : mem) (o index slots inc : Z) : Prop :=
  exists t a s n, element_at d pa m o t a /\ stores_count t = true /\ get_size t m a = Ok s /\ get_element_count t m a = Ok n
    /\ index <= n /\ (slots = 0 \/ resizable d pa m o inc t s (expanded_size t s n slots)).
Definition discardable (d : dti) (pa : list Z) (m : mem) (o index slots : Z) : Prop :=
  exists t a n, element_at d pa m o t a /\ stores_count t = true /\ get_element_count t m a = Ok n /\ index < n /\ index + slots <= n.

(** ** sizes *)
(** bytes of the part of a container of [n] elements that does not depend on
    their values: the prefix, the bitmap, fixed size elements and offsets *)
Definition fixed_part (t : dti) (n : Z) : Z :=
  match type t with
  | TUPLE => t_size t
  | _ => prefix_bytes t + bytes_of_bits (n * bits_in_bitmap (containee t)) + n * slot_bytes (max_size t) (containee t) (t_size (containee t))
  end.
(** bytes of the variable part: those of the elements [i], [i + 1], ... of
    variable size, one after the other *)
Inductive variable_part (d : dti) (m : mem) (o : Z) : Z -> list Z -> Prop :=
| vp_nil i : variable_part d m o i []
| vp_cons i t s r : get_type_info d [i] = Some t -> (if t_variable t then bytes_held d [i] m o s else s = 0) ->
    variable_part d m o (i + 1) r -> variable_part d m o i (s :: r).
Definition total (l : list Z) : Z := fold_right Z.add 0 l.

(** ** the growth an element has left *)
(** every container around the element at [pa], and the element itself, allows
    [k] more bytes *)
Definition all_allow (d : dti) (pa : list Z) (m : mem) (o k : Z) : Prop :=
  forall pb pc t a s, pa = pb ++ pc -> element_at d pb m o t a -> get_size t m a = Ok s -> s + k <= max_size t.
(** the element at [pa] is there, not NULL, and of variable size *)
Definition can_vary (d : dti) (pa : list Z) (m : mem) (o : Z) : Prop := exists t a, element_at d pa m o t a /\ t_variable t = true.

(** the position is inside an element that is NULL *)
Definition below_null (d : dti) (pa : list Z) (m : mem) (o : Z) : Prop := exists pb pc, pa = pb ++ pc /\ pc <> [] /\ get_value d pb m o = Ok (Some DNull).
