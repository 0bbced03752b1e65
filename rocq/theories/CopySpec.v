(** * What copying an element from another tuple must do

    Specification for C60, from the description of
    [set_element_in_tuple_from_tuple] in tuple.h.  The two tuples are different
    buffers (in the examples two with the same bytes). *)
From Verif Require Export SuccessSpec NumeralSpec Compare.

(** the call has the type [t] for its target, [t_in] for its source, and the
    target tuple has the room the caller promises *)
Definition copying (d : dti) (pa : list Z) (m : mem) (o inc : Z) (t : dti) (d_in : dti) (pa_in : list Z) (m_in : mem) (o_in : Z) (t_in : dti) : Prop :=
  data_at d m o /\ path_ok pa /\ room d m o inc /\ data_at d_in m_in o_in /\ path_ok pa_in
  /\ get_type_info d pa = Some t /\ get_type_info d_in pa_in = Some t_in /\ short_names t /\ short_names t_in.

(** the outcome [r], [m'] is that of storing [w] in the element at [pa]: it
    succeeds exactly when [w] can be set (C55), everything else stays (C33), the
    size is respected (C34), and the value is read back (C32) *)
Definition is_set_to (d : dti) (pa : list Z) (m : mem) (o : Z) (t : dti) (w : datum) (inc : Z) (r : bool) (m' : mem) : Prop :=
  (r = true <-> settable d pa m o t w inc)
  /\ data_at d m' o /\ leaves_others d pa m o r m' /\ respects_size d m o inc r m'
  /\ (r = true -> exists y, observe d pa m' o = Ok (Some y) /\ reads_back t w y).

(** the integer that was read, and a datum of the integer type [t] for it *)
Definition integer_read (x : obs) : option Z :=
  match x with OBits z | OUint z | OInt z | OLargeUint z | OLargeInt z => Some z | _ => None end.
Definition integer_datum (t : dti) (z : Z) : datum :=
  match type t with
  | BIT_FIELD => DBits z | UINT => DUint z | INT => DInt z | LARGE_UINT => DLargeUint z | LARGE_INT => DLargeInt z
  | _ => DNull
  end.
