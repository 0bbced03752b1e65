(** * A page that several programs use

    A table is kept as bytes: the page, the serialized type of its tuples and,
    if the user likes, the serialized tuple size definition.  Any program that
    has read those descriptions may go on with the page, and the programs may
    take turns. *)
From Verif Require Export TableSpec SerdeSpec DeserFacts.

(** [bs] is what [serialize_type_info] stored for the type [t], [sbs] what
    [serialize_tuple_size_def] stored for the size definition [d] *)
Definition stored (t : dti) (d : size_def) (bs sbs : list byte) : Prop :=
  (exists m o n m', 0 <= o /\ o + description_length t <= zlen m
     /\ serialize_type_info t m o = Ok (n, m') /\ bs = slice m' o n)
  /\ sbs = serialize_size_def d.

(** the type [ty] was read from memory that has the bytes [bs], and finalized
    to [t]; [e] is what the memory that [malloc] returned contained *)
Definition type_read (bs : list byte) (ty t : dti) : Prop :=
  exists e m o n, valid_environment e /\ 0 <= o /\ o + n <= zlen m /\ zlen bs <= n < 4294967296 /\ slice m o (zlen bs) = bs
  /\ deserialize_type_info e m o n = Ok (Some ty) /\ finalize ty = (true, t).
(** the size definition [d] was read from memory that starts with [sbs] *)
Definition size_read (sbs : list byte) (d : size_def) : Prop :=
  exists any rest n, zlen sbs <= n <= zlen (sbs ++ rest) /\ deserialize_size_def any (sbs ++ rest) n = Ok (Some d).

(** a program that may use the page: the one that wrote the descriptions, or
    one that read the type, and read the size definition or made it from the
    type *)
Definition user (dw : size_def) (tyw tw : dti) (bs sbs : list byte) (d : size_def) (ty t : dti) : Prop :=
  (d = dw /\ ty = tyw /\ t = tw)
  \/ (type_read bs ty t /\ ((exists any, initialize_size_def any ty = Some d) \/ size_read sbs d)).

(** the limits of the documentation *)
Definition shared_setup (ps h : Z) (dw : size_def) (tyw tw : dti) (bs sbs : list byte) : Prop :=
  table_setup ps h dw tyw tw /\ stored tw dw bs sbs /\ short_names tw /\ description_length tw < 4294967296.

Section Shared.
Variables (ps h : Z) (dw : size_def) (tyw tw : dti) (bs sbs : list byte).
(** the pages that the users make, in turn *)
Inductive shared : mem -> Prop :=
| shared_init d ty t p0 p : user dw tyw tw bs sbs d ty t -> zlen p0 = ps -> init_page p0 ps h d = Ok (true, p) -> shared p
| shared_next d ty t p op r p' : shared p -> user dw tyw tw bs sbs d ty t -> table_allowed h t op ->
    run_table ps d t op p = Ok (r, p') -> shared p'.
(** [c] are the rows, whoever looks *)
Definition all_see (p : mem) (c : list (option tree)) : Prop :=
  forall d ty t, user dw tyw tw bs sbs d ty t -> rows_on_page ps d t p c.

(** any schedule of operations of the users *)
Inductive shared_history : mem -> list (dti * table_op * answer) -> mem -> Prop :=
| shh_nil p : shared_history p [] p
| shh_cons d ty t p op r p1 l p2 : user dw tyw tw bs sbs d ty t -> table_allowed h t op -> run_table ps d t op p = Ok (r, p1) ->
    shared_history p1 l p2 -> shared_history p ((t, op, r) :: l) p2.
End Shared.
Inductive shared_rows : list (option tree) -> list (dti * table_op * answer) -> list (option tree) -> Prop :=
| shr_nil c : shared_rows c [] c
| shr_cons c t op r c1 l c2 : row_effect t op c r c1 -> shared_rows c1 l c2 -> shared_rows c ((t, op, r) :: l) c2.
