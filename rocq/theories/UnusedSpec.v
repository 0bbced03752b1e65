(** * Bytes of a page that are not in use

    [in_use] is in ImageSpec.v: the header, the counts and bits, the slots of
    the entries and the bytes of the tuples. *)
From Verif Require Export ImageSpec.
From Verif Require PageElement.

(** [q] has the bytes of [p] wherever these are in use on [p], and any bytes elsewhere *)
Definition same_used (ps : Z) (d : size_def) (p q : mem) : Prop :=
  zlen q = ps /\ exists c a, contents ps d p = Ok c /\ get_space_allotted_to_all_tuples_on_page p ps d = Ok a
  /\ forall o, 0 <= o < ps -> in_use ps d p c a o -> nth (Z.to_nat o) q Byte.x00 = nth (Z.to_nat o) p Byte.x00.

(** the same header, the same entries, at the same places *)
Definition same_places (ps : Z) (d : size_def) (p q : mem) : Prop :=
  header ps q = header ps p /\ contents ps d q = contents ps d p
  /\ forall i, is_u32 i -> get_nth_tuple_on_page q ps d i = get_nth_tuple_on_page p ps d i.
(** and every query has the same answer *)
Definition same_answers (ps : Z) (d : size_def) (p q : mem) : Prop :=
  same_places ps d p q /\ forall u, query_ok d u -> run_query ps d u q = run_query ps d u p.

(** the same operations are run on both pages, which were [p0] and [q0] *)
Inductive together (ps h : Z) (d : size_def) (p0 q0 : mem) : mem -> mem -> Prop :=
| together_start : together ps h d p0 q0 p0 q0
| together_op p q op r p' s q' : together ps h d p0 q0 p q -> op_ok h d op ->
    run_op ps d op p = Ok (r, p') -> run_op ps d op q = Ok (s, q') -> together ps h d p0 q0 p' q'
| together_set p q ty t i pa v r p' s q' : together ps h d p0 q0 p q -> in_place_ok ps d p ty t i pa v ->
    PageElement.set_element_in_place p ps t d i pa v = Ok (r, p') ->
    PageElement.set_element_in_place q ps t d i pa v = Ok (s, q') -> together ps h d p0 q0 p' q'.

(** whatever is done with both pages, they cannot be told apart *)
Definition indistinguishable (ps h : Z) (d : size_def) (p0 q0 : mem) : Prop :=
  forall p q, together ps h d p0 q0 p q ->
    same_answers ps d p q
    /\ (forall op, op_ok h d op -> exists r p' q', run_op ps d op p = Ok (r, p') /\ run_op ps d op q = Ok (r, q'))
    /\ (forall ty t i pa v, in_place_ok ps d p ty t i pa v -> exists r p' q',
          PageElement.set_element_in_place p ps t d i pa v = Ok (r, p')
          /\ PageElement.set_element_in_place q ps t d i pa v = Ok (r, q')).
