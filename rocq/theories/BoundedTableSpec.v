(** * A page of tuples as a list of rows of limited total size

    The client of BoundedSpec.v that compacts the page when there seems to be
    no room, on a page of tuples of one type (TableSpec.v). *)
From Verif Require Export TableSpec BoundedSpec SuccessSpec SameSpec.

(** ** the list *)
(** [c] are tuples with the rows [R] *)
Definition tuples_of (t : dti) (c : content) (R : rows) : Prop := Forall (is_tuple t) c /\ Forall2 (row_of t) c R.
(** rows that fit on a page: tuples that have these rows do *)
Definition rows_fit (ps h : Z) (d : size_def) (t : dti) (R : rows) : Prop := exists c, tuples_of t c R /\ within ps h d c.
(** an element of the row can be set without the tuple growing *)
Definition row_settable (t : dti) (pa : list Z) (v : datum) (T : tree) : Prop :=
  exists b u, is_tuple t (Some b) /\ has_tree t b 0 [] T /\ get_type_info t pa = Some u /\ settable t pa b 0 u v 0.

(** the operation is done exactly when [P] *)
Definition rows_done_if (P : Prop) (R1 R : rows) (r : answer) (R' : rows) : Prop :=
  (P /\ r = (1, false) /\ R' = R1) \/ (~ P /\ r = (0, false) /\ R' = R).
Definition bounded_row_effect (ps h : Z) (d : size_def) (t : dti) (op : table_op) (R : rows) (r : answer) (R' : rows) : Prop :=
  match op with
  | Page (Append x) => exists y, row_of t x y /\ rows_done_if (rows_fit ps h d t (R ++ [y])) (R ++ [y]) R r R'
  | Page (Insert i x) => exists y, row_of t x y /\
      rows_done_if (i <= zlen R /\ rows_fit ps h d t (insert_at i y R)) (insert_at i y R) R r R'
  | Page (Update i x) => exists y, row_of t x y /\
      rows_done_if (i < zlen R /\ rows_fit ps h d t (replace_at i y R)) (replace_at i y R) R r R'
  | Set_in_place i pa v =>
      (exists T T' u, nth_error R (Z.to_nat i) = Some (Some T) /\ row_settable t pa v T /\ r = (1, false) /\ R' = replace_at i (Some T') R
         /\ get_type_info t pa = Some u /\ at_path (fun _ x => stores u v x) pa T T')
      \/ ((forall T, nth_error R (Z.to_nat i) = Some (Some T) -> ~ row_settable t pa v T) /\ r = (0, false) /\ R' = R)
  | _ => row_effect t op R r R'
  end.
Inductive bounded_row_history (ps h : Z) (d : size_def) (t : dti) : rows -> list (table_op * answer) -> rows -> Prop :=
| brh_nil R : bounded_row_history ps h d t R [] R
| brh_cons R op r R1 l R2 : bounded_row_effect ps h d t op R r R1 -> bounded_row_history ps h d t R1 l R2 ->
    bounded_row_history ps h d t R ((op, r) :: l) R2.

(** ** the client *)
Definition quiet_table (op : table_op) : bool := match op with Page op => quiet op | Set_in_place _ _ _ => false end.
Definition careful_table (srt : list (Z * Z) -> list (Z * Z)) (ps : Z) (d : size_def) (t : dti) (op : table_op) (p : mem) : res (answer * mem) :=
  match op with Page op => careful srt ps d op p | Set_in_place _ _ _ => run_table ps d t op p end.
Inductive careful_table_history (srt : list (Z * Z) -> list (Z * Z)) (ps h : Z) (d : size_def) (t : dti) : mem -> list (table_op * answer) -> mem -> Prop :=
| cth_nil p : careful_table_history srt ps h d t p [] p
| cth_quiet p op r p1 l p2 : quiet_table op = true -> table_allowed h t op -> run_table ps d t op p = Ok (r, p1) ->
    careful_table_history srt ps h d t p1 l p2 -> careful_table_history srt ps h d t p l p2
| cth_op p op r p1 l p2 : quiet_table op = false -> table_allowed h t op -> careful_table srt ps d t op p = Ok (r, p1) ->
    careful_table_history srt ps h d t p1 l p2 -> careful_table_history srt ps h d t p ((op, r) :: l) p2.

(** ** the same operation, with other bytes for the same tuple *)
Definition same_row (t : dti) (x1 x2 : ext) : Prop := exists y, row_of t x1 y /\ row_of t x2 y.
Definition same_op (t : dti) (op1 op2 : table_op) : Prop :=
  match op1, op2 with
  | Page (Append x1), Page (Append x2) => same_row t x1 x2
  | Page (Insert i1 x1), Page (Insert i2 x2) => i1 = i2 /\ same_row t x1 x2
  | Page (Update i1 x1), Page (Update i2 x2) => i1 = i2 /\ same_row t x1 x2
  | _, _ => op1 = op2
  end.
(** the operation leaves no unspecified bytes (SameSpec.v) *)
Definition table_op_specified (t : dti) (op : table_op) : Prop :=
  match op with Set_in_place _ pa v => forall u, get_type_info t pa = Some u -> specified u v | Page _ => True end.
