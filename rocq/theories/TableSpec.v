(** * A page of tuples as a list of trees

    What a user has who keeps tuples of one type on a page: a list of rows, each
    a tree of values ([TreeSpec]) or a tomb stone, operated on by the functions
    of the page API and by [set_element_in_tuple_in_place_on_page]. *)
From Verif Require Export PageSpec TreeSpec PageElement.

Notation rows := (list (option tree)) (only parsing).

(** the rows, read through the pointers that [get_nth_tuple_on_page] returns *)
Definition rows_on_page (ps : Z) (d : size_def) (t : dti) (p : mem) (c : rows) : Prop :=
  get_tuple_count_on_page p ps d = Ok (zlen c)
  /\ forall i, is_u32 i -> exists x, get_nth_tuple_on_page p ps d i = Ok x
     /\ match nth_error c (Z.to_nat i) with
        | Some (Some T) => exists o, x = Some o /\ has_tree t p o [] T
        | _ => x = None
        end.

(** a tuple in memory of the caller, NULL for a tomb stone, and its row *)
Definition row_of (t : dti) (x : ext) (y : option tree) : Prop :=
  match x, y with
  | None, None => True
  | Some b, Some T => has_tree t b 0 [] T
  | _, _ => False
  end.
Definition is_tuple (t : dti) (x : ext) : Prop :=
  match x with None => True | Some b => data_at t b 0 /\ get_size t b 0 = Ok (zlen b) end.

Inductive table_op :=
| Page (op : page_op)
| Set_in_place (i : Z) (pa : list Z) (v : datum).
Definition run_table (ps : Z) (d : size_def) (t : dti) (op : table_op) (p : mem) : res (answer * mem) :=
  match op with
  | Page op => run_op ps d op p
  | Set_in_place i pa v => answer_of (set_element_in_place p ps t d i pa v)
  end.
(** the arguments are within the documented limits *)
Definition table_allowed (h : Z) (t : dti) (op : table_op) : Prop :=
  match op with
  | Page (Append x) => is_tuple t x
  | Page (Insert i x) | Page (Update i x) => is_u32 i /\ is_tuple t x
  | Page (Discard i) => is_u32 i
  | Page (Swap i j) => is_u32 i /\ is_u32 j
  | Page (Compact srt _) => sorts srt
  | Page (WriteHeader at_ bs) => 0 <= at_ /\ at_ + zlen bs <= h
  | Page DiscardAll | Page DiscardTrailing | Page ZeroOut => True
  | Set_in_place i pa v => is_u32 i /\ path_ok pa
      /\ (forall u, get_type_info t pa = Some u -> fits u v)
      /\ (forall u vm vo, get_type_info t pa = Some u -> v = DPtr vm vo -> data_at u vm vo)
  end.

(** on the rows [c], [op] may answer [r] and leave the rows [c'] *)
Definition row_effect (t : dti) (op : table_op) (c : rows) (r : answer) (c' : rows) : Prop :=
  match op with
  | Page (Append x) => (r = (1, false) /\ exists y, row_of t x y /\ c' = c ++ [y]) \/ (r = (0, false) /\ c' = c)
  | Page (Insert i x) =>
      (r = (1, false) /\ exists y c1 c2, row_of t x y /\ c = c1 ++ c2 /\ zlen c1 = i /\ c' = c1 ++ y :: c2) \/ (r = (0, false) /\ c' = c)
  | Page (Update i x) =>
      (r = (1, false) /\ exists y z c1 c2, row_of t x y /\ c = c1 ++ z :: c2 /\ zlen c1 = i /\ c' = c1 ++ y :: c2)
      \/ (r = (0, false) /\ (i < zlen c -> x <> None) /\ c' = c)
  | Page (Discard i) =>
      (r = (1, false) /\ exists z c1 c2, c = c1 ++ z :: c2 /\ zlen c1 = i /\ c' = c1 ++ c2) \/ (r = (0, false) /\ zlen c <= i /\ c' = c)
  | Page DiscardAll => r = (1, false) /\ c' = []
  | Page DiscardTrailing => exists k, c = c' ++ repeat None k /\ (forall c0, c' <> c0 ++ [None]) /\ r = (Z.of_nat k, false)
  | Page (Swap i j) =>
      if (i <? zlen c) && (j <? zlen c)
      then r = (1, false) /\ zlen c' = zlen c
           /\ nth_error c' (Z.to_nat i) = nth_error c (Z.to_nat j) /\ nth_error c' (Z.to_nat j) = nth_error c (Z.to_nat i)
           /\ forall k, k <> Z.to_nat i -> k <> Z.to_nat j -> nth_error c' k = nth_error c k
      else r = (0, false) /\ c' = c
  | Page (Compact _ _) | Page ZeroOut => (fst r = 0 \/ fst r = 1) /\ c' = c
  | Page (WriteHeader _ _) => r = (1, false) /\ c' = c
  | Set_in_place i pa v =>
      (r = (1, false) /\ exists T T' c1 c2, c = c1 ++ Some T :: c2 /\ zlen c1 = i /\ c' = c1 ++ Some T' :: c2
         /\ exists u, get_type_info t pa = Some u /\ at_path (fun _ x => stores u v x) pa T T')
      \/ (r = (0, false) /\ c' = c)
  end.

(** pages that hold tuples of type [t] *)
Inductive table (ps h : Z) (d : size_def) (t : dti) : mem -> Prop :=
| table_init p0 p : zlen p0 = ps -> init_page p0 ps h d = Ok (true, p) -> table ps h d t p
| table_next p op r p' : table ps h d t p -> table_allowed h t op -> run_table ps d t op p = Ok (r, p') -> table ps h d t p'.

(** any number of operations, with the answers they gave *)
Inductive table_history (ps h : Z) (d : size_def) (t : dti) : mem -> list (table_op * answer) -> mem -> Prop :=
| tbh_nil p : table_history ps h d t p [] p
| tbh_cons p op r p1 l p2 : table_allowed h t op -> run_table ps d t op p = Ok (r, p1) -> table_history ps h d t p1 l p2 ->
    table_history ps h d t p ((op, r) :: l) p2.
Inductive row_history (t : dti) : rows -> list (table_op * answer) -> rows -> Prop :=
| rh_nil c : row_history t c [] c
| rh_cons c op r c1 l c2 : row_effect t op c r c1 -> row_history t c1 l c2 -> row_history t c ((op, r) :: l) c2.

(** [d] is the size definition of the finalized type [t] made from [ty], the
    page is within the documented limits *)
Definition table_setup (ps h : Z) (d : size_def) (ty t : dti) : Prop :=
  type_built ty /\ finalize ty = (true, t) /\ (exists d0, initialize_size_def d0 ty = Some d)
  /\ 128 <= ps <= max_bytes /\ 0 <= h <= ps - 32.
