(** * Setting an element of a tuple on a page from a value that lies on the same page

    In PageElement.v the bytes of the value lie outside of the page.  Here the
    value points into the page: its bytes are read from the page as it is when
    they are read ([seen_in], SelfSet.v). *)
From Verif Require Export PageElement SelfSet.

(** src/page_layout_slotted.c:574-606 [set_element_in_tuple_in_place_slotted_page]
    with a value that points into the page *)
Definition sl_set_own_in_place (p : mem) (ps : Z) (d : dti) (sd : size_def) (i : Z) (pa : list Z) (v : datum) : res (bool * mem) :=
  let* x := sl_get_nth p ps i in
  match x with
  | None => Ok (false, p)
  | Some o =>
      let* old := tuple_size sd p o in
      let* can := can_set_element d pa p o (seen_in p v) 0 in
      if negb can then Ok (false, p)
      else
        let* (r, p1) := set_own_element d pa p o v 0 in
        if r : bool then
          let* new := tuple_size sd p1 o in
          let* oso := sl_off_space_occupied p1 ps in
          let* p2 := bump p1 oso ps (new - old) in
          Ok (true, p2)
        else Ok (false, p1)
  end.

(** src/page_layout_fixed_array.c:418-430 [set_element_in_tuple_in_place_fixed_array_page]
    with a value that points into the page *)
Definition fa_set_own_in_place (p : mem) (ps : Z) (d : dti) (sd : size_def) (i : Z) (pa : list Z) (v : datum) : res (bool * mem) :=
  let* x := fa_get_nth p ps sd i in
  match x with
  | None => Ok (false, p)
  | Some o => set_own_element d pa p o v 0
  end.

(** src/page_layout.c:248-258 [set_element_in_tuple_in_place_on_page] with a
    value that points into the page *)
Definition set_own_element_in_place (p : mem) (ps : Z) (d : dti) (sd : size_def) (i : Z) (pa : list Z) (v : datum) : res (bool * mem) :=
  dispatch sd (sl_set_own_in_place p ps d sd i pa v) (fa_set_own_in_place p ps d sd i pa v).

(** src/tuple.c:287-312 [set_element_in_tuple_from_tuple] with source and target
    in one buffer, the source at [o_in]; the case [d_in = d], [o_in = o] is
    [set_element_from_itself] (SelfSet.v) *)
Definition set_element_from_neighbour (cv : conversions) (d : dti) (pa : list Z) (m : mem) (o : Z) (d_in : dti) (pa_in : list Z) (o_in inc : Z) : res (bool * mem) :=
  let* v := get_value d_in pa_in m o_in in
  match v, get_type_info d_in pa_in, get_type_info d pa with
  | Some v, Some t_in, Some t =>
      let* same := are_identical t t_in in
      if same : bool then set_own_element d pa m o v inc
      else if is_primitive_numeral t && is_primitive_numeral t_in then
        let* w := type_cast_into cv DEmpty t v t_in in
        match w with Some w => set_own_element d pa m o w inc | None => Ok (false, m) end
      else match type t, type t_in with
           | STRING, STRING | STRING, BINARY | BINARY, STRING | BINARY, BINARY => set_own_element d pa m o v inc
           | _, _ => Ok (false, m)
           end
  | _, _, _ => Ok (false, m)
  end.
