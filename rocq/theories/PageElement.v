(** * Setting one element of a tuple where it lies on a page *)
From Verif Require Export PageLayout Tuple.

(** A [tuple_def] is a finalized type [d] and its size definition [sd]
    (inc/tuplestore/tuple_def.h); [pa] is the positional accessor. *)

(** src/page_layout_slotted.c:574-606 [set_element_in_tuple_in_place_slotted_page] *)
Definition sl_set_in_place (p : mem) (ps : Z) (d : dti) (sd : size_def) (i : Z) (pa : list Z) (v : datum) : res (bool * mem) :=
  let* x := sl_get_nth p ps i in
  match x with
  | None => Ok (false, p)
  | Some o =>
      let* old := tuple_size sd p o in
      let* can := can_set_element d pa p o v 0 in
      if negb can then Ok (false, p)
      else
        let* (r, p1) := set_element d pa p o v 0 in
        if r : bool then
          let* new := tuple_size sd p1 o in
          let* oso := sl_off_space_occupied p1 ps in
          let* p2 := bump p1 oso ps (new - old) in
          Ok (true, p2)
        else Ok (false, p1)
  end.

(** src/page_layout_fixed_array.c:418-430 [set_element_in_tuple_in_place_fixed_array_page] *)
Definition fa_set_in_place (p : mem) (ps : Z) (d : dti) (sd : size_def) (i : Z) (pa : list Z) (v : datum) : res (bool * mem) :=
  let* x := fa_get_nth p ps sd i in
  match x with
  | None => Ok (false, p)
  | Some o => set_element d pa p o v 0
  end.

(** src/page_layout.c:248-258 [set_element_in_tuple_in_place_on_page] *)
Definition set_element_in_place (p : mem) (ps : Z) (d : dti) (sd : size_def) (i : Z) (pa : list Z) (v : datum) : res (bool * mem) :=
  dispatch sd (sl_set_in_place p ps d sd i pa v) (fa_set_in_place p ps d sd i pa v).
