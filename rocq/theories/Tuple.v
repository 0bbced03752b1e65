(** * Access to nested elements of a tuple (src/tuple.c)

    A positional accessor is the list of its positions; [SELF] is []. *)
From Verif Require Export Container.

(** src/tuple.c:7-10 [init_tuple] *)
Definition init_tuple (d : dti) (m : mem) (o : Z) : res mem :=
  let* (_, m1) := init_minimal d m o in Ok m1.

(** src/tuple.c:31-51: one step of the descent, shared by all functions below:
    the child at index [i]; [None]: not a container or out of bounds,
    [Some None]: a NULL child *)
Definition child (d : dti) (m : mem) (o i : Z) : res (option (option (dti * Z))) :=
  if negb (is_container_type_info d) then Ok None
  else
    let* n := get_element_count d m o in
    if n <=? i then Ok None
    else
      let* pi := get_pos d m o i in
      let* c := get_ptr d m o pi in
      Ok (Some (match c with None => None | Some a => Some (pi_type pi, a) end)).

(** src/tuple.c:12-56 [get_value_from_element_from_tuple]; [None] is return 0 *)
Fixpoint get_value (d : dti) (pa : list Z) (m : mem) (o : Z) : res (option datum) :=
  match pa with
  | [] => get_datum d m o
  | [i] => get_containee_datum d m o i
  | i :: pa' =>
      let* c := child d m o i in
      match c with
      | None => Ok None
      | Some None => Ok (Some DNull)
      | Some (Some (t, a)) => get_value t pa' m a
      end
  end.

(** src/tuple.c:58-82 [get_type_info_for_element_from_tuple_def] *)
Fixpoint get_type_info (d : dti) (pa : list Z) : option dti :=
  match pa with
  | [] => Some d
  | i :: pa' => match containee_type_without_data d i with None => None | Some t => get_type_info t pa' end
  end.

(** src/tuple.c:84-94 [are_all_positions_accessible_for_tuple_def] and
    96-106 [are_all_positions_accessible_for_tuple]; the caller passes the
    positions (the NULL default [0], [1], ... is passed explicitly) *)
Fixpoint positions_accessible_def (d : dti) (pas : list (list Z)) : bool :=
  match pas with
  | [] => true
  | pa :: r => match get_type_info d pa with None => false | Some _ => positions_accessible_def d r end
  end.
Fixpoint positions_accessible (d : dti) (m : mem) (o : Z) (pas : list (list Z)) : res bool :=
  match pas with
  | [] => Ok true
  | pa :: r =>
      let* v := get_value d pa m o in
      match v with None => Ok false | Some _ => positions_accessible d m o r end
  end.

(** src/tuple.c:108-154 [get_max_size_increment_allowed_for_element_in_tuple] *)
Fixpoint max_size_increment (d : dti) (pa : list Z) (m : mem) (o inc : Z) : res Z :=
  if negb (is_variable_sized_type_info d) then Ok 0
  else
    let* sz := get_size d m o in
    let inc' := Z.min inc (u32 (max_size d - sz)) in
    match pa with
    | [] => Ok inc'
    | i :: pa' =>
        let* c := child d m o i in
        match c with
        | Some (Some (t, a)) => max_size_increment t pa' m a inc'
        | _ => Ok 0
        end
    end.
Definition get_max_size_increment_allowed (d : dti) (pa : list Z) (m : mem) (o : Z) : res Z :=
  max_size_increment d pa m o 4294967295.

(** src/tuple.c:156-207 [can_set_element_in_tuple] *)
Fixpoint can_set_element (d : dti) (pa : list Z) (m : mem) (o : Z) (v : datum) (inc : Z) : res bool :=
  match pa with
  | [] => if is_datum_NULL v then Ok false else can_set_datum d m o true inc v
  | [i] => can_set_containee d m o i inc v
  | i :: pa' =>
      if negb (is_container_type_info d) then Ok false
      else
        let* n := get_element_count d m o in
        if n <=? i then Ok false
        else
          let* inc' := if is_variable_sized_type_info d
                       then let* sz := get_size d m o in Ok (Z.min inc (u32 (max_size d - sz)))
                       else Ok inc in
          let* pi := get_pos d m o i in
          let* c := get_ptr d m o pi in
          match c with
          | None => Ok false
          | Some a => can_set_element (pi_type pi) pa' m a v inc'
          end
  end.

(** src/tuple.c:209-273 [set_element_in_tuple_INTERNAL] *)
Fixpoint set_internal (d : dti) (pa : list Z) (m : mem) (o : Z) (v : datum) (inc : Z) (var : bool) : res (bool * mem) :=
  match pa with
  | [] => if is_datum_NULL v then Ok (false, m) else set_datum d m o true inc v
  | [i] => set_containee d m o i inc v
  | i :: pa' =>
      if negb (is_container_type_info d) then Ok (false, m)
      else
        let* n := get_element_count d m o in
        if n <=? i then Ok (false, m)
        else
          let* inc' := if is_variable_sized_type_info d
                       then let* sz := get_size d m o in Ok (Z.min inc (u32 (max_size d - sz)))
                       else Ok inc in
          let* pi := get_pos d m o i in
          let* m1 := if var then move_to_end d m o i pi else Ok m in
          let* c := get_ptr d m1 o pi in
          match c with
          | None => Ok (false, m1)
          | Some a =>
            if var then
              let* container_old := get_size d m1 o in
              let* child_old := containee_size d m1 o pi in
              let* (result, m2) := set_internal (pi_type pi) pa' m1 a v inc' var in
              if result : bool then
                let* child_new := containee_size d m2 o pi in
                let* m3 := overwrite_size d m2 o (u32 (container_old - child_old + child_new)) in
                Ok (true, m3)
              else Ok (false, m2)
            else set_internal (pi_type pi) pa' m1 a v inc' var
          end
  end.
(** src/tuple.c:275-285 [set_element_in_tuple] *)
Definition set_element (d : dti) (pa : list Z) (m : mem) (o : Z) (v : datum) (inc : Z) : res (bool * mem) :=
  match get_type_info d pa with
  | None => Ok (false, m)
  | Some t => set_internal d pa m o v inc (is_variable_sized_type_info t)
  end.

(** src/tuple.c:314-349 [get_element_count_for_element_from_tuple] *)
Fixpoint element_count_of (d : dti) (pa : list Z) (m : mem) (o : Z) : res Z :=
  match pa with
  | [] => get_element_count d m o
  | i :: pa' =>
      let* c := child d m o i in
      match c with Some (Some (t, a)) => element_count_of t pa' m a | _ => Ok 0 end
  end.

Definition is_expandable (d : dti) (pa : list Z) : bool :=
  match get_type_info d pa with None => false | Some t => is_variable_element_count t end.

(** src/tuple.c:351-393 [can_expand_element_count_for_element_in_tuple] *)
Fixpoint can_expand_internal (d : dti) (pa : list Z) (m : mem) (o index slots inc : Z) : res bool :=
  match pa with
  | [] => can_expand d m o index slots inc
  | i :: pa' =>
      if negb (is_container_type_info d) then Ok false
      else
        let* n := get_element_count d m o in
        if n <=? i then Ok false
        else
          let* sz := get_size d m o in
          let inc' := Z.min inc (u32 (max_size d - sz)) in
          let* pi := get_pos d m o i in
          let* c := get_ptr d m o pi in
          match c with
          | None => Ok false
          | Some a => can_expand_internal (pi_type pi) pa' m a index slots inc'
          end
  end.
Definition can_expand_element (d : dti) (pa : list Z) (m : mem) (o index slots inc : Z) : res bool :=
  if negb (is_expandable d pa) then Ok false else can_expand_internal d pa m o index slots inc.

(** src/tuple.c:395-436 [expand_element_count_for_element_in_tuple_INTERNAL] *)
Fixpoint expand_internal (d : dti) (pa : list Z) (m : mem) (o index slots inc : Z) : res (bool * mem) :=
  match pa with
  | [] => expand d m o index slots inc
  | i :: pa' =>
      if negb (is_container_type_info d) then Ok (false, m)
      else
        let* n := get_element_count d m o in
        if n <=? i then Ok (false, m)
        else
          let* sz := get_size d m o in
          let inc' := Z.min inc (u32 (max_size d - sz)) in
          let* pi := get_pos d m o i in
          let* m1 := move_to_end d m o i pi in
          let* c := get_ptr d m1 o pi in
          match c with
          | None => Ok (false, m1)
          | Some a =>
              let* container_old := get_size d m1 o in
              let* child_old := containee_size d m1 o pi in
              let* (result, m2) := expand_internal (pi_type pi) pa' m1 a index slots inc' in
              if result : bool then
                let* child_new := containee_size d m2 o pi in
                let* m3 := overwrite_size d m2 o (u32 (container_old - child_old + child_new)) in
                Ok (true, m3)
              else Ok (false, m2)
          end
  end.
(** src/tuple.c:438-449 [expand_element_count_for_element_in_tuple] *)
Definition expand_element (d : dti) (pa : list Z) (m : mem) (o index slots inc : Z) : res (bool * mem) :=
  if negb (is_expandable d pa) then Ok (false, m) else expand_internal d pa m o index slots inc.

(** src/tuple.c:451-492 [can_discard_elements_from_element_in_tuple] *)
Fixpoint can_discard_internal (d : dti) (pa : list Z) (m : mem) (o index slots : Z) : res bool :=
  match pa with
  | [] => can_discard d m o index slots
  | i :: pa' =>
      let* c := child d m o i in
      match c with Some (Some (t, a)) => can_discard_internal t pa' m a index slots | _ => Ok false end
  end.
Definition can_discard_elements (d : dti) (pa : list Z) (m : mem) (o index slots : Z) : res bool :=
  if negb (is_expandable d pa) then Ok false else can_discard_internal d pa m o index slots.

(** src/tuple.c:494-533 [discard_elements_from_element_in_tuple_INTERNAL] *)
Fixpoint discard_internal (d : dti) (pa : list Z) (m : mem) (o index slots : Z) : res (bool * mem) :=
  match pa with
  | [] => discard d m o index slots
  | i :: pa' =>
      if negb (is_container_type_info d) then Ok (false, m)
      else
        let* n := get_element_count d m o in
        if n <=? i then Ok (false, m)
        else
          let* pi := get_pos d m o i in
          let* m1 := move_to_end d m o i pi in
          let* c := get_ptr d m1 o pi in
          match c with
          | None => Ok (false, m1)
          | Some a =>
              let* container_old := get_size d m1 o in
              let* child_old := containee_size d m1 o pi in
              let* (result, m2) := discard_internal (pi_type pi) pa' m1 a index slots in
              if result : bool then
                let* child_new := containee_size d m2 o pi in
                let* m3 := overwrite_size d m2 o (u32 (container_old - child_old + child_new)) in
                Ok (true, m3)
              else Ok (false, m2)
          end
  end.
(** src/tuple.c:535-547 [discard_elements_from_element_in_tuple] *)
Definition discard_elements (d : dti) (pa : list Z) (m : mem) (o index slots : Z) : res (bool * mem) :=
  if negb (is_expandable d pa) then Ok (false, m) else discard_internal d pa m o index slots.
