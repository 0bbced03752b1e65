(** * The contents of a tuple as a tree, and what operations do to the tree

    A small specification of a whole tuple that knows nothing of bytes: values
    are numbers, NULL, and lists of values.  A STRING or BINARY is the list of
    its bytes, an ARRAY or TUPLE the list of its elements. *)
From Verif Require Export ReadSpec.

Inductive tree :=
| TNull
| TNum (r : obs)
| TNode (l : list tree).

(** the tree that a user sees at path [pa], reading values with
    [get_value_from_element_from_tuple] and numbers of elements with
    [get_element_count_for_element_from_tuple] *)
Definition is_number (r : obs) : bool := match r with ONull | OStr _ | OData _ => false | _ => true end.
Definition is_list (r : obs) : bool := match r with OStr _ | OData _ => true | _ => false end.
Inductive has_tree (d : dti) (m : mem) (o : Z) : list Z -> tree -> Prop :=
| ht_null pa : observe d pa m o = Ok (Some ONull) -> has_tree d m o pa TNull
| ht_num pa r : observe d pa m o = Ok (Some r) -> is_number r = true -> has_tree d m o pa (TNum r)
| ht_node pa r l : observe d pa m o = Ok (Some r) -> is_list r = true -> element_count_of d pa m o = Ok (zlen l) ->
    (forall i T, nth_error l i = Some T -> has_tree d m o (pa ++ [Z.of_nat i]) T) ->
    has_tree d m o pa (TNode l).

(** a tree that differs at one path *)
Fixpoint at_path (R : tree -> tree -> Prop) (pa : list Z) (T T' : tree) : Prop :=
  match pa with
  | [] => R T T'
  | i :: pa' => exists l1 x x' l2, T = TNode (l1 ++ x :: l2) /\ T' = TNode (l1 ++ x' :: l2) /\ zlen l1 = i /\ at_path R pa' x x'
  end.

(** data that has only been initialized, and an element that has not been set *)
Inductive fresh : dti -> tree -> Prop :=
| fresh_num t : is_container_type_info t = false -> fresh t (TNum (zero_value t))
| fresh_list t l : is_container_type_info t = true -> zlen l = min_elements t ->
    (forall i T, nth_error l i = Some T -> exists c, get_type_info t [Z.of_nat i] = Some c /\ unset c T) -> fresh t (TNode l)
with unset : dti -> tree -> Prop :=
| unset_null t : nullable t = true -> unset t TNull
| unset_value t T : nullable t = false -> fresh t T -> unset t T.

(** the bytes that a STRING or BINARY of type [t] holds after storing [v]; the
    rest of a fixed size BINARY keeps unspecified bytes *)
Definition string_of (t : dti) (v : datum) (bs : list byte) : Prop :=
  match type t, t_variable t with
  | STRING, true => bs = cut0 (str_of v)
  | STRING, false => exists k, bs = firstn (Z.to_nat (size t)) (cut0 (str_of v)) ++ repeat Byte.x00 k /\ zlen bs = size t
  | _, true => bs = str_of v
  | _, false => exists tail, bs = firstn (Z.to_nat (size t)) (str_of v) ++ tail /\ zlen bs = size t
  end.
Definition bytes_tree (bs : list byte) : tree := TNode (map (fun b => TNum (OUint (b2z b))) bs).
(** the element of type [t] after storing [v] *)
Definition stores (t : dti) (v : datum) (T : tree) : Prop :=
  match v with
  | DNull => T = TNull
  | _ =>
    match type t with
    | STRING | BINARY => exists bs, string_of t v bs /\ T = bytes_tree bs
    | TUPLE | ARRAY => match v with DPtr vm vo => has_tree t vm vo [] T | _ => fresh t T end
    | _ => exists r, reads_back t v r /\ T = TNum r
    end
  end.

(** ** operations on a tuple and on its tree *)
Inductive operation :=
| Set_element (pa : list Z) (v : datum) (inc : Z)
| Expand_element (pa : list Z) (index slots inc : Z)
| Discard_elements (pa : list Z) (index slots : Z).
Definition run (d : dti) (op : operation) (m : mem) (o : Z) : res (bool * mem) :=
  match op with
  | Set_element pa v inc => set_element d pa m o v inc
  | Expand_element pa index slots inc => expand_element d pa m o index slots inc
  | Discard_elements pa index slots => discard_elements d pa m o index slots
  end.
(** the call is within the documented limits *)
Definition allowed (d : dti) (op : operation) (m : mem) (o : Z) : Prop :=
  match op with
  | Set_element pa v inc => path_ok pa /\ room d m o inc
      /\ (forall t, get_type_info d pa = Some t -> fits t v)
      /\ (forall t vm vo, get_type_info d pa = Some t -> v = DPtr vm vo -> data_at t vm vo)
  | Expand_element pa index slots inc => path_ok pa /\ room d m o inc /\ 0 <= index < 4294967296
      /\ (forall t a s n, element_at d pa m o t a -> get_size t m a = Ok s -> get_element_count t m a = Ok n -> expand_limits t s n slots)
  | Discard_elements pa index slots => path_ok pa /\ 0 <= index < 4294967296 /\ 0 <= slots < 4294967296
  end.
(** a refused operation does nothing; a successful one changes what it says *)
Definition tree_step (d : dti) (op : operation) (r : bool) (T T' : tree) : Prop :=
  if negb r then T' = T
  else
    match op with
    | Set_element pa v inc =>
        exists t, get_type_info d pa = Some t /\ at_path (fun _ x => stores t v x) pa T T'
    | Expand_element pa index slots inc =>
        exists c u, get_type_info d (pa ++ [index]) = Some c /\ unset c u
          /\ at_path (fun x x' => exists l1 l2, x = TNode (l1 ++ l2) /\ zlen l1 = index /\ x' = TNode (l1 ++ repeat u (Z.to_nat slots) ++ l2)) pa T T'
    | Discard_elements pa index slots =>
        at_path (fun x x' => exists l1 l l2, x = TNode (l1 ++ l ++ l2) /\ zlen l1 = index /\ zlen l = slots /\ x' = TNode (l1 ++ l2)) pa T T'
    end.

(** any number of allowed operations, with the results they returned *)
Inductive history (d : dti) (o : Z) : mem -> list (operation * bool) -> mem -> Prop :=
| history_nil m : history d o m [] m
| history_cons m op r m1 ops m' : allowed d op m o -> run d op m o = Ok (r, m1) -> history d o m1 ops m' -> history d o m ((op, r) :: ops) m'.
Inductive tree_history (d : dti) : tree -> list (operation * bool) -> tree -> Prop :=
| th_nil T : tree_history d T [] T
| th_cons T op r T1 ops T' : tree_step d op r T T1 -> tree_history d T1 ops T' -> tree_history d T ((op, r) :: ops) T'.

(** ** what is read in a tree *)
Fixpoint look (T : tree) (pa : list Z) : option tree :=
  match pa, T with
  | [], _ => Some T
  | _, TNull => Some TNull
  | _, TNum _ => None
  | i :: pa', TNode l => match nth_error l (Z.to_nat i) with Some x => look x pa' | None => None end
  end.
(** the value read for an element of type [t] *)
Definition shows (t : dti) (T : tree) (r : obs) : Prop :=
  match T with
  | TNull => r = ONull
  | TNum x => r = x
  | TNode _ =>
      match type t with
      | STRING => exists bs, T = bytes_tree bs /\ r = OStr (cut0 bs)
      | BINARY => exists bs, T = bytes_tree bs /\ r = OStr bs
      | _ => exists bs, r = OData bs
      end
  end.
