(** * What is printed

    Relations between a value, read with the functions of the API, and the
    pieces that go to the standard output. *)
From Coq Require String.
Import String.StringSyntax.
From Verif Require Export TableSpec CompareSpec Print.
Open Scope string_scope.
Open Scope list_scope.
Open Scope Z_scope.

Definition number_piece (r : obs) : option out :=
  match r with
  | OBits z => Some (Hex z)
  | OUint z | OInt z | OLargeUint z | OLargeInt z => Some (Number z)
  | OFloat b => Some (Float32 b)
  | ODouble b => Some (Float64 b)
  | _ => None
  end.
(** [cs] are the bytes [bs], cut into pieces of 1024 *)
Definition pieces_of (bs : list byte) (cs : list (list byte)) : Prop :=
  concat cs = bs
  /\ forall i c, nth_error cs i = Some c -> 1 <= zlen c /\ zlen c = Z.min 1024 (zlen bs - 1024 * Z.of_nat i).
Fixpoint commas (ls : list (list out)) : list out :=
  match ls with
  | [] => []
  | [l] => l
  | l :: ls' => l ++ Text ", " :: commas ls'
  end.
(** how the elements of a tuple or an array are enclosed *)
Definition enclosed (t : dti) (s : Z) (l : list out) : list out :=
  match type t with
  | TUPLE => [Text "("; Chars (c_string (type_name t)); Text ")<"; Number s; Text ">("] ++ l ++ [Text ")"]
  | _ => [Text "ARRAY<"; Number s; Text ">["] ++ l ++ [Text "]"]
  end.
(** what stands before a variable sized element that is not NULL: how far
    behind the start of its container it lies *)
Definition located (c : dti) (m : mem) (o s : Z) (w : datum) (note : list out) : Prop :=
  (note = [] /\ (is_variable_sized_type_info c = false \/ w = DNull))
  \/ (is_variable_sized_type_info c = true /\ w <> DNull
      /\ exists a, note = [Text "["; Number a; Text "]->"] /\ 0 < a < s /\ get_datum c m (o + a) = Ok (Some w)).

(** [l] is what is printed for the datum [v] of type [t] *)
Inductive printed : dti -> datum -> list out -> Prop :=
| printed_null t : printed t DNull [Text "NULL"]
| printed_number t v r x : v <> DNull -> is_value t v -> obs_of t v = Ok r -> number_piece r = Some x -> printed t v [x]
| printed_string t m o n bs cs : type t = STRING -> rd m o n = Ok bs -> pieces_of bs cs ->
    printed t (DStr m o n) ([Text """"] ++ map (fun c => Chars (cut0 c)) cs ++ [Text """"])
| printed_binary t m o n bs : type t = BINARY -> rd m o n = Ok bs ->
    printed t (DStr m o n) ([Text "BINARY<"; Number (zlen bs); Text ">["] ++ flat_map (fun b => [Text " 0x"; Hex (b2z b)]) bs ++ [Text "]"])
| printed_elements t m o s ws notes ls : type t = TUPLE \/ type t = ARRAY ->
    get_size t m o = Ok s -> get_element_count t m o = Ok (zlen ws) -> zlen notes = zlen ws -> zlen ls = zlen ws ->
    (forall i w note l, nth_error ws i = Some w -> nth_error notes i = Some note -> nth_error ls i = Some l ->
       let c := element_type t (Z.of_nat i) in
       get_value t [Z.of_nat i] m o = Ok (Some w) /\ located c m o s w note /\ printed c w l) ->
    printed t (DPtr m o) (enclosed t s (commas (map (fun x => fst x ++ snd x) (combine notes ls)))).

(** ** pages *)
(** [l] is what is printed for the [i]th tuple of a page *)
Definition row_printed (p : mem) (ps : Z) (d : size_def) (t : dti) (i : Z) (l : list out) : Prop :=
  exists x r, get_nth_tuple_on_page p ps d i = Ok x /\ l = [tab; tab; Text "tuple "; Number i; nl] ++ r
  /\ match x with
     | None => r = [tab; tab; tab; Text "TOMB STONE"; nl; nl]
     | Some o => exists s v lv, get_size t p o = Ok s /\ get_datum t p o = Ok (Some v) /\ printed t v lv
         /\ r = [tab; tab; tab; Text "offset["; Number o; Text "] size("; Number s; Text ") :: "] ++ lv ++ [nl; nl; nl]
     end.
Definition page_printed (p : mem) (ps : Z) (d : size_def) (t : dti) (l : list out) : Prop :=
  exists a o s f g n k title rs,
    get_space_allotted_to_all_tuples_on_page p ps d = Ok a
    /\ get_space_occupied_by_all_tuples_on_page p ps d = Ok o
    /\ get_space_occupied_by_all_tomb_stones_on_page p ps d = Ok s
    /\ get_free_space_on_page p ps d = Ok f
    /\ get_fragmentation_space_on_page p ps d = Ok g
    /\ get_tuple_count_on_page p ps d = Ok n
    /\ get_tomb_stone_count_on_page p ps d = Ok k
    /\ zlen rs = n /\ (forall i r, nth_error rs i = Some r -> row_printed p ps d t (Z.of_nat i) r)
    /\ l = [Text "PAGE : "; nl; Text "space allotted   = "; Number a; nl;
            Text "space occupied   = "; Number o; Text " (tomb_stones occupy "; Number s; Text ")"; nl;
            Text "free space       = "; Number f; nl; Text "fragmented space = "; Number g; nl; nl;
            Text "tuple_count      = "; Number n; nl; Text "tomb_stone_count = "; Number k; nl; nl]
           ++ title ++ concat rs ++ [nl; nl; nl]
    /\ if sd_variable d
       then title = [Text "SLOTTED PAGE :"; nl; nl; tab; Text "Tuples :: ("; Number n; Text ")"; nl]
       else exists h c, get_page_header_size p ps = Ok h /\ get_maximum_tuple_count_on_page h ps d = Ok c /\ title = [Text "FIXED ARRAY PAGE :"; nl; nl; tab; Text "Tuples :: ("; Number n; Text " of "; Number c; Text ")"; nl].

(** ** types *)
(** some line of [l], indented by [tabs], consists of [pieces] *)
Definition newline : out := Text (String.String (Ascii.Ascii false true false true false false false false) String.EmptyString).     (* 10 *)
Definition tabulator : out := Text (String.String (Ascii.Ascii true false false true false false false false) String.EmptyString).   (* 9 *)
Definition has_line (l : list out) (tabs : nat) (pieces : list out) : Prop :=
  exists a b, l = a ++ repeat tabulator tabs ++ pieces ++ [newline] ++ b /\ (a = [] \/ exists a', a = a' ++ [newline]).
(** how far the description of the type at [pa] is indented in that of [d] *)
Fixpoint indent (d : dti) (pa : list Z) : nat :=
  match pa with
  | [] => 0
  | i :: pa' => (if data_type_eqb (type d) TUPLE then 3 else 2) + indent (element_type d i) pa'
  end.
Definition name_of_type (t : data_type) : String.string :=
  match t with
  | BIT_FIELD => "BIT_FIELD" | UINT => "UINT" | INT => "INT" | FLOAT => "FLOAT" | LARGE_UINT => "LARGE_UINT" | LARGE_INT => "LARGE_INT"
  | STRING => "STRING" | BINARY => "BINARY" | TUPLE => "TUPLE" | ARRAY => "ARRAY"
  end.
(** [l] says which parts the data of type [t] has: an is-valid bit in its
    container, and if it is a container its prefixes and its bitmap *)
Definition layout_described (l : list out) (tabs : nat) (t : dti) : Prop :=
  has_line l tabs [Text "needs_is_valid_bit_in_prefix_bitmap : "; Number (if is_nullable_type_info t && negb (is_variable_sized_type_info t) then 1 else 0)]
  /\ has_line l tabs [Text "is_container_type : "; Number (match type t with STRING | BINARY | TUPLE | ARRAY => 1 | _ => 0 end)]
  /\ (is_container_type_info t = true ->
       has_line l tabs [Text "has_size_in_prefix : "; Number (if has_size_in_prefix t then 1 else 0)]
       /\ has_line l tabs [Text "has_element_count_in_prefix : "; Number (if has_element_count_in_prefix t then 1 else 0)]
       /\ (has_variable_element_count t = false -> has_line l tabs [Text "prefix_bitmap_size_in_bits : "; Number (prefix_bitmap_size_in_bits t)])).
(** [l] describes the field [p] of type [c]: its name, the place of its bits,
    bytes or offset, and of its is-valid bit if it has one *)
Definition field_described (l : list out) (tabs : nat) (p : position) (c : dti) : Prop :=
  has_line l tabs [Text "field_name : "; Chars (c_string (field_name p))]
  /\ has_line l tabs [Text (if data_type_eqb (type c) BIT_FIELD then "bit_offset : "
                            else if is_variable_sized_type_info c then "byte_offset_to_byte_offset : " else "byte_offset : "); Number (p_off p)]
  /\ (is_nullable_type_info c = true -> is_variable_sized_type_info c = false -> has_line l tabs [Text "bit_offset_to_is_valid_bit : "; Number (p_valid p)]).
(** what the description of a type says about it *)
Definition described (l : list out) (tabs : nat) (t : dti) : Prop :=
  has_line l tabs [Text "type_name : """; Chars (c_string (type_name t)); Text """ ("; Text (if is_finalized t then "" else "not-"); Text "finalized)"]
  /\ has_line l tabs [Text "type : "; Text (name_of_type (type t))]
  /\ has_line l tabs [Text "is_nullable : "; Number (if is_nullable_type_info t then 1 else 0)]
  /\ has_line l tabs [Text "is_variable_sized : "; Number (if is_variable_sized_type_info t then 1 else 0)]
  /\ (if is_variable_sized_type_info t
      then has_line l tabs [Text "min_size : "; Number (size t)] /\ has_line l tabs [Text "max_size : "; Number (max_size t)]
      else has_line l tabs [Text (match type t with BIT_FIELD => "bit_field_size : " | _ => "size : " end); Number (size t)])
  /\ (type t = TUPLE -> has_line l tabs [Text "element_count : "; Number (zlen (containees t))]
       /\ forall p c, In (p, c) (containees t) -> field_described l (tabs + 2) p c)
  /\ (type t = ARRAY -> has_line l tabs (if has_variable_element_count t then [Text "element_count : variable"] else [Text "element_count : "; Number (element_count t)]))
  /\ layout_described l tabs t.
(** no name of a field fills all its 64 bytes *)
Fixpoint short_field_names (t : dti) : Prop :=
  match type t with
  | TUPLE => (fix all (cs : list (position * dti)) : Prop :=
                match cs with [] => True | (p, c) :: cs' => zlen (c_string (field_name p)) < 64 /\ short_field_names c /\ all cs' end) (containees t)
  | ARRAY => match containee_ t with Some c => short_field_names c | None => True end
  | _ => True
  end.
(** [l] describes the size definition [d] *)
Definition size_def_described (l : list out) (d : size_def) : Prop :=
  has_line l 0 [Text "is_variable_sized : "; Number (if is_variable_sized d then 1 else 0)]
  /\ (if is_variable_sized d
      then has_line l 0 [Text "min_size : "; Number (min_tuple_size d)] /\ has_line l 0 [Text "max_size : "; Number (max_tuple_size d)]
        /\ has_line l 0 [Text "has_size_in_prefix : "; Number (if sd_has_size d then 1 else 0)]
        /\ has_line l 0 [Text "has_element_count_in_prefix : "; Number (if sd_has_count d then 1 else 0)]
        /\ (sd_has_size d = false -> has_line l 0 [Text "does_containee_need_is_valid_bit_in_prefix : "; Number (if sd_containee_valid_bit d then 1 else 0)]
             /\ has_line l 0 [Text "is_containee_bit_field : "; Number (if sd_containee_bit_field d then 1 else 0)]
             /\ has_line l 0 [Text (if sd_containee_bit_field d then "containee_bit_field_size : " else "containee_size : "); Number (sd_containee_size d)])
      else has_line l 0 [Text "size = "; Number (min_tuple_size d)] /\ min_tuple_size d = max_tuple_size d).
