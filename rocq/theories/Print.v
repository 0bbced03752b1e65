(** * The functions that print (src/datum.c, src/data_type_info.c, src/tuple.c,
    src/tuple_def.c, src/page_layout*.c)

    What goes to the standard output is a list of pieces: the literal text of
    the formats, and the arguments of the conversions.  How [printf] formats an
    argument is not modelled. *)
From Coq Require String Ascii.
Import String.StringSyntax.
From Verif Require Export Compare PageElement.
Open Scope string_scope.
Open Scope list_scope.
Open Scope Z_scope.

Inductive out :=
| Text (s : String.string)      (* the literal text of a format *)
| Chars (bs : list byte)        (* %s and %.*s, %c *)
| Number (z : Z)                (* %d, PRIu32, PRIu64, PRId64, 256 bit numbers in decimal *)
| Hex (z : Z)                   (* PRIx64, %2 PRIx8, %2x *)
| Float32 (bits : Z)            (* %f *)
| Float64 (bits : Z).           (* %lf *)

Definition nl : out := Text (String.String (Ascii.ascii_of_nat 10) String.EmptyString).
Definition tab : out := Text (String.String (Ascii.ascii_of_nat 9) String.EmptyString).

(** "%s" of a [char[64]]: reads on behind the array when no byte of it is 0 *)
Definition print_name (n : list byte) : res (list out) :=
  let l := name_len 64 n in
  if l =? 64 then UB else Ok [Chars (firstn (Z.to_nat l) n)].
(** "%.*s" reads at most [c] bytes and stops at a 0 *)
Definition print_precision (m : mem) (o c : Z) : res (list out) :=
  let* l := strnlen m o c in
  let* bs := rd m o l in
  Ok [Chars bs].

(** [for(i = i0; i < i0 + k; i++) f(i);] *)
Fixpoint print_loop (k : nat) (i : Z) (f : Z -> res (list out)) : res (list out) :=
  match k with
  | O => Ok []
  | S k' => let* a := f i in let* b := print_loop k' (i + 1) f in Ok (a ++ b)
  end.
(** src/datum.c:383-389; [printed] is at most [n], nothing wraps; there are at
    most [n] iterations *)
Fixpoint print_chunks (k : nat) (m : mem) (o n printed : Z) : res (list out) :=
  if n <=? printed then Ok []
  else match k with
       | O => UB
       | S k' =>
           let c := Z.min (n - printed) 1024 in
           let* a := print_precision m (o + printed) c in
           let* b := print_chunks k' m o n (printed + c) in
           Ok (a ++ b)
       end.
(** src/datum.c:412-413, 431-432: the offset of a variable sized element *)
Definition print_offset (d : dti) (m : mem) (o : Z) (p : pinfo) (w : datum) : res (list out) :=
  if is_variable_sized_type_info (pi_type p) && negb (is_datum_NULL w) then
    let* v := read_value m (o + pi_off p) (max_size d) in
    Ok [Text "["; Number v; Text "]->"]
  else Ok [].
(** src/datum.c:334-439 [print_datum].  The type of an element is taken from
    [d]; in the code it comes with the position of the element and is the same
    pointer.  [serialize_to_decimal_uint256] and [_int256] are not part of this
    code; 80 bytes hold the digits, the sign and the terminator. *)
Fixpoint print_datum (v : datum) (d : dti) {struct d} : res (list out) :=
  if is_datum_NULL v then Ok [Text "NULL"]
  else match type d with
       | BIT_FIELD => let* z := bit_field_value v in Ok [Hex z]
       | UINT => let* z := uint_value v in Ok [Number z]
       | INT => let* z := int_value v in Ok [Number z]
       | FLOAT =>
           if size d =? 4 then let* z := float_value v in Ok [Float32 z]
           else if size d =? 8 then let* z := double_value v in Ok [Float64 z]
           else Ok []
       | LARGE_UINT => let* z := large_uint_value v in Ok [Number z]
       | LARGE_INT => let* z := large_int_value v in Ok [Number z]
       | STRING =>
           let* (m, o, n) := string_value v in
           let* l := print_chunks (Z.to_nat n) m o n 0 in
           Ok (Text """" :: l ++ [Text """"])
       | BINARY =>
           let* (m, o, n) := string_value v in
           let* l := print_loop (Z.to_nat n) 0 (fun i => let* b := rd m (o + i) 1 in Ok [Text " 0x"; Hex (dec b)]) in
           Ok ([Text "BINARY<"; Number n; Text ">["] ++ l ++ [Text "]"])
       | TUPLE =>
           let* (m, o) := tuple_value v in
           let* name := print_name (type_name d) in
           let* s := get_size d m o in
           let* n := get_element_count d m o in
           let* l :=
             (fix go (cs : list (position * dti)) (i : Z) {struct cs} : res (list out) :=
                if n <=? i then Ok []
                else match cs with
                     | [] => UB
                     | (_, c) :: cs' =>
                         let comma := if negb (i =? 0) then [Text ", "] else [] in
                         let* r := get_containee_datum d m o i in
                         let* a := match r with
                                   | None => Ok []
                                   | Some w =>
                                       let* p := get_pos d m o i in
                                       let* a1 := print_offset d m o p w in
                                       let* a2 := print_datum w c in
                                       Ok (a1 ++ a2)
                                   end in
                         let* b := go cs' (i + 1) in
                         Ok (comma ++ a ++ b)
                     end) (containees d) 0 in
           Ok ([Text "("] ++ name ++ [Text ")<"; Number s; Text ">("] ++ l ++ [Text ")"])
       | ARRAY =>
           let* (m, o) := tuple_value v in
           let* s := get_size d m o in
           let* n := get_element_count d m o in
           let* l := print_loop (Z.to_nat n) 0 (fun i =>
             let comma := if negb (i =? 0) then [Text ", "] else [] in
             let* p := get_pos d m o i in
             let* r := get_containee_datum d m o i in
             match r, containee_ d with
             | None, _ => Ok comma
             | Some _, None => UB
             | Some w, Some c =>
                 let* a1 := print_offset d m o p w in
                 let* a2 := print_datum w c in
                 Ok (comma ++ a1 ++ a2)
             end) in
           Ok ([Text "ARRAY<"; Number s; Text ">["] ++ l ++ [Text "]"])
       end.
(** src/data_type_info.c:1442-1447 [print_data_for_data_type_info]; the datum
    stays uninitialised when [get_datum_for_type_info] returns 0 *)
Definition print_data (d : dti) (m : mem) (o : Z) : res (list out) :=
  let* v := get_datum d m o in
  match v with Some v => print_datum v d | None => UB end.
(** src/tuple.c:712-716 [print_tuple] *)
Definition print_tuple (d : dti) (m : mem) (o : Z) : res (list out) :=
  let* l := print_data d m o in Ok (l ++ [nl]).

(** ** types *)
(** src/data_type_info.c:1343-1350 [print_tabs] *)
Definition print_tabs (tabs : nat) : list out := repeat tab tabs.
(** src/data_type_info.c:13-24 *)
Definition type_as_string (t : data_type) : String.string :=
  match t with
  | BIT_FIELD => "BIT_FIELD" | UINT => "UINT" | INT => "INT" | FLOAT => "FLOAT" | LARGE_UINT => "LARGE_UINT"
  | LARGE_INT => "LARGE_INT" | STRING => "STRING" | BINARY => "BINARY" | TUPLE => "TUPLE" | ARRAY => "ARRAY"
  end.
(** one [print_tabs(tabs); printf(...)] that ends a line *)
Definition line (tabs : nat) (l : list out) : list out := print_tabs tabs ++ l ++ [nl].
(** src/data_type_info.c:1354-1392: the lines about the type itself *)
Definition print_own (d : dti) (tabs : nat) : list out :=
  line tabs [Text "type_name : """; Chars (firstn (Z.to_nat (name_len 64 (type_name d))) (type_name d)); Text """ (";
             Text (if is_finalized d then "" else "not-"); Text "finalized)"]
  ++ line tabs [Text "type : "; Text (type_as_string (type d))]
  ++ line tabs [Text "is_nullable : "; Number (b2n (is_nullable_type_info d))]
  ++ line tabs [Text "is_variable_sized : "; Number (b2n (is_variable_sized_type_info d))]
  ++ line tabs [Text "needs_is_valid_bit_in_prefix_bitmap : "; Number (b2n (needs_is_valid_bit d))]
  ++ match type d with
     | BIT_FIELD => line tabs [Text "bit_field_size : "; Number (size d)]
     | _ =>
       if negb (is_variable_sized_type_info d) then line tabs [Text "size : "; Number (size d)]
       else line tabs [Text "min_size : "; Number (size d)] ++ line tabs [Text "max_size : "; Number (max_size d)]
     end
  ++ line tabs [Text "is_container_type : "; Number (b2n (is_container_type_info d))]
  ++ (if is_container_type_info d then
        line tabs [Text "has_size_in_prefix : "; Number (b2n (has_size_in_prefix d))]
        ++ line tabs [Text "has_element_count_in_prefix : "; Number (b2n (has_element_count_in_prefix d))]
        ++ (if has_variable_element_count d then line tabs [Text "element_count : variable"]
            else line tabs [Text "element_count : "; Number (element_count d)])
        ++ (if negb (has_variable_element_count d) then line tabs [Text "prefix_bitmap_size_in_bits : "; Number (prefix_bitmap_size_in_bits d)] else [])
      else []).
(** src/data_type_info.c:1404-1421: the lines about the position of an element *)
Definition print_position (p : position) (c : dti) (tabs : nat) : res (list out) :=
  let* name := print_name (field_name p) in
  Ok (line tabs (Text "field_name : " :: name)
      ++ match type c with
         | BIT_FIELD => line tabs [Text "bit_offset : "; Number (p_off p)]
         | _ =>
           if negb (is_variable_sized_type_info c) then line tabs [Text "byte_offset : "; Number (p_off p)]
           else line tabs [Text "byte_offset_to_byte_offset : "; Number (p_off p)]
         end
      ++ (if needs_is_valid_bit c then line tabs [Text "bit_offset_to_is_valid_bit : "; Number (p_valid p)] else [])).
(** src/data_type_info.c:1352-1435 [print_type_info_recursive] and 1437-1440
    [print_type_info].  A tuple has as many [containees] as its [element_count]
    says. *)
Fixpoint print_type_info_recursive (d : dti) (tabs : nat) {struct d} : res (list out) :=
  if negb (is_container_type_info d) then Ok (print_own d tabs)
  else match type d with
       | TUPLE =>
           let* l :=
             (fix go (cs : list (position * dti)) : res (list out) :=
                match cs with
                | [] => Ok []
                | (p, c) :: cs' =>
                    let* a := print_position p c (tabs + 2) in
                    let* b := print_type_info_recursive c (tabs + 3) in
                    let* r := go cs' in
                    Ok (a ++ b ++ r)
                end) (containees d) in
           Ok (print_own d tabs ++ line (tabs + 1) [Text "("] ++ l ++ line (tabs + 1) [Text ")"])
       | _ =>
           match containee_ d with
           | None => UB
           | Some c =>
               let* l := print_type_info_recursive c (tabs + 2) in
               Ok (print_own d tabs ++ line (tabs + 1) [Text "["] ++ l ++ line (tabs + 1) [Text "]"])
           end
       end.
Definition print_type_info (d : dti) : res (list out) := print_type_info_recursive d 0.
(** src/tuple_def.c:272-297 [print_tuple_size_def] *)
Definition print_tuple_size_def (d : size_def) : list out :=
  line 0 [Text "is_variable_sized : "; Number (b2n (sd_variable d))]
  ++ if negb (sd_variable d) then line 0 [Text "size = "; Number (sd_size d)]
     else
       line 0 [Text "min_size : "; Number (sd_size d)] ++ line 0 [Text "max_size : "; Number (sd_max_size d)]
       ++ line 0 [Text "has_size_in_prefix : "; Number (b2n (sd_has_size d))]
       ++ line 0 [Text "has_element_count_in_prefix : "; Number (b2n (sd_has_count d))]
       ++ if sd_has_size d then []
          else
            line 0 [Text "does_containee_need_is_valid_bit_in_prefix : "; Number (b2n (sd_containee_valid_bit d))]
            ++ line 0 [Text "is_containee_bit_field : "; Number (b2n (sd_containee_bit_field d))]
            ++ if sd_containee_bit_field d then line 0 [Text "containee_bit_field_size : "; Number (sd_containee_size d)]
               else line 0 [Text "containee_size : "; Number (sd_containee_size d)].
(** src/tuple_def.c:299-305 [print_tuple_def] *)
Definition print_tuple_def (d : size_def) (t : dti) : res (list out) :=
  let* l := print_type_info t in
  Ok (Text "size_def : " :: print_tuple_size_def d ++ Text "type_info : " :: l).

(** ** pages *)
(** the loops of src/page_layout_fixed_array.c:499-512 and
    src/page_layout_slotted.c:771-784; [tuple - page] is the offset that is
    printed *)
Definition print_entry (exists_ : Z -> res bool) (nth_ : Z -> res (option Z)) (size_ : Z -> res Z) (t : dti) (p : mem) (i : Z) : res (list out) :=
  let* e := exists_ i in
  let* l :=
    if e : bool then
      let* a := nth_ i in
      match a with
      | None => UB
      | Some a =>
          let* s := size_ a in
          let* l := print_tuple t p a in
          Ok ([tab; tab; tab; Text "offset["; Number (u32 a); Text "] size("; Number s; Text ") :: "] ++ l ++ [nl; nl])
      end
    else Ok [tab; tab; tab; Text "TOMB STONE"; nl; nl] in
  Ok ([tab; tab; Text "tuple "; Number i; nl] ++ l).
(** src/page_layout_slotted.c:764-786 [print_slotted_page] *)
Definition print_slotted_page (p : mem) (ps : Z) (d : size_def) (t : dti) : res (list out) :=
  let* n := sl_tuple_count p ps in
  let* l := print_loop (Z.to_nat n) 0 (print_entry (sl_exists p ps) (sl_get_nth p ps) (tuple_size d p) t p) in
  Ok ([Text "SLOTTED PAGE :"; nl; nl; tab; Text "Tuples :: ("; Number n; Text ")"; nl] ++ l ++ [nl; nl; nl]).
(** src/page_layout_fixed_array.c:492-514 [print_fixed_array_page] *)
Definition print_fixed_array_page (p : mem) (ps : Z) (d : size_def) (t : dti) : res (list out) :=
  let* n := fa_tuple_count p ps in
  let* cap := fa_capacity p ps d in
  let* l := print_loop (Z.to_nat n) 0 (print_entry (fa_exists p ps) (fa_get_nth p ps d) (fun _ => Ok (sd_size d)) t p) in
  Ok ([Text "FIXED ARRAY PAGE :"; nl; nl; tab; Text "Tuples :: ("; Number n; Text " of "; Number cap; Text ")"; nl] ++ l ++ [nl; nl; nl]).
(** src/page_layout.c:397-415 [print_page] *)
Definition print_page (p : mem) (ps : Z) (d : size_def) (t : dti) : res (list out) :=
  let* a := get_space_allotted_to_all_tuples_on_page p ps d in
  let* o := get_space_occupied_by_all_tuples_on_page p ps d in
  let* s := get_space_occupied_by_all_tomb_stones_on_page p ps d in
  let* f := get_free_space_on_page p ps d in
  let* g := get_fragmentation_space_on_page p ps d in
  let* n := get_tuple_count_on_page p ps d in
  let* k := get_tomb_stone_count_on_page p ps d in
  let* l := dispatch d (print_slotted_page p ps d t) (print_fixed_array_page p ps d t) in
  Ok ([Text "PAGE : "; nl] ++ line 0 [Text "space allotted   = "; Number a]
      ++ line 0 [Text "space occupied   = "; Number o; Text " (tomb_stones occupy "; Number s; Text ")"]
      ++ line 0 [Text "free space       = "; Number f] ++ line 0 [Text "fragmented space = "; Number g] ++ line 0 []
      ++ line 0 [Text "tuple_count      = "; Number n] ++ line 0 [Text "tomb_stone_count = "; Number k] ++ line 0 [] ++ l).
(** src/page_layout.c:417-426 [print_page_in_hex] *)
Definition print_page_in_hex (p : mem) (ps : Z) : res (list out) :=
  let* l := print_loop (Z.to_nat ps) 0 (fun i =>
    let* b := rd p i 1 in
    Ok ((if i mod 8 =? 0 then [nl] else []) ++ [Text "["; Number i; Text "]("; Hex (dec b); Text ")"; Chars b; Text " "; tab; Text " "])) in
  Ok (l ++ [nl; nl]).
