(** * Serialization, deserialization and comparison of type descriptions
    (src/data_type_info.c) *)
From Verif Require Export DataType.

(** ** names
    [type_name] and [field_name] are [char[64]]; in the model a list of bytes,
    the bytes of the array after the end of the list are zero. *)

(** [strnlen(name, 64)], [k] is the number of bytes left *)
Fixpoint name_len (k : nat) (n : list byte) : Z :=
  match k, n with
  | S k', b :: n' => if b2z b =? 0 then 0 else 1 + name_len k' n'
  | _, _ => 0
  end.
(** src/data_type_info.c:248-254 [get_byte_count_for_serialized_type_name] *)
Definition name_count (n : list byte) : Z :=
  let l := name_len 64 n + 1 in if 64 <? l then 64 else l.
(** src/data_type_info.c:323-330 [serialize_type_name]: [strncpy] of
    [type_name_length] bytes, returns their number *)
Definition serialize_name (n : list byte) (m : mem) (o : Z) : res (Z * mem) :=
  let l := name_count n in
  let* m1 := wr m o (firstn (Z.to_nat l) (n ++ repeat Byte.x00 64)) in Ok (l, m1).
(** src/data_type_info.c:538-558 [deserialize_type_name]; [None] is the return
    value UINT32_MAX, otherwise the string stored in [result] (without its
    terminator, which is copied as well) and the return value *)
Definition deserialize_name (m : mem) (o n : Z) : res (option (list byte * Z)) :=
  let* l := strnlen m o (Z.min 64 n) in
  if negb (l =? 64) then
    if negb (l =? n) then
      let* b := rd m (o + l) 1 in
      if negb (dec b =? 0) then Ok None
      else let* s := rd m o l in Ok (Some (s, l + 1))
    else Ok None
  else let* s := rd m o l in Ok (Some (s, l)).
(** [strcmp(a, b) == 0] on two [char[64]]: reading past their ends, when both
    are 64 bytes long and equal, is outside the arrays; [k] bytes are left *)
Fixpoint same_name (k : nat) (a b : list byte) : res bool :=
  match k with
  | O => UB
  | S k' =>
      let x := b2z (hd Byte.x00 a) in let y := b2z (hd Byte.x00 b) in
      if negb (x =? y) then Ok false
      else if x =? 0 then Ok true
      else same_name k' (tl a) (tl b)
  end.

(** ** src/data_type_info.c:256-321 [get_byte_count_for_serialized_type_info] *)
Fixpoint byte_count (d : dti) : Z :=
  match type d with
  | FLOAT => u32 (1 + name_count (type_name d))
  | BIT_FIELD | UINT | INT | LARGE_UINT | LARGE_INT => u32 (1 + (1 + name_count (type_name d)))
  | STRING | BINARY => u32 (1 + 4 + name_count (type_name d))
  | TUPLE =>
      (fix go (cs : list (position * dti)) (acc : Z) : Z :=
         match cs with
         | [] => acc
         | (p, t) :: cs' => go cs' (u32 (acc + name_count (field_name p) + byte_count t))
         end) (containees d)
        (u32 (1 + (if negb (is_variable_sized_type_info d) then 4 else 8) + name_count (type_name d)))
  | ARRAY =>
      u32 (1 + (if negb (is_variable_sized_type_info d) then 4
                else (if negb (is_variable_element_count d) then 4 else 0) + 4)
           + name_count (type_name d) + match containee_ d with Some c => byte_count c | None => 0 end)
  end.

(** ** src/data_type_info.c:333-535 [serialize_type_info]: the return value and
    the buffer afterwards.  A FLOAT of another size than 4 and 8, which does not
    finalize, writes no type byte in the code. *)
Definition put (m : mem) (o c : Z) (bs : list byte) : res (Z * mem) :=
  let* m1 := wr m (o + c) bs in Ok (u32 (c + zlen bs), m1).
Definition put_name (n : list byte) (o : Z) (cm : Z * mem) : res (Z * mem) :=
  let* (l, m1) := serialize_name n (snd cm) (o + fst cm) in Ok (u32 (fst cm + l), m1).
(** :340-427, the cases of the primitive numeral types *)
Definition serialize_numeral (d : dti) (code : Z) (m : mem) (o : Z) : res (Z * mem) :=
  let* (c1, m1) := put m o 0 [z2b (if is_nullable_type_info d then code else code + 1)] in
  let* (c2, m2) := put m1 o c1 [z2b (size d)] in
  put_name (type_name d) o (c2, m2).
Fixpoint serialize_type_info (d : dti) (m : mem) (o : Z) : res (Z * mem) :=
  match type d with
  | BIT_FIELD => serialize_numeral d 0 m o
  | UINT => serialize_numeral d 2 m o
  | INT => serialize_numeral d 4 m o
  | FLOAT =>
      let code := if is_nullable_type_info d then 6 else 9 in
      let* (c1, m1) :=
        if size d =? 4 then put m o 0 [z2b code]
        else if size d =? 8 then put m o 0 [z2b (code + 1)]
        else Ok (0, m) in
      put_name (type_name d) o (c1, m1)
  | LARGE_UINT => serialize_numeral d 12 m o
  | LARGE_INT => serialize_numeral d 14 m o
  | STRING | BINARY =>
      let code := match type d with STRING => 120 | _ => 123 end in
      let* (c1, m1) :=
        if negb (is_variable_sized_type_info d) then
          let* (c1, m1) := put m o 0 [z2b (if is_nullable_type_info d then code else code + 1)] in
          put m1 o c1 (enc 4 (element_count_ d))
        else
          let* (c1, m1) := put m o 0 [z2b (code + 2)] in
          put m1 o c1 (enc 4 (max_size d)) in
      put_name (type_name d) o (c1, m1)
  | TUPLE =>
      let* (c1, m1) :=
        if negb (is_variable_sized_type_info d) then
          let* (c1, m1) := put m o 0 [z2b (if is_nullable_type_info d then 126 else 127)] in
          put m1 o c1 (enc 4 (element_count d))
        else
          let* (c1, m1) := put m o 0 [z2b 128] in
          let* (c2, m2) := put m1 o c1 (enc 4 (element_count d)) in
          put m2 o c2 (enc 4 (max_size d)) in
      let* (c2, m2) := put_name (type_name d) o (c1, m1) in
      (fix go (cs : list (position * dti)) (c : Z) (m : mem) : res (Z * mem) :=
         match cs with
         | [] => Ok (c, m)
         | (p, t) :: cs' =>
             let* (c3, m3) := put_name (field_name p) o (c, m) in
             let* (n, m4) := serialize_type_info t m3 (o + c3) in
             go cs' (u32 (c3 + n)) m4
         end) (containees d) c2 m2
  | ARRAY =>
      let* (c1, m1) :=
        if negb (is_variable_sized_type_info d) then
          let* (c1, m1) := put m o 0 [z2b (if is_nullable_type_info d then 129 else 130)] in
          put m1 o c1 (enc 4 (element_count_ d))
        else
          let* (c2, m2) :=
            if negb (is_variable_element_count d) then
              let* (c1, m1) := put m o 0 [z2b 131] in
              put m1 o c1 (enc 4 (element_count_ d))
            else put m o 0 [z2b 132] in
          put m2 o c2 (enc 4 (max_size d)) in
      let* (c2, m2) := put_name (type_name d) o (c1, m1) in
      match containee_ d with
      | None => UB
      | Some c => let* (n, m3) := serialize_type_info c m2 (o + c2) in Ok (u32 (c2 + n), m3)
      end
  end.

(** ** src/data_type_info.c:562-1141 [deserialize_type_info] *)

(** what the code does not determine: the content of the memory [malloc]
    returns for the struct of a TUPLE read at an offset and for its element
    read at an offset, and whether the static type of
    src/data_type_info_defaults.c for a type, nullability and size has been
    finalized before *)
Record environment := mk_environment {
  old_struct : Z -> dti;
  old_position : Z -> position;
  static_finalized : data_type -> bool -> Z -> bool
}.
Inductive parsed (A : Type) : Type := Parsed (a : A) | Failed | Rejected.
Arguments Parsed {A} a.
Arguments Failed {A}.
Arguments Rejected {A}.

(** :570-738, 822-912, for the type codes of numeral types with a size byte:
    type, nullability and largest size *)
Definition numeral_code (code : Z) : option (data_type * bool * Z) :=
  if code =? 0 then Some (BIT_FIELD, true, 64) else if code =? 1 then Some (BIT_FIELD, false, 64)
  else if code =? 2 then Some (UINT, true, 8) else if code =? 3 then Some (UINT, false, 8)
  else if code =? 4 then Some (INT, true, 8) else if code =? 5 then Some (INT, false, 8)
  else if code =? 12 then Some (LARGE_UINT, true, 32) else if code =? 13 then Some (LARGE_UINT, false, 32)
  else if code =? 14 then Some (LARGE_INT, true, 32) else if code =? 15 then Some (LARGE_INT, false, 32)
  else None.
(** :580-594 and alike: the static type when the name is empty, otherwise a new
    struct.  [are_identical_type_info] of the new type and the static one of
    the same size and nullability compares only their names. *)
Definition numeral_type (e : environment) (ty : data_type) (nu : bool) (sz : Z) (name : list byte) : dti :=
  mk_dti (match name with [] => static_finalized e ty nu sz | _ => false end)
         name ty nu false sz 0 false 0 0 None [].
(** :739-821: codes 6 to 11, [type_no] is 1, 2 or 3; [dti = {}] for 3 *)
Definition float_type (e : environment) (nu : bool) (type_no : Z) (name : list byte) : dti :=
  if type_no =? 1 then numeral_type e FLOAT nu 4 name
  else if type_no =? 2 then numeral_type e FLOAT nu 8 name
  else mk_dti false name BIT_FIELD false false 0 0 false 0 0 None [].

(** The input is the [n] bytes at offset [o] of [m].  Allocation is assumed to
    succeed.  [fuel] bounds the nesting and the number of elements; running out
    of it is [UB].  [check] is not in the code: it is applied to the types
    nested in a TUPLE, after they are read; the code is [check = fun _ => true],
    which never gives [Rejected]. *)
Section Deserialize.
  Variable (check : dti -> bool) (e : environment) (m : mem).

  (** :570-738, 822-912 *)
  Definition deserialize_numeral (ty : data_type) (nu : bool) (limit o n : Z) : res (parsed dti) :=
    let* b := rd m (o + 1) 1 in
    let sz := dec b in
    if (sz <? 1) || (limit <? sz) then Ok Failed
    else
      let* r := deserialize_name m (o + 2) (u32 (n - 2)) in
      match r with
      | None => Ok Failed
      | Some (name, _) => Ok (Parsed (numeral_type e ty nu sz name))
      end.
  (** a [uint32_t] at [o + c], when it is within the [n] bytes *)
  Definition read_u32 (o n c : Z) : res (option Z) :=
    if n <? u32 (c + 4) then Ok None
    else let* bs := rd m (o + c) 4 in Ok (Some (dec bs)).
  (** :920-997, STRING and BINARY; [code] is 0, 1 or 2 *)
  Definition deserialize_string (ty : data_type) (code o n : Z) : res (parsed dti) :=
    let* v := read_u32 o n 1 in
    match v with
    | None => Ok Failed
    | Some v =>
        let* r := deserialize_name m (o + 5) (u32 (n - 5)) in
        match r with
        | None => Ok Failed
        | Some (name, _) =>
            Ok (Parsed (if code <=? 1
                        then mk_dti false name ty (code =? 0) false v 0 false v 0 (Some uint8_type) []
                        else mk_dti false name ty false false 0 v true 0 0 (Some uint8_type) []))
        end
    end.
  (** the header of a container: up to two numbers and the name; gives the
      numbers, the name and the bytes consumed *)
  Definition read_header (o n : Z) (two : bool) : res (option (Z * Z * list byte * Z)) :=
    let* v1 := read_u32 o n 1 in
    match v1 with
    | None => Ok None
    | Some v1 =>
        let* v2 := if two then read_u32 o n 5 else Ok (Some 0) in
        match v2 with
        | None => Ok None
        | Some v2 =>
            let c := if two then 9 else 5 in
            let* r := deserialize_name m (o + c) (u32 (n - c)) in
            match r with
            | None => Ok None
            | Some (name, l) => Ok (Some (v1, v2, name, u32 (c + l)))
            end
        end
    end.

  Fixpoint deserialize (fuel : nat) (o n : Z) : res (parsed dti) :=
    match fuel with
    | O => UB
    | S fuel' =>
        if n <? 1 then Ok Failed
        else
          let* b := rd m o 1 in
          let code := dec b in
          match (if 2 <=? n then numeral_code code else None) with
          | Some (ty, nu, limit) => deserialize_numeral ty nu limit o n
          | None =>
            if (5 <? code) && (code <=? 11) then
              (* :739-821 *)
              let* r := deserialize_name m (o + 1) (u32 (n - 1)) in
              match r with
              | None => Ok Failed
              | Some (name, _) =>
                  Ok (Parsed (if code <=? 8 then float_type e true (code - 5) name
                              else float_type e false (code - 8) name))
              end
            else if (120 <=? code) && (code <=? 122) then deserialize_string STRING (code - 120) o n
            else if (123 <=? code) && (code <=? 125) then deserialize_string BINARY (code - 123) o n
            else if (126 <=? code) && (code <=? 128) then
              (* :998-1081, TUPLE *)
              let* h := read_header o n (code =? 128) in
              match h with
              | None => Ok Failed
              | Some (count, ms, name, c) =>
                  let* cs :=
                    (fix elements (k : nat) (left c : Z) : res (parsed (list (position * dti))) :=
                       if left =? 0 then Ok (Parsed [])
                       else
                         match k with
                         | O => UB
                         | S k' =>
                             let* f := deserialize_name m (o + c) (u32 (n - c)) in
                             match f with
                             | None => Ok Failed
                             | Some (fname, l) =>
                                 let c1 := u32 (c + l) in
                                 let* t := deserialize fuel' (o + c1) (u32 (n - c1)) in
                                 match t with
                                 | Failed => Ok Failed
                                 | Rejected => Ok Rejected
                                 | Parsed t =>
                                     if negb (check t) then Ok Rejected
                                     else
                                       (* the return value of finalize_type_info is ignored *)
                                       let t1 := snd (finalize t) in
                                       let q := old_position e (o + c) in
                                       let* r := elements k' (left - 1) (u32 (c1 + byte_count t1)) in
                                       Ok (match r with
                                           | Parsed cs => Parsed ((mk_position fname (p_off q) (p_valid q), t1) :: cs)
                                           | Failed => Failed
                                           | Rejected => Rejected
                                           end)
                                 end
                             end
                         end) fuel' count c in
                  let old := old_struct e o in
                  Ok (match cs with
                      | Parsed cs =>
                          Parsed (mk_dti false name TUPLE (if code =? 128 then true else code =? 126)
                                    (is_variable_sized_ old) (size old) ms false (element_count_ old)
                                    (prefix_bitmap_size_in_bits old) (containee_ old) cs)
                      | Failed => Failed
                      | Rejected => Rejected
                      end)
              end
            else if (129 <=? code) && (code <=? 132) then
              (* :1082-1138, ARRAY *)
              let* h := read_header o n (code =? 131) in
              match h with
              | None => Ok Failed
              | Some (v1, v2, name, c) =>
                  let* t := deserialize fuel' (o + c) (u32 (n - c)) in
                  Ok (match t with
                      | Parsed t =>
                          Parsed (if code <=? 130 then mk_dti false name ARRAY (code =? 129) false 0 0 false v1 0 (Some t) []
                                  else if code <=? 131 then mk_dti false name ARRAY true false 0 v2 false v1 0 (Some t) []
                                  else mk_dti false name ARRAY false false 0 v1 true 0 0 (Some t) [])
                      | Failed => Failed
                      | Rejected => Rejected
                      end)
              end
            else Ok Failed
          end
    end.
End Deserialize.

(** the function of the code; [None] is the return value NULL *)
Definition deserialize_type_info (e : environment) (m : mem) (o n : Z) : res (option dti) :=
  let* r := deserialize (fun _ => true) e m (S (length m)) o n in
  Ok (match r with Parsed t => Some t | _ => None end).

(** ** src/data_type_info.c:1259-1341 [are_identical_type_info].  Equal pointers
    are equal types here, for them the code returns 1 without looking. *)
Fixpoint are_identical (a b : dti) : res bool :=
  if negb (data_type_eqb (type a) (type b)) then Ok false
  else
    let* names := same_name 64 (type_name a) (type_name b) in
    if negb names then Ok false
    else if negb (eqb (is_variable_sized_type_info a) (is_variable_sized_type_info b)) then Ok false
    else if (if negb (is_variable_sized_type_info a)
             then negb (eqb (is_nullable a) (is_nullable b)) || negb (size a =? size b)
             else negb (max_size a =? max_size b)) then Ok false
    else
      match type a with
      | TUPLE =>
          if negb (element_count a =? element_count b) then Ok false
          else
            (fix all (l : list (position * dti)) (r : list (position * dti)) : res bool :=
               match l, r with
               | (_, x) :: l', (_, y) :: r' =>
                   let* i := are_identical x y in
                   if negb i then Ok false else all l' r'
               | _, _ => Ok true
               end) (containees a) (containees b)
      | ARRAY =>
          if negb (eqb (has_variable_element_count a) (has_variable_element_count b)) then Ok false
          else if negb (has_variable_element_count a) && negb (element_count_ a =? element_count_ b) then Ok false
          else
            match containee_ a, containee_ b with
            | Some x, Some y => are_identical x y
            | _, _ => UB
            end
      | _ => Ok true
      end.

(** ** src/data_type_info.c:26-41 [find_containee_using_field_name_in_tuple_type_info];
    the name to find is a C string, [s] without its terminator.  UINT32_MAX when
    there is none. *)
Fixpoint same_string (k : nat) (s n : list byte) : res bool :=
  match k with
  | O => UB
  | S k' =>
      match s with
      | [] => Ok (b2z (hd Byte.x00 n) =? 0)
      | x :: s' => if negb (b2z x =? b2z (hd Byte.x00 n)) then Ok false else same_string k' s' (tl n)
      end
  end.
Fixpoint find_from (s : list byte) (cs : list (position * dti)) (i : Z) : res Z :=
  match cs with
  | [] => Ok 4294967295
  | (p, _) :: cs' =>
      let* same := same_string 64 s (field_name p) in
      if same then Ok i else find_from s cs' (i + 1)
  end.
Definition find_containee (d : dti) (s : list byte) : res Z :=
  match type d with
  | TUPLE => find_from s (containees d) 0
  | _ => Ok 4294967295
  end.
