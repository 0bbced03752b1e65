(** * Primitive numerals: comparison, type casts, smallest and largest values
    (src/primitive_numeral_types.c)

    The functions of the dependencies serint and cutlery that the code calls are
    not in the repository.  They are modelled by what their names say, exactly
    and without rounding: [compare_numbers], [compare_intb64_uintb64],
    [compare_uint256], [compare_int256], [compare_int256_uint256] compare the
    integers; [compare_uintb64_double], [compare_intb64_double],
    [compare_uint256_double], [compare_int256_double] compare the integer with
    the real number that the double stands for. *)
From Verif Require Export Datum.

(** ** IEEE 754: what the 32 bits of a float and the 64 bits of a double stand
    for.  [Fin z] is the real number z / 2^1074; 2^-1074 divides every finite
    double. *)
Inductive number := NegInf | Fin (z : Z) | PosInf | NaN.
Definition ieee (mantissa exponent_bits bits : Z) : number :=
  let negative := 0 <? bits / 2 ^ (mantissa + exponent_bits) in
  let e := (bits / 2 ^ mantissa) mod 2 ^ exponent_bits in
  let f := bits mod 2 ^ mantissa in
  let unit := 1074 + 2 - mantissa - 2 ^ (exponent_bits - 1) in   (* of a subnormal number, as a power of two *)
  if e =? 2 ^ exponent_bits - 1
  then if f =? 0 then (if negative then NegInf else PosInf) else NaN
  else
    let z := if e =? 0 then f * 2 ^ unit else (2 ^ mantissa + f) * 2 ^ (e - 1 + unit) in
    Fin (if negative then - z else z).
Definition float_number (bits : Z) : number := ieee 23 8 bits.
Definition double_number (bits : Z) : number := ieee 52 11 bits.
Definition integer (z : Z) : number := Fin (z * 2 ^ 1074).
(** math.h [isnan] *)
Definition isnan (x : number) : bool := match x with NaN => true | _ => false end.

(** cutlery [compare_numbers] on integers, (a > b) - (a < b) *)
Definition compare_numbers (a b : Z) : Z := (if b <? a then 1 else 0) - (if a <? b then 1 else 0).
(** the same on floats and doubles (a float is converted to a double, which
    keeps its value); comparisons with NaN are false *)
Definition float_less (a b : number) : bool :=
  match a, b with
  | Fin x, Fin y => x <? y
  | NegInf, Fin _ | NegInf, PosInf | Fin _, PosInf => true
  | _, _ => false
  end.
Definition compare_floats (a b : number) : Z := (if float_less b a then 1 else 0) - (if float_less a b then 1 else 0).
(** serint [compare_uintb64_double], [compare_intb64_double],
    [compare_uint256_double], [compare_int256_double] *)
Definition compare_integer_double (a : Z) (b : number) : Z := compare_floats (integer a) b.

(** src/primitive_numeral_types.c:7-21 [is_primitive_numeral_type_info] *)
Definition is_primitive_numeral (d : dti) : bool :=
  match type d with BIT_FIELD | UINT | INT | FLOAT | LARGE_UINT | LARGE_INT => true | _ => false end.

(** reading [float_value] or [double_value], by the size of the type; [None]
    for other sizes, for which the functions give up *)
Definition float_member (d : dti) (e : datum) : res (option number) :=
  if size d =? 4 then let* b := float_value e in Ok (Some (float_number b))
  else if size d =? 8 then let* b := double_value e in Ok (Some (double_number b))
  else Ok None.

(** src/primitive_numeral_types.c:44-62 and its copies at 81-99, 118-136,
    302-320, 339-357: an integer on the left, a FLOAT on the right *)
Definition compare_integer_float (a : Z) (e2 : datum) (d2 : dti) : res Z :=
  let* x := float_member d2 e2 in
  Ok (match x with
      | None => -2
      | Some x => if isnan x then -1 else compare_integer_double a x
      end).
(** src/primitive_numeral_types.c:151-171, 200-213 and 222-242, 271-284: a FLOAT
    on the left, an integer on the right *)
Definition compare_float_integer (x : number) (b : Z) : Z := if isnan x then 1 else - compare_integer_double b x.
(** src/primitive_numeral_types.c:172-199, 243-270, 388-416: NaN is the greatest *)
Definition compare_float_float (x y : number) : Z :=
  if isnan x && isnan y then 0 else if isnan x then 1 else if isnan y then -1 else compare_floats x y.

(** src/primitive_numeral_types.c:23-369 [compare_primitive_numeral_type] *)
Definition compare_primitive (e1 : datum) (d1 : dti) (e2 : datum) (d2 : dti) : res Z :=
  if is_datum_NULL e1 && is_datum_NULL e2 then Ok 0
  else if is_datum_NULL e1 && negb (is_datum_NULL e2) then Ok (-1)
  else if negb (is_datum_NULL e1) && is_datum_NULL e2 then Ok 1
  else
    match type d1 with
    | BIT_FIELD =>
        let* a := bit_field_value e1 in
        match type d2 with
        | BIT_FIELD => let* b := bit_field_value e2 in Ok (compare_numbers a b)
        | UINT => let* b := uint_value e2 in Ok (compare_numbers a b)
        | INT => let* b := int_value e2 in Ok (- compare_numbers b a)
        | FLOAT => compare_integer_float a e2 d2
        | LARGE_UINT => let* b := large_uint_value e2 in Ok (compare_numbers a b)
        | LARGE_INT => let* b := large_int_value e2 in Ok (- compare_numbers b a)
        | _ => Ok (-2)
        end
    | UINT =>
        let* a := uint_value e1 in
        match type d2 with
        | BIT_FIELD => let* b := bit_field_value e2 in Ok (compare_numbers a b)
        | UINT => let* b := uint_value e2 in Ok (compare_numbers a b)
        | INT => let* b := int_value e2 in Ok (- compare_numbers b a)
        | FLOAT => compare_integer_float a e2 d2
        | LARGE_UINT => let* b := large_uint_value e2 in Ok (compare_numbers a b)
        | LARGE_INT => let* b := large_int_value e2 in Ok (- compare_numbers b a)
        | _ => Ok (-2)
        end
    | INT =>
        let* a := int_value e1 in
        match type d2 with
        | BIT_FIELD => let* b := bit_field_value e2 in Ok (compare_numbers a b)
        | UINT => let* b := uint_value e2 in Ok (compare_numbers a b)
        | INT => let* b := int_value e2 in Ok (compare_numbers a b)
        | FLOAT => compare_integer_float a e2 d2
        | LARGE_UINT => let* b := large_uint_value e2 in Ok (compare_numbers a b)
        | LARGE_INT => let* b := large_int_value e2 in Ok (compare_numbers a b)
        | _ => Ok (-2)
        end
    | FLOAT =>
        let* x := float_member d1 e1 in
        match x with
        | None => Ok (-2)
        | Some x =>
            match type d2 with
            | BIT_FIELD => let* b := bit_field_value e2 in Ok (compare_float_integer x b)
            | UINT => let* b := uint_value e2 in Ok (compare_float_integer x b)
            | INT => let* b := int_value e2 in Ok (compare_float_integer x b)
            | FLOAT =>
                let* y := float_member d2 e2 in
                Ok (match y with None => -2 | Some y => compare_float_float x y end)
            | LARGE_UINT => let* b := large_uint_value e2 in Ok (compare_float_integer x b)
            | LARGE_INT => let* b := large_int_value e2 in Ok (compare_float_integer x b)
            | _ => Ok (-2)
            end
        end
    | LARGE_UINT =>
        let* a := large_uint_value e1 in
        match type d2 with
        | BIT_FIELD => let* b := bit_field_value e2 in Ok (compare_numbers a b)
        | UINT => let* b := uint_value e2 in Ok (compare_numbers a b)
        | INT => let* b := int_value e2 in Ok (- compare_numbers b a)
        | FLOAT => compare_integer_float a e2 d2
        | LARGE_UINT => let* b := large_uint_value e2 in Ok (compare_numbers a b)
        | LARGE_INT => let* b := large_int_value e2 in Ok (- compare_numbers b a)
        | _ => Ok (-2)
        end
    | LARGE_INT =>
        let* a := large_int_value e1 in
        match type d2 with
        | BIT_FIELD => let* b := bit_field_value e2 in Ok (compare_numbers a b)
        | UINT => let* b := uint_value e2 in Ok (compare_numbers a b)
        | INT => let* b := int_value e2 in Ok (compare_numbers a b)
        | FLOAT => compare_integer_float a e2 d2
        | LARGE_UINT => let* b := large_uint_value e2 in Ok (compare_numbers a b)
        | LARGE_INT => let* b := large_int_value e2 in Ok (compare_numbers a b)
        | _ => Ok (-2)
        end
    | _ => Ok (-2)
    end.

(** src/primitive_numeral_types.c:371-424 [compare_primitive_numeral_type2] *)
Definition compare_primitive2 (e1 e2 : datum) (d : dti) : res Z :=
  if is_datum_NULL e1 && is_datum_NULL e2 then Ok 0
  else if is_datum_NULL e1 && negb (is_datum_NULL e2) then Ok (-1)
  else if negb (is_datum_NULL e1) && is_datum_NULL e2 then Ok 1
  else
    match type d with
    | BIT_FIELD => let* a := bit_field_value e1 in let* b := bit_field_value e2 in Ok (compare_numbers a b)
    | UINT => let* a := uint_value e1 in let* b := uint_value e2 in Ok (compare_numbers a b)
    | INT => let* a := int_value e1 in let* b := int_value e2 in Ok (compare_numbers a b)
    | FLOAT =>
        let* x := float_member d e1 in
        let* y := float_member d e2 in
        Ok (match x, y with Some x, Some y => compare_float_float x y | _, _ => -2 end)
    | LARGE_UINT => let* a := large_uint_value e1 in let* b := large_uint_value e2 in Ok (compare_numbers a b)
    | LARGE_INT => let* a := large_int_value e1 in let* b := large_int_value e2 in Ok (compare_numbers a b)
    | _ => Ok (-2)
    end.

(** ** type casts

    [z mod 2^bits] as a signed number: the conversion of C to a signed type, and
    the reinterpretation of the limbs of a [uint256] as an [int256] *)
Definition to_signed (bits z : Z) : Z :=
  let r := z mod 2 ^ bits in if r <? 2 ^ (bits - 1) then r else r - 2 ^ bits.
(** conversions whose rounding the C standard or serint decides.  They are
    arguments of the model, nothing is assumed about them:
    [from_double signed bits x] is serint [convert_from_double_uintb64] and its
    variants ([None] is return 0), [to_float] and [to_double] convert an integer,
    [narrow] the bits of a double to those of a float. *)
Record conversions := mk_conversions {
  from_double : bool -> Z -> number -> option Z;
  to_float : Z -> Z;
  to_double : Z -> Z;
  narrow : Z -> Z
}.
(** the conversion of C from float to double: same value, a NaN keeps its payload *)
Definition widen (bits : Z) : Z :=
  let s := bits / 2 ^ 31 in
  let e := (bits / 2 ^ 23) mod 2 ^ 8 in
  let f := bits mod 2 ^ 23 in
  if e =? 255 then s * 2 ^ 63 + 2047 * 2 ^ 52 + f * 2 ^ 29
  else if e =? 0 then
    if f =? 0 then s * 2 ^ 63
    else let k := Z.log2 f in s * 2 ^ 63 + (k + 874) * 2 ^ 52 + (f - 2 ^ k) * 2 ^ (52 - k)
  else s * 2 ^ 63 + (e + 896) * 2 ^ 52 + f * 2 ^ 29.

(** src/primitive_numeral_types.c:429-436: a copy of the value of EMPTY_DATUM
    (not its address), read as the member of the type *)
Definition zero_datum (d : dti) : datum :=
  match type d with
  | BIT_FIELD => DBits 0
  | UINT => DUint 0
  | INT => DInt 0
  | FLOAT => if size d =? 4 then DFloat 0 else DDouble 0
  | LARGE_UINT => DLargeUint 0
  | LARGE_INT => DLargeInt 0
  | _ => DEmpty
  end.
(** the integer member of [e] that belongs to an integer type *)
Definition integer_member (d : dti) (e : datum) : res (option Z) :=
  match type d with
  | BIT_FIELD => let* z := bit_field_value e in Ok (Some z)
  | UINT => let* z := uint_value e in Ok (Some z)
  | INT => let* z := int_value e in Ok (Some z)
  | LARGE_UINT => let* z := large_uint_value e in Ok (Some z)
  | LARGE_INT => let* z := large_int_value e in Ok (Some z)
  | _ => Ok None
  end.
(** src/primitive_numeral_types.c:426-800 [type_cast_primitive_numeral_type];
    [None] is return 0.  The value is not reduced to the size of the type here,
    only when it is stored.  For an integer source the assignments of the code
    keep 64 bits ([limbs[0]] of a large integer, C conversion between the
    64 bit types) or 256 bits ([get_uint256], [get_int256], [raw_uint_value]). *)
Definition type_cast (cv : conversions) (d : dti) (e_from : datum) (d_from : dti) : res (option datum) :=
  if is_datum_NULL e_from then Ok (Some (if is_nullable_type_info d then DNull else zero_datum d))
  else
    let from_float (signed : bool) (bits : Z) (f : Z -> datum) : res (option datum) :=
      match type d_from with
      | FLOAT => let* x := float_member d_from e_from in
                 Ok (match x with None => None | Some x => option_map f (from_double cv signed bits x) end)
      | _ => Ok None
      end in
    let* i := integer_member d_from e_from in
    match type d with
    | BIT_FIELD => match i with Some z => Ok (Some (DBits (z mod 2 ^ 64))) | None => from_float false 64 DBits end
    | UINT => match i with Some z => Ok (Some (DUint (z mod 2 ^ 64))) | None => from_float false 64 DUint end
    | INT => match i with Some z => Ok (Some (DInt (to_signed 64 z))) | None => from_float true 64 DInt end
    | FLOAT =>
        if size d =? 4 then
          match i with
          | Some z => Ok (Some (DFloat (to_float cv z)))
          | None =>
              match type d_from with
              | FLOAT => if size d_from =? 4 then let* b := float_value e_from in Ok (Some (DFloat b))
                         else if size d_from =? 8 then let* b := double_value e_from in Ok (Some (DFloat (narrow cv b)))
                         else Ok None
              | _ => Ok None
              end
          end
        else if size d =? 8 then
          match i with
          | Some z => Ok (Some (DDouble (to_double cv z)))
          | None =>
              match type d_from with
              | FLOAT => if size d_from =? 4 then let* b := float_value e_from in Ok (Some (DDouble (widen b)))
                         else if size d_from =? 8 then let* b := double_value e_from in Ok (Some (DDouble b))
                         else Ok None
              | _ => Ok None
              end
          end
        else Ok None
    | LARGE_UINT => match i with Some z => Ok (Some (DLargeUint (z mod 2 ^ 256))) | None => from_float false 256 DLargeUint end
    | LARGE_INT => match i with Some z => Ok (Some (DLargeInt (to_signed 256 z))) | None => from_float true 256 DLargeInt end
    | _ => Ok None
    end.

(** the same function with the datum that it writes to.  On the way from a value
    that is not NULL it assigns only the member of the union, not [is_NULL]
    (e.g. 447-451): a datum that was NULL stays NULL.  [old] is what the datum
    held before the call. *)
Definition type_cast_into (cv : conversions) (old : datum) (d : dti) (e_from : datum) (d_from : dti) : res (option datum) :=
  let* r := type_cast cv d e_from d_from in
  Ok (match r with
      | None => None
      | Some w => Some (if is_datum_NULL old && negb (is_datum_NULL e_from) then DNull else w)
      end).

(** ** smallest and largest values *)
(** src/primitive_numeral_types.c:802-832 [get_MIN_value_for_primitive_numeral_type_info];
    [bitwise_not_int256] of the mask of the n low bits is -2^n *)
Definition min_value (d : dti) : datum :=
  if is_nullable_type_info d then DNull
  else match type d with
       | UINT => DUint 0
       | INT => DInt (- 2 ^ (8 * size d - 1))
       | FLOAT => if size d =? 4 then DFloat 4286578688            (* -INFINITY, 0xff800000 *)
                  else if size d =? 8 then DDouble 18442240474082181120   (* 0xfff0000000000000 *)
                  else DNull
       | LARGE_UINT => DLargeUint 0
       | LARGE_INT => DLargeInt (- 2 ^ (8 * size d - 1))
       | BIT_FIELD => DBits 0
       | _ => DNull
       end.
(** src/primitive_numeral_types.c:834-861 [get_MAX_value_for_primitive_numeral_type_info] *)
Definition max_value (d : dti) : datum :=
  match type d with
  | UINT => DUint (2 ^ (8 * size d) - 1)
  | INT => DInt (2 ^ (8 * size d - 1) - 1)
  | FLOAT => if size d =? 4 then DFloat 2143289344            (* NAN, 0x7fc00000 *)
             else if size d =? 8 then DDouble 9221120237041090560   (* 0x7ff8000000000000 *)
             else DNull
  | LARGE_UINT => DLargeUint (2 ^ (8 * size d) - 1)
  | LARGE_INT => DLargeInt (2 ^ (8 * size d - 1) - 1)
  | BIT_FIELD => DBits (if size d =? 64 then 2 ^ 64 - 1 else 2 ^ size d - 1)
  | _ => DNull
  end.
