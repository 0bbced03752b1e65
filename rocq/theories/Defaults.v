(** * The predefined types and the macros that make types

    inc/tuplestore/data_type_info_defaults.h and
    src/data_type_info_defaults.c.  The fields that an initializer does not
    mention are 0.  [is_static] says who frees the struct and is modelled in
    [TypeHeap]; a name is the string given, the bytes behind it in the
    [char[64]] are 0 and left out.  UINT_NON_NULLABLE[1] as the containee of
    strings is [uint8_type] (src/data_type_info.c:104 sets it again). *)
From Verif Require Export DataType.

(** inc/tuplestore/data_type_info_defaults.h:38-47 *)
Definition define_bit_field_nullable_type (name : list byte) (n : Z) : dti :=
  mk_dti false name BIT_FIELD true false n 0 false 0 0 None [].
(** inc/tuplestore/data_type_info_defaults.h:49-58 *)
Definition define_bit_field_non_nullable_type (name : list byte) (n : Z) : dti :=
  mk_dti false name BIT_FIELD false false n 0 false 0 0 None [].
(** inc/tuplestore/data_type_info_defaults.h:60-69 *)
Definition define_uint_nullable_type (name : list byte) (n : Z) : dti :=
  mk_dti false name UINT true false n 0 false 0 0 None [].
(** inc/tuplestore/data_type_info_defaults.h:71-80 *)
Definition define_uint_non_nullable_type (name : list byte) (n : Z) : dti :=
  mk_dti false name UINT false false n 0 false 0 0 None [].
(** inc/tuplestore/data_type_info_defaults.h:82-91 *)
Definition define_int_nullable_type (name : list byte) (n : Z) : dti :=
  mk_dti false name INT true false n 0 false 0 0 None [].
(** inc/tuplestore/data_type_info_defaults.h:93-102 *)
Definition define_int_non_nullable_type (name : list byte) (n : Z) : dti :=
  mk_dti false name INT false false n 0 false 0 0 None [].
(** inc/tuplestore/data_type_info_defaults.h:104-113; [n] is [sizeof(size_for)] *)
Definition define_float_nullable_type (name : list byte) (n : Z) : dti :=
  mk_dti false name FLOAT true false n 0 false 0 0 None [].
(** inc/tuplestore/data_type_info_defaults.h:115-124 *)
Definition define_float_non_nullable_type (name : list byte) (n : Z) : dti :=
  mk_dti false name FLOAT false false n 0 false 0 0 None [].
(** inc/tuplestore/data_type_info_defaults.h:126-135 *)
Definition define_large_uint_nullable_type (name : list byte) (n : Z) : dti :=
  mk_dti false name LARGE_UINT true false n 0 false 0 0 None [].
(** inc/tuplestore/data_type_info_defaults.h:137-146 *)
Definition define_large_uint_non_nullable_type (name : list byte) (n : Z) : dti :=
  mk_dti false name LARGE_UINT false false n 0 false 0 0 None [].
(** inc/tuplestore/data_type_info_defaults.h:148-157 *)
Definition define_large_int_nullable_type (name : list byte) (n : Z) : dti :=
  mk_dti false name LARGE_INT true false n 0 false 0 0 None [].
(** inc/tuplestore/data_type_info_defaults.h:159-168 *)
Definition define_large_int_non_nullable_type (name : list byte) (n : Z) : dti :=
  mk_dti false name LARGE_INT false false n 0 false 0 0 None [].

(** inc/tuplestore/data_type_info_defaults.h:170-181 *)
Definition get_fixed_length_string_type (name : list byte) (n : Z) (nullable : bool) : dti :=
  mk_dti false name STRING nullable false n 0 false n 0 (Some uint8_type) [].
(** inc/tuplestore/data_type_info_defaults.h:183-194 *)
Definition get_fixed_length_binary_type (name : list byte) (n : Z) (nullable : bool) : dti :=
  mk_dti false name BINARY nullable false n 0 false n 0 (Some uint8_type) [].
(** inc/tuplestore/data_type_info_defaults.h:196-205 *)
Definition get_variable_length_string_type (name : list byte) (ms : Z) : dti :=
  mk_dti false name STRING false false 0 ms true 0 0 (Some uint8_type) [].
(** inc/tuplestore/data_type_info_defaults.h:207-216 *)
Definition get_variable_length_binary_type (name : list byte) (ms : Z) : dti :=
  mk_dti false name BINARY false false 0 ms true 0 0 (Some uint8_type) [].
(** inc/tuplestore/data_type_info_defaults.h:218-229 *)
Definition get_fixed_element_count_array_type (name : list byte) (n ms : Z) (nullable : bool) (c : dti) : dti :=
  mk_dti false name ARRAY nullable false 0 ms false n 0 (Some c) [].
(** inc/tuplestore/data_type_info_defaults.h:231-239 *)
Definition get_variable_element_count_array_type (name : list byte) (ms : Z) (c : dti) : dti :=
  mk_dti false name ARRAY false false 0 ms true 0 0 (Some c) [].
(** inc/tuplestore/data_type_info_defaults.h:242-250
    [initialize_tuple_data_type_info], followed by the assignments of
    [containees[i].field_name] and [containees[i].al.type_info] that every user
    makes (data_type_info.h:111-113).  [d0] is the memory that [malloc]
    returned: the fields that nothing assigns keep its values, also the
    positions ([junk i]) of the elements.  [element_count] is the number of
    fields given. *)
Definition initialize_tuple_type (d0 : dti) (junk : Z -> position) (name : list byte) (nullable : bool) (ms : Z) (fields : list (list byte * dti)) : dti :=
  mk_dti false (firstn 64 name) TUPLE nullable (is_variable_sized_ d0) (size d0) ms false (zlen fields)
    (prefix_bitmap_size_in_bits d0) (containee_ d0)
    (map (fun '(i, (f, t)) => (mk_position f (p_off (junk i)) (p_valid (junk i)), t)) (combine (map Z.of_nat (seq 0 (length fields))) fields)).

(** src/data_type_info_defaults.c:4-138: index 0 holds NULL *)
Definition BIT_FIELD_NULLABLE : list (option dti) := None :: map (fun n => Some (define_bit_field_nullable_type [] n))
  [1; 2; 3; 4; 5; 6; 7; 8; 9; 10; 11; 12; 13; 14; 15; 16; 17; 18; 19; 20; 21; 22; 23; 24; 25; 26; 27; 28; 29; 30; 31; 32;
   33; 34; 35; 36; 37; 38; 39; 40; 41; 42; 43; 44; 45; 46; 47; 48; 49; 50; 51; 52; 53; 54; 55; 56; 57; 58; 59; 60; 61; 62; 63; 64].
Definition BIT_FIELD_NON_NULLABLE : list (option dti) := None :: map (fun n => Some (define_bit_field_non_nullable_type [] n))
  [1; 2; 3; 4; 5; 6; 7; 8; 9; 10; 11; 12; 13; 14; 15; 16; 17; 18; 19; 20; 21; 22; 23; 24; 25; 26; 27; 28; 29; 30; 31; 32;
   33; 34; 35; 36; 37; 38; 39; 40; 41; 42; 43; 44; 45; 46; 47; 48; 49; 50; 51; 52; 53; 54; 55; 56; 57; 58; 59; 60; 61; 62; 63; 64].
(** src/data_type_info_defaults.c:140-186 *)
Definition UINT_NULLABLE : list (option dti) := None :: map (fun n => Some (define_uint_nullable_type [] n)) [1; 2; 3; 4; 5; 6; 7; 8].
Definition UINT_NON_NULLABLE : list (option dti) := None :: map (fun n => Some (define_uint_non_nullable_type [] n)) [1; 2; 3; 4; 5; 6; 7; 8].
Definition INT_NULLABLE : list (option dti) := None :: map (fun n => Some (define_int_nullable_type [] n)) [1; 2; 3; 4; 5; 6; 7; 8].
Definition INT_NON_NULLABLE : list (option dti) := None :: map (fun n => Some (define_int_non_nullable_type [] n)) [1; 2; 3; 4; 5; 6; 7; 8].
(** src/data_type_info_defaults.c:188-192; float_accesses.h fails to build
    unless [sizeof(float)] is 4 and [sizeof(double)] is 8 *)
Definition FLOAT_float_NULLABLE : dti := define_float_nullable_type [] 4.
Definition FLOAT_double_NULLABLE : dti := define_float_nullable_type [] 8.
Definition FLOAT_float_NON_NULLABLE : dti := define_float_non_nullable_type [] 4.
Definition FLOAT_double_NON_NULLABLE : dti := define_float_non_nullable_type [] 8.
(** src/data_type_info_defaults.c:194-335 *)
Definition LARGE_UINT_NULLABLE : list (option dti) := None :: map (fun n => Some (define_large_uint_nullable_type [] n))
  [1; 2; 3; 4; 5; 6; 7; 8; 9; 10; 11; 12; 13; 14; 15; 16; 17; 18; 19; 20; 21; 22; 23; 24; 25; 26; 27; 28; 29; 30; 31; 32].
Definition LARGE_UINT_NON_NULLABLE : list (option dti) := None :: map (fun n => Some (define_large_uint_non_nullable_type [] n))
  [1; 2; 3; 4; 5; 6; 7; 8; 9; 10; 11; 12; 13; 14; 15; 16; 17; 18; 19; 20; 21; 22; 23; 24; 25; 26; 27; 28; 29; 30; 31; 32].
Definition LARGE_INT_NULLABLE : list (option dti) := None :: map (fun n => Some (define_large_int_nullable_type [] n))
  [1; 2; 3; 4; 5; 6; 7; 8; 9; 10; 11; 12; 13; 14; 15; 16; 17; 18; 19; 20; 21; 22; 23; 24; 25; 26; 27; 28; 29; 30; 31; 32].
Definition LARGE_INT_NON_NULLABLE : list (option dti) := None :: map (fun n => Some (define_large_int_non_nullable_type [] n))
  [1; 2; 3; 4; 5; 6; 7; 8; 9; 10; 11; 12; 13; 14; 15; 16; 17; 18; 19; 20; 21; 22; 23; 24; 25; 26; 27; 28; 29; 30; 31; 32].
