(** * What comparing and hashing elements means

    A value is NULL, a number or a list of values; strings are lists of bytes,
    tuples and arrays lists of their elements.  It is defined by what a user
    reads at the paths of a tuple, not by how the tuple is laid out. *)
From Verif Require Export SerdeSpec TupleSpec NumeralSpec Compare.

Inductive value := VNull | VNum (r : obs) | VList (l : list value).

(** the number that was read *)
Definition obs_number (r : obs) : option number :=
  match r with
  | OBits z | OUint z | OInt z | OLargeUint z | OLargeInt z => Some (integer z)
  | OFloat b => Some (float_number b)
  | ODouble b => Some (double_number b)
  | _ => None
  end.
Definition bytes_value (bs : list byte) : value := VList (map (fun b => VNum (OUint (b2z b))) bs).

(** [x] is the value that is read at path [pa] *)
Inductive has_value (d : dti) (m : mem) (o : Z) : list Z -> value -> Prop :=
| value_null pa : observe d pa m o = Ok (Some ONull) -> has_value d m o pa VNull
| value_num pa r x : observe d pa m o = Ok (Some r) -> obs_number r = Some x -> has_value d m o pa (VNum r)
| value_string pa bs : observe d pa m o = Ok (Some (OStr bs)) -> has_value d m o pa (bytes_value bs)
| value_list pa bs l :
    observe d pa m o = Ok (Some (OData bs)) -> element_count_of d pa m o = Ok (zlen l) ->
    (forall i x, nth_error l i = Some x -> has_value d m o (pa ++ [Z.of_nat i]) x) ->
    has_value d m o pa (VList l).
(** the value of a key: NULL if there is no such element *)
Definition key_is (d : dti) (m : mem) (o : Z) (pa : list Z) (x : value) : Prop :=
  has_value d m o pa x \/ (observe d pa m o = Ok None /\ x = VNull).
(** the value of a datum of type [t] *)
Definition datum_is (t : dti) (v : datum) (x : value) : Prop :=
  match v with
  | DNull => x = VNull
  | DStr m o n => (type t = STRING \/ type t = BINARY) /\ exists bs, rd m o n = Ok bs /\ x = bytes_value bs
  | DPtr m o => (type t = TUPLE \/ type t = ARRAY) /\ data_at t m o /\ has_value t m o [] x
  | _ => is_value t v /\ exists r, obs_of t v = Ok r /\ x = VNum r
  end.

(** NULL is the least; numbers by their value; lists lexicographically, a
    proper prefix being less.  (Numbers and lists are never compared.) *)
Fixpoint order (a b : value) : comparison :=
  match a, b with
  | VNull, VNull => Eq
  | VNull, _ => Lt
  | _, VNull => Gt
  | VNum r, VNum s => null_order (obs_number r) (obs_number s)
  | VNum _, VList _ => Lt
  | VList _, VNum _ => Gt
  | VList l, VList k =>
      (fix lex (l k : list value) : comparison :=
         match l, k with
         | [], [] => Eq
         | [], _ :: _ => Lt
         | _ :: _, [] => Gt
         | x :: l', y :: k' => match order x y with Eq => lex l' k' | c => c end
         end) l k
  end.

(** which types can be compared: numerals with numerals, a STRING, BINARY or
    ARRAY with another of these if their elements can be compared (those of
    strings are bytes), and types of the same description *)
Definition numeral (t : dti) : Prop := match type t with BIT_FIELD | UINT | INT | FLOAT | LARGE_UINT | LARGE_INT => True | _ => False end.
Definition sequence_of (t : dti) : option dti :=
  match type t with STRING | BINARY => Some uint8_type | ARRAY => containee_ t | _ => None end.
Inductive comparable : dti -> dti -> Prop :=
| comp_numerals a b : numeral a -> numeral b -> comparable a b
| comp_same a b : same_description false a b -> comparable a b
| comp_sequences a b x y : sequence_of a = Some x -> sequence_of b = Some y -> comparable x y -> comparable a b.
(** a key without a type is NULL, which can be compared with everything *)
Definition comparable_keys (a b : option dti) : Prop :=
  match a, b with Some x, Some y => comparable x y | _, _ => True end.

(** the result of comparing by several keys: that of the first key in which
    the values differ, reversed if its direction is -1 *)
Fixpoint by_keys (keys : list (value * value * Z)) : Z :=
  match keys with
  | [] => 0
  | (x, y, dir) :: keys' => match order x y with Eq => by_keys keys' | c => dir * sign c end
  end.
Definition direction (z : Z) : Prop := z = 1 \/ z = -1.

(** ** hashing *)
(** the bytes of an element of type [t] that go into the hash: none for NULL,
    one byte per bit of a bit field, the stored bytes of other numbers, and for
    the other types those of the elements one after the other *)
Definition element_type (t : dti) (i : Z) : dti := match get_type_info t [i] with Some c => c | None => uint8_type end.
Definition number_bytes (t : dti) (r : obs) : list byte :=
  match r with
  | OBits z => map (fun i => if Z.testbit z (Z.of_nat i) then Byte.x01 else Byte.x00) (seq 0 (Z.to_nat (size t)))
  | OUint z | OInt z | OFloat z | ODouble z | OLargeUint z | OLargeInt z => enc (Z.to_nat (size t)) z
  | _ => []
  end.
Fixpoint hashed (t : dti) (x : value) : list byte :=
  match x with
  | VNull => []
  | VNum r => number_bytes t r
  | VList l =>
      (fix go (i : Z) (l : list value) : list byte :=
         match l with [] => [] | y :: l' => hashed (element_type t i) y ++ go (i + 1) l' end) 0 l
  end.
(** a type that a user can have: a finalized type or a type found at a path of
    one (without names of 64 characters) *)
Definition usable (t : dti) : Prop :=
  exists t0 d pa, type_built t0 /\ finalize t0 = (true, d) /\ path_ok pa /\ get_type_info d pa = Some t /\ short_names d.
Definition typed_datum (t : option dti) (v : datum) (x : value) : Prop :=
  match t with Some t => usable t /\ datum_is t v x | None => v = DNull /\ x = VNull end.
(** no element of the type is a float *)
Definition float_free (t : dti) : Prop := forall pa c, path_ok pa -> get_type_info t pa = Some c -> type c <> FLOAT.
