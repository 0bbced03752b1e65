(** * What reading, setting, expanding and discarding elements must do

    Written from the description of the API in tuple.h and README; only the
    functions of the model that a user calls appear here. *)
From Verif Require Export Tuple PosCache SerdeSpec.

(** a C string: the bytes before the first zero byte *)
Fixpoint cut0 (l : list byte) : list byte :=
  match l with [] => [] | b :: l' => if b2z b =? 0 then [] else b :: cut0 l' end.

(** the value that a read returns, with the bytes its pointer refers to *)
Inductive obs :=
| ONull | OBits (z : Z) | OUint (z : Z) | OInt (z : Z) | OFloat (bits : Z) | ODouble (bits : Z)
| OLargeUint (z : Z) | OLargeInt (z : Z)
| OStr (bs : list byte)          (* a STRING or BINARY *)
| OData (bs : list byte).        (* all bytes of a TUPLE or ARRAY *)
Definition obs_of (t : dti) (v : datum) : res obs :=
  match v with
  | DNull => Ok ONull
  | DEmpty => UB
  | DBits z => Ok (OBits z) | DUint z => Ok (OUint z) | DInt z => Ok (OInt z)
  | DFloat z => Ok (OFloat z) | DDouble z => Ok (ODouble z)
  | DLargeUint z => Ok (OLargeUint z) | DLargeInt z => Ok (OLargeInt z)
  | DStr m o n => let* bs := rd m o n in Ok (OStr bs)
  | DPtr m o => let* s := get_size t m o in let* bs := rd m o s in Ok (OData bs)
  end.
(** reading the element at path [pa] with [get_value_from_element_from_tuple];
    [None] when it returns 0 *)
Definition observe (d : dti) (pa : list Z) (m : mem) (o : Z) : res (option obs) :=
  let* v := get_value d pa m o in
  match v, get_type_info d pa with
  | None, _ => Ok None
  | Some v, Some t => let* r := obs_of t v in Ok (Some r)
  | Some DNull, None => Ok (Some ONull)
  | Some _, None => UB
  end.

(** the datum has the member that belongs to the type (and for strings a
    readable buffer of a documented size) *)
Definition fits (t : dti) (v : datum) : Prop :=
  match v with
  | DNull | DEmpty => True
  | DBits _ => type t = BIT_FIELD
  | DUint _ => type t = UINT
  | DInt _ => type t = INT
  | DFloat _ => type t = FLOAT /\ size t = 4
  | DDouble _ => type t = FLOAT /\ size t = 8
  | DLargeUint _ => type t = LARGE_UINT
  | DLargeInt _ => type t = LARGE_INT
  | DStr m o n => (type t = STRING \/ type t = BINARY) /\ 0 <= o /\ 0 <= n <= max_bytes /\ o + n <= zlen m
  | DPtr _ _ => type t = TUPLE \/ type t = ARRAY
  end.
Definition num_of (v : datum) : Z :=
  match v with DBits z | DUint z | DInt z | DFloat z | DDouble z | DLargeUint z | DLargeInt z => z | _ => 0 end.
Definition str_of (v : datum) : list byte := match v with DStr m o n => slice m o n | _ => [] end.

(** a number reduced to [n] bytes, unsigned and in two's complement *)
Definition wrap_u (n z : Z) : Z := z mod 256 ^ n.
Definition wrap_s (n z : Z) : Z := if z mod 256 ^ n <? 256 ^ n / 2 then z mod 256 ^ n else z mod 256 ^ n - 256 ^ n.

(** what must be read back at an element of type [t] after storing [v] *)
Definition reads_back (t : dti) (v : datum) (r : obs) : Prop :=
  match v with
  | DNull => r = ONull
  | _ =>
    match type t with
    | BIT_FIELD => r = OBits (num_of v mod 2 ^ size t)
    | UINT => r = OUint (wrap_u (size t) (num_of v))
    | INT => r = OInt (wrap_s (size t) (num_of v))
    | FLOAT => r = if size t =? 4 then OFloat (num_of v mod 2 ^ 32) else ODouble (num_of v mod 2 ^ 64)
    | LARGE_UINT => r = OLargeUint (wrap_u (size t) (num_of v))
    | LARGE_INT => r = OLargeInt (wrap_s (size t) (num_of v))
    | STRING => if t_variable t then r = OStr (cut0 (str_of v))
                else r = OStr (firstn (Z.to_nat (size t)) (cut0 (str_of v)))
    | BINARY => if t_variable t then r = OStr (str_of v)
                else exists tail, r = OStr (firstn (Z.to_nat (size t)) (str_of v) ++ tail)
                     /\ zlen (firstn (Z.to_nat (size t)) (str_of v) ++ tail) = size t
    | TUPLE | ARRAY =>
        match v with
        | DPtr vm vo => exists s bs, get_size t vm vo = Ok s /\ rd vm vo s = Ok bs /\ r = OData bs
        | _ => exists bs, init_minimal t (repeat Byte.x00 (Z.to_nat (size t))) 0 = Ok (size t, bs) /\ r = OData bs
        end
    end
  end.

(** a path of positions, each a [uint32_t] *)
Definition path_ok (pa : list Z) : Prop := Forall (fun i => 0 <= i < 4294967296) pa.
(** the buffer has room for the growth that the caller allows *)
Definition room (d : dti) (m : mem) (o inc : Z) : Prop :=
  0 <= inc < 4294967296
  /\ (is_variable_sized_ d = true -> forall s, get_size d m o = Ok s -> o + Z.min (s + inc) (max_size d) <= zlen m).

(** limits under which [expand_element_count_for_element_in_tuple] works, for
    [n] elements in a container of [s] bytes: the larger container has less
    than 4 GB (README asks for less); an array of bit fields has at most 64 bits
    per element and a count that fits its prefix *)
Definition expand_limits (t : dti) (s n slots : Z) : Prop :=
  let c := containee t in
  0 <= slots < 4294967296
  /\ s + (bytes_of_bits ((n + slots) * bits_in_bitmap c) - bytes_of_bits (n * bits_in_bitmap c)) + slots * slot_bytes (max_size t) c (size c) < 4294967296
  /\ (is_bit_field c = true -> bits_in_bitmap c <= 64 /\ n + slots < 256 ^ value_size (max_size t)).

(** the data at path [pa] *)
Inductive element_at : dti -> list Z -> mem -> Z -> dti -> Z -> Prop :=
| at_self d m o : element_at d [] m o d o
| at_child d i pa m o t a t' a' : child d m o i = Ok (Some (Some (t, a))) -> element_at t pa m a t' a' -> element_at d (i :: pa) m o t' a'.

(** well formed data of type [d] at offset [o] of the buffer [m]: what the
    functions of the library produce *)
Inductive data_at : dti -> mem -> Z -> Prop :=
| da_init t d m o s m' :
    type_built t -> finalize t = (true, d) -> is_bit_field d = false -> 0 <= o ->
    init_minimal d m o = Ok (s, m') -> data_at d m' o
| da_set d m o pa v inc r m' :
    data_at d m o -> path_ok pa -> room d m o inc ->
    (forall t, get_type_info d pa = Some t -> fits t v) ->
    (forall t vm vo, get_type_info d pa = Some t -> v = DPtr vm vo -> data_at t vm vo) ->
    set_element d pa m o v inc = Ok (r, m') -> data_at d m' o
| da_expand d m o pa index slots inc r m' :
    data_at d m o -> path_ok pa -> room d m o inc -> 0 <= index < 4294967296 ->
    (forall t a s n, element_at d pa m o t a -> get_size t m a = Ok s -> get_element_count t m a = Ok n -> expand_limits t s n slots) ->
    expand_element d pa m o index slots inc = Ok (r, m') -> data_at d m' o
| da_discard d m o pa index slots r m' :
    data_at d m o -> path_ok pa -> 0 <= index < 4294967296 -> 0 <= slots < 4294967296 ->
    discard_elements d pa m o index slots = Ok (r, m') -> data_at d m' o
| da_move d m o i r m' c :
    data_at d m o -> 0 <= i < 4294967296 -> move_element_to_end d m o i None = Ok ((r, m'), c) -> data_at d m' o
| da_copy d m o s m' o' :
    data_at d m o -> get_size d m o = Ok s -> 0 <= o' -> o' + s <= zlen m' -> slice m' o' s = slice m o s -> data_at d m' o'
| da_element d m o pa t vm vo :
    data_at d m o -> path_ok pa -> get_type_info d pa = Some t ->
    get_value d pa m o = Ok (Some (DPtr vm vo)) -> data_at t vm vo
(* the same data seen through another type, or element of a type, that
   [are_identical_type_info] calls identical *)
| da_identical t d0 pa d d' m o :
    type_built t -> finalize t = (true, d0) -> path_ok pa -> get_type_info d0 pa = Some d' ->
    short_names d -> are_identical d d' = Ok true -> data_at d m o -> data_at d' m o.
