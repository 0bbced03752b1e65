(** * What comparing numerals means

    The order on numbers: -infinity, the reals, +infinity, and NaN, which is
    equal to itself and greater than everything else; NULL is less than all. *)
From Verif Require Export TypeSpec Numerals.

(** the number that a datum stands for; [None] for NULL *)
Definition number_of (v : datum) : option number :=
  match v with
  | DBits z | DUint z | DInt z | DLargeUint z | DLargeInt z => Some (integer z)
  | DFloat b => Some (float_number b)
  | DDouble b => Some (double_number b)
  | _ => None
  end.
Definition number_order (x y : number) : comparison :=
  match x, y with
  | NaN, NaN => Eq | NaN, _ => Gt | _, NaN => Lt
  | PosInf, PosInf => Eq | PosInf, _ => Gt | _, PosInf => Lt
  | NegInf, NegInf => Eq | NegInf, _ => Lt | _, NegInf => Gt
  | Fin a, Fin b => a ?= b
  end.
Definition null_order (x y : option number) : comparison :=
  match x, y with
  | None, None => Eq | None, Some _ => Lt | Some _, None => Gt
  | Some a, Some b => number_order a b
  end.
(** the result of a C comparison function *)
Definition sign (c : comparison) : Z := match c with Lt => -1 | Eq => 0 | Gt => 1 end.

(** [v] is a value of the numeral type [t]: NULL if the type has it, or a number
    in the range of the type *)
Definition is_value (t : dti) (v : datum) : Prop :=
  match v with
  | DNull => is_nullable t = true
  | DBits z => type t = BIT_FIELD /\ 0 <= z < 2 ^ size t
  | DUint z => type t = UINT /\ 0 <= z < 256 ^ size t
  | DInt z => type t = INT /\ - (256 ^ size t / 2) <= z < 256 ^ size t / 2
  | DFloat b => type t = FLOAT /\ size t = 4 /\ 0 <= b < 2 ^ 32
  | DDouble b => type t = FLOAT /\ size t = 8 /\ 0 <= b < 2 ^ 64
  | DLargeUint z => type t = LARGE_UINT /\ 0 <= z < 256 ^ size t
  | DLargeInt z => type t = LARGE_INT /\ - (256 ^ size t / 2) <= z < 256 ^ size t / 2
  | _ => False
  end.
(** a numeral type that [finalize_type_info] accepts *)
Definition numeral_type_ok (t : dti) : Prop :=
  match type t with
  | BIT_FIELD => 1 <= size t <= 64
  | UINT | INT => 1 <= size t <= 8
  | FLOAT => size t = 4 \/ size t = 8
  | LARGE_UINT | LARGE_INT => 1 <= size t <= 32
  | _ => False
  end.
(** an integer type and the number that an integer datum holds *)
Definition integer_type (t : dti) : Prop :=
  match type t with BIT_FIELD | UINT | INT | LARGE_UINT | LARGE_INT => True | _ => False end.
Definition integer_of (v : datum) : option Z :=
  match v with DBits z | DUint z | DInt z | DLargeUint z | DLargeInt z => Some z | _ => None end.
Definition in_range (t : dti) (z : Z) : Prop :=
  match type t with
  | BIT_FIELD => 0 <= z < 2 ^ size t
  | UINT | LARGE_UINT => 0 <= z < 256 ^ size t
  | INT | LARGE_INT => - (256 ^ size t / 2) <= z < 256 ^ size t / 2
  | _ => False
  end.
