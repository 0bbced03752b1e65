(** * datum: a value in transit (inc/tuplestore/datum.h) *)
From Verif Require Export DataType.

(** inc/tuplestore/datum.h [struct datum].  The C struct is a union; here the
    member that was stored is explicit and reading another member is [UB], with
    the exceptions of [EMPTY_DATUM] (all members zero) and of [string_value] /
    [binary_value], which the library declares interchangeable.  A pointer is a
    buffer and an offset into it; the buffer a datum points to is a separate
    one, so a datum never aliases the data it is stored into. *)
Inductive datum :=
| DNull                                  (* is_NULL = 1 *)
| DEmpty                                 (* the address EMPTY_DATUM *)
| DBits (v : Z)                          (* bit_field_value *)
| DUint (v : Z)                          (* uint_value *)
| DInt (v : Z)                           (* int_value *)
| DFloat (bits : Z)                      (* float_value, its 32 bits *)
| DDouble (bits : Z)                     (* double_value, its 64 bits *)
| DLargeUint (v : Z)                     (* large_uint_value *)
| DLargeInt (v : Z)                      (* large_int_value *)
| DStr (m : mem) (o n : Z)               (* string_value / binary_value and size *)
| DPtr (m : mem) (o : Z).                (* tuple_value / array_value *)

(** inc/tuplestore/datum.h [is_datum_NULL] *)
Definition is_datum_NULL (v : datum) : bool := match v with DNull => true | _ => false end.
Definition is_EMPTY_DATUM (v : datum) : bool := match v with DEmpty => true | _ => false end.

(** reading a member of the union *)
Definition bit_field_value (v : datum) : res Z := match v with DBits z => Ok z | DEmpty => Ok 0 | _ => UB end.
Definition uint_value (v : datum) : res Z := match v with DUint z => Ok z | DEmpty => Ok 0 | _ => UB end.
Definition int_value (v : datum) : res Z := match v with DInt z => Ok z | DEmpty => Ok 0 | _ => UB end.
Definition float_value (v : datum) : res Z := match v with DFloat z => Ok z | DEmpty => Ok 0 | _ => UB end.
Definition double_value (v : datum) : res Z := match v with DDouble z => Ok z | DEmpty => Ok 0 | _ => UB end.
Definition large_uint_value (v : datum) : res Z := match v with DLargeUint z => Ok z | DEmpty => Ok 0 | _ => UB end.
Definition large_int_value (v : datum) : res Z := match v with DLargeInt z => Ok z | DEmpty => Ok 0 | _ => UB end.
Definition string_value (v : datum) : res (mem * Z * Z) :=
  match v with DStr m o n => Ok (m, o, n) | DEmpty => Ok ([], 0, 0) | _ => UB end.
Definition tuple_value (v : datum) : res (mem * Z) := match v with DPtr m o => Ok (m, o) | _ => UB end.
