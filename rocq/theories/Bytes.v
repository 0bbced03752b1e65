(** * Bytes, memory and the primitives of the external libraries.

    Everything in this file models code that is NOT in /repo (Cutlery, SerInt,
    the C memory model); these definitions are the contracts the rest of the
    model relies on, and are part of the trusted base. *)
From Coq Require Export List ZArith Lia Bool.
From Coq Require Import Strings.Byte.
Export ListNotations.
Open Scope Z_scope.

Notation byte := Byte.byte.

(** value of a byte as an unsigned number, and back (reduced modulo 256) *)
Definition b2z (b : byte) : Z := Z.of_N (Byte.to_N b).
Definition z2b (z : Z) : byte :=
  match Byte.of_N (Z.to_N (z mod 256)) with Some b => b | None => Byte.x00 end.

(** A buffer (a page, a tuple, a serialized type...) is a list of bytes, a
    pointer into it is a [Z] offset. *)
Definition mem := list byte.
Definition zlen {A} (l : list A) : Z := Z.of_nat (length l).

(** Undefined behaviour is a distinct outcome. *)
Inductive res (A : Type) : Type := Ok (a : A) | UB.
Arguments Ok {A} a.
Arguments UB {A}.

Definition bind {A B} (x : res A) (f : A -> res B) : res B :=
  match x with Ok a => f a | UB => UB end.
Notation "'let*' p ':=' c1 'in' c2" := (bind c1 (fun p => c2))
  (at level 200, p pattern, c1 at level 100, c2 at level 200, right associativity).

(** [uint32_t] / [uint64_t] wrap-around.  For an expression built from + - *
    only, one wrap around the whole expression equals a wrap at each operator,
    so the model wraps such an expression once. *)
Definition u32 (z : Z) : Z := z mod 4294967296.
Definition u64 (z : Z) : Z := z mod 18446744073709551616.

(** the bytes [o, o+n) of a buffer, total version *)
Definition slice {A} (m : list A) (o n : Z) : list A :=
  firstn (Z.to_nat n) (skipn (Z.to_nat o) m).
(** overwrite the bytes from [o] on with [bs], total version *)
Definition upd {A} (m : list A) (o : Z) (bs : list A) : list A :=
  firstn (Z.to_nat o) m ++ bs ++ skipn (Z.to_nat (o + zlen bs)) m.

(** load and store: UB outside the buffer *)
Definition rd (m : mem) (o n : Z) : res (list byte) :=
  if (0 <=? o) && (0 <=? n) && (o + n <=? zlen m) then Ok (slice m o n) else UB.
Definition wr (m : mem) (o : Z) (bs : list byte) : res mem :=
  if (0 <=? o) && (o + zlen bs <=? zlen m) then Ok (upd m o bs) else UB.

(** SerInt [serialize_uint32(data, n, v)] / [deserialize_uint32(data, n)] and
    their 64 and 256 bit variants: the low [n] bytes, little endian *)
Fixpoint enc (n : nat) (v : Z) : list byte :=
  match n with O => [] | S n' => z2b v :: enc n' (v / 256) end.
Fixpoint dec (l : list byte) : Z :=
  match l with [] => 0 | b :: l' => b2z b + 256 * dec l' end.

(** Cutlery [memory_move] (memmove) inside one buffer, and from another one *)
Definition memmove (m : mem) (dst src n : Z) : res mem :=
  let* bs := rd m src n in wr m dst bs.
Definition memcopy (m : mem) (dst : Z) (m2 : mem) (src n : Z) : res mem :=
  let* bs := rd m2 src n in wr m dst bs.
(** Cutlery [memory_set] *)
Definition memset (m : mem) (o : Z) (b : byte) (n : Z) : res mem :=
  if 0 <=? n then wr m o (repeat b (Z.to_nat n)) else UB.
(** Cutlery [memory_right_rotate] / [memory_left_rotate] (data, size, n):
    the last (first) [n] bytes become the first (last) ones *)
Definition mem_right_rotate (m : mem) (o size n : Z) : res mem :=
  if (0 <=? n) && (n <=? size) then
    let* bs := rd m o size in wr m o (slice bs (size - n) n ++ slice bs 0 (size - n))
  else UB.
Definition mem_left_rotate (m : mem) (o size n : Z) : res mem :=
  if (0 <=? n) && (n <=? size) then
    let* bs := rd m o size in wr m o (slice bs n (size - n) ++ slice bs 0 n)
  else UB.
(** Cutlery [memory_swap] of two disjoint ranges *)
Definition mem_swap (m : mem) (o1 o2 n : Z) : res mem :=
  let* b1 := rd m o1 n in
  let* b2 := rd m o2 n in
  let* m1 := wr m o1 b2 in wr m1 o2 b1.

(** Cutlery bitmap.h: bit [i] of a bitmap is bit [i mod 8] of its byte [i/8] *)
Definition bitmap_size_in_bytes (n : Z) : Z := (n + 7) / 8.
Definition get_bit (m : mem) (o i : Z) : res bool :=
  let* bs := rd m (o + i / 8) 1 in Ok (Z.testbit (dec bs) (i mod 8)).
Definition put_bit (m : mem) (o i : Z) (b : bool) : res mem :=
  let* bs := rd m (o + i / 8) 1 in
  wr m (o + i / 8)
     [z2b (if b then Z.setbit (dec bs) (i mod 8) else Z.clearbit (dec bs) (i mod 8))].
Definition set_bit (m : mem) (o i : Z) : res mem := put_bit m o i true.
Definition reset_bit (m : mem) (o i : Z) : res mem := put_bit m o i false.
Definition reset_all_bits (m : mem) (o n : Z) : res mem :=
  memset m o Byte.x00 (bitmap_size_in_bytes n).

(** Cutlery bitmap.h [get_bits] / [set_bits] (bitmap, first, last): bit
    [first + k] of the bitmap is bit [k] of the 64 bit value; a range of more
    than 64 bits, or an empty one, is outside their contract *)
Fixpoint get_bits_from (m : mem) (o i : Z) (n : nat) : res Z :=
  match n with
  | O => Ok 0
  | S n' =>
      let* b := get_bit m o i in
      let* r := get_bits_from m o (i + 1) n' in
      Ok ((if b then 1 else 0) + 2 * r)
  end.
Definition get_bits (m : mem) (o first last : Z) : res Z :=
  if (first <=? last) && (last - first <? 64)
  then get_bits_from m o first (Z.to_nat (last - first + 1)) else UB.
Fixpoint set_bits_from (m : mem) (o i : Z) (n : nat) (v : Z) : res mem :=
  match n with
  | O => Ok m
  | S n' =>
      let* m1 := put_bit m o i (Z.odd v) in set_bits_from m1 o (i + 1) n' (v / 2)
  end.
Definition set_bits (m : mem) (o first last v : Z) : res mem :=
  if (first <=? last) && (last - first <? 64)
  then set_bits_from m o first (Z.to_nat (last - first + 1)) v else UB.

(** C [strnlen]: stops at the first zero byte, which it reads *)
Fixpoint strnlen_from (m : mem) (o : Z) (n : nat) : res Z :=
  match n with
  | O => Ok 0
  | S n' =>
      let* bs := rd m o 1 in
      if dec bs =? 0 then Ok 0
      else let* r := strnlen_from m (o + 1) n' in Ok (1 + r)
  end.
Definition strnlen (m : mem) (o n : Z) : res Z := strnlen_from m o (Z.to_nat n).

(** SerInt [deserialize_int64] / [deserialize_int256]: two's complement *)
Definition sdec (l : list byte) : Z :=
  let z := dec l in
  if z <? 256 ^ zlen l / 2 then z else z - 256 ^ zlen l.

(** [for (uint32_t i = i0; i < i0 + k; i++)] over a buffer *)
Fixpoint for_loop (k : nat) (i : Z) (body : Z -> mem -> res mem) (m : mem) : res mem :=
  match k with
  | O => Ok m
  | S k' => let* m1 := body i m in for_loop k' (i + 1) body m1
  end.
