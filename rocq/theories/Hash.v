(** * Hashing of data, datums and tuples (src/tuple_hasher.c, src/data_type_info.c,
    src/datum.c, src/tuple.c)

    inc/tuplestore/tuple_hasher.h: a hasher is a hash and an update function;
    the hash can be any state, [up] any function. *)
From Verif Require Export Compare.

Section hash.
  Context {H : Type} (up : H -> byte -> H).

  (** src/tuple_hasher.c:3-7 [tuple_hash_byte] and 9-14 [tuple_hash_bytes] *)
  Definition hash_bytes (h : H) (bs : list byte) : H := fold_left up bs h.
  Definition hash_bit (h : H) (b : bool) : H := up h (if b then Byte.x01 else Byte.x00).

  (** the loops over elements; [None] is [break] *)
  Fixpoint hash_loop (k : nat) (i : Z) (f : Z -> H -> res (option H)) (h : H) : res H :=
    match k with
    | O => Ok h
    | S k' => let* r := f i h in match r with Some h' => hash_loop k' (i + 1) f h' | None => Ok h end
    end.

  (** src/data_type_info.c:1498-1506: the bits of a bit field in a prefix bitmap *)
  Fixpoint hash_stored_bits (m : mem) (o i : Z) (n : nat) (h : H) : res H :=
    match n with
    | O => Ok h
    | S n' => let* b := get_bit m o i in hash_stored_bits m o (i + 1) n' (hash_bit h b)
    end.
  (** src/data_type_info.c:1478-1510 [hash_containee_in_container], after the
      tests that [d] is a container with more than [i] elements; [rec] is
      [hash_data_for_type_info] for the type of the element *)
  Definition hash_present (rec : Z -> H -> res H) (d : dti) (m : mem) (o i : Z) (h : H) : res H :=
    let* p := get_pos d m o i in
    let* null := is_null d m o p in
    if null : bool then Ok h
    else
      let* a := get_ptr d m o p in
      match type (pi_type p) with
      | BIT_FIELD => hash_stored_bits m (o + offset_of_prefix_bitmap d) (pi_off p) (Z.to_nat (size (pi_type p))) h
      | _ => match a with Some a => rec a h | None => UB end
      end.
  (** src/data_type_info.c:1449-1476 [hash_data_for_type_info].  The type of an
      element is taken from [d]; in the code it comes with the position of the
      element.  Those of a STRING or BINARY are bytes. *)
  Fixpoint hash_data (d : dti) (m : mem) (o : Z) (h : H) {struct d} : res H :=
    if data_type_eqb (type d) BIT_FIELD then Ok h
    else if negb (is_container_type_info d) then let* bs := rd m o (size d) in Ok (hash_bytes h bs)
    else
      let* n := get_element_count d m o in
      match type d with
      | TUPLE =>
          (fix go (cs : list (position * dti)) (i : Z) (h : H) {struct cs} : res H :=
             if n <=? i then Ok h
             else match cs with
                  | [] => UB
                  | (_, c) :: cs' => let* h' := hash_present (fun a h => hash_data c m a h) d m o i h in go cs' (i + 1) h'
                  end) (containees d) 0 h
      | ARRAY =>
          hash_loop (Z.to_nat n) 0 (fun i h =>
            match containee_ d with
            | Some c => let* h' := hash_present (fun a h => hash_data c m a h) d m o i h in Ok (Some h')
            | None => UB
            end) h
      | ty =>
          hash_loop (Z.to_nat n) 0 (fun i h =>
            let byte := let* h' := hash_present (fun a h => let* bs := rd m a (size uint8_type) in Ok (hash_bytes h bs)) d m o i h in Ok (Some h') in
            match ty with
            | STRING =>
                let* v := get_containee_datum d m o i in
                match v with
                | Some v => let* z := uint_value v in if z =? 0 then Ok None else byte
                | None => UB
                end
            | _ => byte
            end) h
      end.
  (** src/data_type_info.c:1478-1510 [hash_containee_in_container] *)
  Definition hash_containee (d : dti) (m : mem) (o i : Z) (h : H) : res H :=
    if negb (is_container_type_info d) then Ok h
    else
      let* n := get_element_count d m o in
      if n <=? i then Ok h
      else let* p := get_pos d m o i in hash_present (fun a h => hash_data (pi_type p) m a h) d m o i h.

  (** src/datum.c:296-303: the bits of a bit field value *)
  Fixpoint hash_value_bits (z i : Z) (n : nat) (h : H) : H :=
    match n with
    | O => h
    | S n' => hash_value_bits z (i + 1) n' (hash_bit h (Z.testbit z i))
    end.
  (** src/datum.c:291-330 [hash_datum].  [junk] is the uninitialized
      [char serialized_value[sizeof(datum)]] of 40 bytes.  The type of an
      element is taken from [d]; it is NULL only for a NULL element. *)
  Fixpoint hash_datum (junk : mem) (v : datum) (d : dti) (h : H) {struct d} : res H :=
    if is_datum_NULL v then Ok h
    else if data_type_eqb (type d) BIT_FIELD then
      let* z := bit_field_value v in Ok (hash_value_bits z 0 (Z.to_nat (size d)) h)
    else if negb (is_container_type_info d) then
      let* (_, m) := set_datum d junk 0 false 0 v in
      let* s := get_size d m 0 in
      let* bs := rd m 0 s in
      Ok (hash_bytes h bs)
    else match type d with
         | STRING | BINARY =>
             let* (m, o, n) := string_value v in
             let* bs := rd m o n in
             Ok (hash_bytes h bs)
         | TUPLE =>
             let* n := element_count_for_datum v d in
             (fix go (cs : list (position * dti)) (i : Z) (h : H) {struct cs} : res H :=
                if n <=? i then Ok h
                else match cs with
                     | [] => UB
                     | (_, c) :: cs' =>
                         let* r := get_containee_from_datum v d i in
                         let* h' := match r with Some (w, _) => hash_datum junk w c h | None => Ok h end in
                         go cs' (i + 1) h'
                     end) (containees d) 0 h
         | _ =>
             let* n := element_count_for_datum v d in
             hash_loop (Z.to_nat n) 0 (fun i h =>
               let* r := get_containee_from_datum v d i in
               match r, containee_ d with
               | Some (w, _), Some c => let* h' := hash_datum junk w c h in Ok (Some h')
               | Some _, None => UB
               | None, _ => Ok (Some h)
               end) h
         end.

  (** src/tuple.c:680-693 [hash_element_within_tuple] *)
  Definition hash_element (junk : mem) (d : dti) (pa : list Z) (m : mem) (o : Z) (h : H) : res H :=
    match get_type_info d pa with
    | None => Ok h
    | Some t =>
        let* v := get_value d pa m o in
        match v with
        | None => Ok h
        | Some v => hash_datum junk v t h
        end
    end.
  (** src/tuple.c:695-708 [hash_tuple]; [element_ids == NULL] is the positions
      [0], [1], ... *)
  Fixpoint hash_tuple (junk : mem) (d : dti) (pas : list (list Z)) (m : mem) (o : Z) (h : H) : res H :=
    match pas with
    | [] => Ok h
    | pa :: pas' => let* h' := hash_element junk d pa m o h in hash_tuple junk d pas' m o h'
    end.
End hash.

(** src/tuple_hasher.c:18-23 [fnv_64_update] *)
Definition fnv_64_update (h : Z) (b : byte) : Z := Z.lxor (u64 (h * 1099511628211)) (b2z b).
