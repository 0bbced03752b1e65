(** * Positional accessors (inc/tuplestore/positional_accessor.h) *)
From Verif Require Export Tuple.

(** inc/tuplestore/positional_accessor.h:13-19 [positional_accessor]: the length
    and the array behind the pointer [positions], whose size is that of the
    allocation *)
Record accessor := mk_accessor { positions_length : Z; positions : list Z }.
(** inc/tuplestore/positional_accessor.h:25 [IS_SELF] *)
Definition is_self (p : accessor) : bool := positions_length p =? 0.
(** inc/tuplestore/positional_accessor.h:31-35 [append_positions]; the move
    copies the positions [t] as they were before, also if they overlap.  It is
    undefined if they do not fit. *)
Definition append_positions (p : accessor) (t : list Z) : res accessor :=
  if positions_length p + zlen t <=? zlen (positions p) then
    Ok (mk_accessor (u32 (positions_length p + zlen t))
          (firstn (Z.to_nat (positions_length p)) (positions p) ++ t ++ skipn (Z.to_nat (positions_length p + zlen t)) (positions p)))
  else UB.
(** inc/tuplestore/positional_accessor.h:37-43 [point_to_parent_position] *)
Definition point_to_parent (p : accessor) : bool * accessor :=
  if is_self p then (false, p) else (true, mk_accessor (u32 (positions_length p - 1)) (positions p)).
(** [pa->positions[pa->positions_length-1]++] *)
Definition increment_last (p : accessor) : res accessor :=
  match nth_error (positions p) (Z.to_nat (positions_length p - 1)) with
  | None => UB
  | Some i =>
      Ok (mk_accessor (positions_length p)
            (firstn (Z.to_nat (positions_length p - 1)) (positions p) ++ [u32 (i + 1)] ++ skipn (Z.to_nat (positions_length p)) (positions p)))
  end.
(** inc/tuplestore/positional_accessor.h:45-51 [point_to_next_sibling_position] *)
Definition point_to_next_sibling (p : accessor) : res (bool * accessor) :=
  if is_self p then Ok (false, p) else let* q := increment_last p in Ok (true, q).
(** inc/tuplestore/positional_accessor.h:53-56 [point_to_i_th_child_position] *)
Definition point_to_child (p : accessor) (i : Z) : res accessor := append_positions p [i].
(** inc/tuplestore/positional_accessor.h:58-61 [point_to_first_child_position] *)
Definition point_to_first_child (p : accessor) : res accessor := point_to_child p 0.
(** inc/tuplestore/positional_accessor.h:63-70 [point_to_next_uncle_position] *)
Definition point_to_next_uncle (p : accessor) : res (bool * accessor) :=
  if positions_length p <=? 1 then Ok (false, p)
  else let* q := increment_last (mk_accessor (u32 (positions_length p - 1)) (positions p)) in Ok (true, q).

(** the path of an accessor: what the functions of Tuple.v take *)
Definition path_of (p : accessor) : list Z := firstn (Z.to_nat (positions_length p)) (positions p).

(** inc/tuplestore/positional_accessor.h:72-148: the traversal documented in the
    header (for elements, without results to look for and without skips).
    [base] and [depth] are the lengths of the base position and of the longest
    path; the result is the list of the positions that were analyzed, [None] if
    the fuel runs out *)
Definition go_on (r : res (bool * accessor)) (run : accessor -> res (option (list (list Z)))) (acc : list (list Z)) : res (option (list (list Z))) :=
  let* (moved, q) := r in if moved : bool then run q else Ok (Some acc).
Fixpoint traverse (fuel : nat) (d : dti) (m : mem) (o base depth : Z) (p : accessor) (acc : list (list Z)) : res (option (list (list Z))) :=
  match fuel with
  | O => Ok None
  | S fuel' =>
      let run acc q := traverse fuel' d m o base depth q acc in
      let* v := get_value d (path_of p) m o in
      match v with
      | None =>
          if base + 2 <=? positions_length p then go_on (point_to_next_uncle p) (run acc) acc else Ok (Some acc)
      | Some v =>
          let acc' := acc ++ [path_of p] in
          let next :=
            if base <? positions_length p then let* (_, q) := point_to_next_sibling p in run acc' q else Ok (Some acc') in
          if positions_length p <? depth then
            match get_type_info d (path_of p) with
            | None => UB
            | Some t =>
                if is_container_type_info t && negb (is_datum_NULL v) then let* q := point_to_first_child p in run acc' q
                else next
            end
          else next
      end
  end.
(** inc/tuplestore/positional_accessor.h:77-80: an array for the longest path,
    and the base position in it *)
Definition traverse_from (fuel : nat) (d : dti) (m : mem) (o : Z) (base : list Z) (depth : Z) (junk : list Z) : res (option (list (list Z))) :=
  let* p := append_positions (mk_accessor 0 junk) base in
  traverse fuel d m o (zlen base) (zlen base + depth) p [].
