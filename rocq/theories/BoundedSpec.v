(** * A page as a list of limited total size

    A client that compacts the page when there seems to be no room, as the
    comments in page_layout.h:63-86 advise, and the list it works on. *)
From Verif Require Export PageSpec.

(** ** the list *)
(** the entries that fit on a page: by their sizes with one slot each, or by
    their number when all tuples have one size *)
Definition within (ps h : Z) (d : size_def) (c : content) : Prop :=
  if sd_variable d then total_space ps d c <= get_space_to_be_allotted_to_all_tuples_on_page h ps d
  else exists n, get_maximum_tuple_count_on_page h ps d = Ok n /\ zlen c <= n.
(** [op] is done exactly when its result fits *)
Definition done_if (P : Prop) (c1 c : content) (r : answer) (c' : content) : Prop :=
  (P /\ r = (1, false) /\ c' = c1) \/ (~ P /\ r = (0, false) /\ c' = c).
Definition bounded_effect (ps h : Z) (d : size_def) (op : page_op) (c : content) (r : answer) (c' : content) : Prop :=
  match op with
  | Append x => done_if (within ps h d (c ++ [x])) (c ++ [x]) c r c'
  | Insert i x => done_if (i <= zlen c /\ within ps h d (insert_at i x c)) (insert_at i x c) c r c'
  | Update i x => done_if (i < zlen c /\ within ps h d (replace_at i x c)) (replace_at i x c) c r c'
  | _ => effect op c r c'
  end.
(** operations on the entries, and those that leave them alone *)
Definition quiet (op : page_op) : bool := match op with Compact _ _ | ZeroOut | WriteHeader _ _ => true | _ => false end.
Inductive bounded_execution (ps h : Z) (d : size_def) : content -> list (page_op * answer) -> content -> Prop :=
| bexec_nil c : bounded_execution ps h d c [] c
| bexec_cons c op r c1 l c2 : bounded_effect ps h d op c r c1 -> bounded_execution ps h d c1 l c2 -> bounded_execution ps h d c ((op, r) :: l) c2.

(** ** the client *)
(** try, compact, try again *)
Definition try_again (srt : list (Z * Z) -> list (Z * Z)) (ps : Z) (d : size_def) (f : mem -> res (bool * mem)) (p : mem) : res (bool * mem) :=
  let* (b, p1) := f p in
  if b : bool then Ok (true, p1)
  else
    let* (_, p2) := run_page_compaction srt true p1 ps d in
    f p2.
(** keeps a copy of the old entry; page_layout.h:80-85: replace the entry by a
    tomb stone, compact, and store the new one; puts the old one back when that
    fails *)
Definition careful_update (srt : list (Z * Z) -> list (Z * Z)) (ps : Z) (d : size_def) (i : Z) (x : ext) (p : mem) : res (bool * mem) :=
  let* old := read_entry ps d p i in
  let* (b, p1) := update_tuple_on_page p ps d i x in
  if b : bool then Ok (true, p1)
  else
    let* (b2, p2) := update_tuple_on_page p1 ps d i None in
    if negb b2 then Ok (false, p2)
    else
      let* (_, p3) := run_page_compaction srt true p2 ps d in
      let* (b4, p4) := update_tuple_on_page p3 ps d i x in
      if b4 : bool then Ok (true, p4)
      else
        let* (_, p5) := update_tuple_on_page p4 ps d i old in
        Ok (false, p5).
Definition careful (srt : list (Z * Z) -> list (Z * Z)) (ps : Z) (d : size_def) (op : page_op) (p : mem) : res (answer * mem) :=
  match op with
  | Append x => answer_of (try_again srt ps d (fun q => append_tuple_on_page q ps d x) p)
  | Insert i x => answer_of (try_again srt ps d (fun q => insert_tuple_on_page q ps d i x) p)
  | Update i x => answer_of (careful_update srt ps d i x p)
  | _ => run_op ps d op p
  end.
(** a history of the client; anyone may compact, clear free space and write the
    header in between *)
Inductive careful_history (srt : list (Z * Z) -> list (Z * Z)) (ps h : Z) (d : size_def) : mem -> list (page_op * answer) -> mem -> Prop :=
| ch_nil p : careful_history srt ps h d p [] p
| ch_quiet p op r p1 l p2 : quiet op = true -> op_ok h d op -> run_op ps d op p = Ok (r, p1) ->
    careful_history srt ps h d p1 l p2 -> careful_history srt ps h d p l p2
| ch_op p op r p1 l p2 : quiet op = false -> op_ok h d op -> careful srt ps d op p = Ok (r, p1) ->
    careful_history srt ps h d p1 l p2 -> careful_history srt ps h d p ((op, r) :: l) p2.
