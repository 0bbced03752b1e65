(** * Where the tuples of a slotted page lie

    The pointers that [get_nth_tuple_on_page] returns, as offsets into the page. *)
From Verif Require Export ImageSpec.

(** one place for each entry, [None] (NULL) for a tomb stone *)
Notation place := (option Z) (only parsing).
Definition places_are (ps : Z) (d : size_def) (p : mem) (l : list place) : Prop :=
  get_tuple_count_on_page p ps d = Ok (zlen l)
  /\ forall i, 0 <= i < zlen l -> get_nth_tuple_on_page p ps d i = Ok (nth (Z.to_nat i) l None).

(** the lowest place of a tuple; the end of the page when there is none *)
Fixpoint lowest (ps : Z) (l : list place) : Z :=
  match l with [] => ps | Some o :: l' => Z.min o (lowest ps l') | None :: l' => lowest ps l' end.
(** a tuple is put directly below the others *)
Definition below (ps : Z) (l : list place) (x : ext) : place :=
  match x with None => None | Some t => Some (lowest ps l - zlen t) end.
(** the place of the tuple that replaces entry [i]: that of the old one, when this
    is not the lowest and is long enough, else directly below the others *)
Definition replacing (ps : Z) (c : content) (l : list place) (i : Z) (x : ext) : place :=
  match x, nth (Z.to_nat i) l None with
  | Some t, Some o =>
      if negb (o =? lowest ps l) && (zlen t <=? xlen (nth (Z.to_nat i) c None)) then Some o
      else below ps (replace_at i None l) x
  | _, _ => below ps (replace_at i None l) x
  end.
(** the length of the tuples at [o] and above *)
Fixpoint bytes_from (o : Z) (l : list place) (c : content) : Z :=
  match l, c with
  | Some a :: l', Some t :: c' => (if o <=? a then zlen t else 0) + bytes_from o l' c'
  | _ :: l', _ :: c' => bytes_from o l' c'
  | _, _ => 0
  end.
(** moved together at the end of the page, in the order in which they lay *)
Definition together_at_end (ps : Z) (l : list place) (c : content) : list place :=
  map (option_map (fun o => ps - bytes_from o l c)) l.

(** does an operation find what it needs?  [f] is the free space *)
Definition succeeds (ps : Z) (d : size_def) (f : Z) (c : content) (l : list place) (op : page_op) : bool :=
  match op with
  | Append x => entry_space ps d x <=? f
  | Insert i x => (i <=? zlen c) && (entry_space ps d x <=? f)
  | Update i x => (i <? zlen c) &&
      match x with
      | None => true
      | Some t =>
          (zlen t <=? f)
          || match nth (Z.to_nat i) l None with
             | None => false
             | Some o => zlen t <=? (if o =? lowest ps l then f else 0) + xlen (nth (Z.to_nat i) c None)
             end
      end
  | Discard i => i <? zlen c
  | Swap i j => (i <? zlen c) && (j <? zlen c)
  | Compact _ malloc_ok => malloc_ok
  | DiscardAll | DiscardTrailing | ZeroOut | WriteHeader _ _ => true
  end.
(** the places after an operation that succeeds *)
Definition places_after (ps : Z) (c : content) (op : page_op) (l : list place) : list place :=
  match op with
  | Append x => l ++ [below ps l x]
  | Insert i x => insert_at i (below ps l x) l
  | Update i x => replace_at i (replacing ps c l i x) l
  | Discard i => remove_at i l
  | DiscardAll => []
  | DiscardTrailing => firstn (Z.to_nat (zlen l - trailing_tomb_stones c)) l
  | Swap i j => swap_at i j l
  | Compact _ _ => together_at_end ps l c
  | ZeroOut | WriteHeader _ _ => l
  end.

(** the index of entry [i] after an operation that succeeds, if neither the
    entry is replaced or removed nor the page compacted *)
Definition goes_to (op : page_op) (i : Z) : option Z :=
  match op with
  | Append _ | DiscardTrailing | ZeroOut | WriteHeader _ _ => Some i
  | Insert j _ => Some (if j <=? i then i + 1 else i)
  | Update j _ => if i =? j then None else Some i
  | Discard j => if i =? j then None else Some (if j <? i then i - 1 else i)
  | Swap j k => Some (if i =? j then k else if i =? k then j else i)
  | DiscardAll | Compact _ _ => None
  end.
