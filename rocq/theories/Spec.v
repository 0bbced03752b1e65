(** * The abstract specification of a page

    A page is a list of entries; an entry is a tuple (its bytes) or a tomb
    stone ([None]).  Nothing here depends on the model of the code, except the
    types of bytes and of tuple size definitions. *)
From Verif Require Export Bytes.

(** README.md, "Project Limits": no size may cross 2GB - 128 *)
Definition max_bytes : Z := 2147483520.

Notation tuple := (list byte) (only parsing).
Notation content := (list (option (list byte))) (only parsing).

Definition insert_at {A} (i : Z) (x : A) (l : list A) : list A :=
  firstn (Z.to_nat i) l ++ x :: skipn (Z.to_nat i) l.
Definition replace_at {A} (i : Z) (x : A) (l : list A) : list A :=
  firstn (Z.to_nat i) l ++ x :: skipn (S (Z.to_nat i)) l.
Definition remove_at {A} (i : Z) (l : list A) : list A :=
  firstn (Z.to_nat i) l ++ skipn (S (Z.to_nat i)) l.
(** exchange the entries [i] and [j] *)
Definition swap_at {A} (i j : Z) (l : list A) : list A :=
  match nth_error l (Z.to_nat i), nth_error l (Z.to_nat j) with
  | Some a, Some b => replace_at i b (replace_at j a l)
  | _, _ => l
  end.

Definition is_tomb_stone (e : option tuple) : bool :=
  match e with None => true | Some _ => false end.
Definition tomb_stones (c : content) : Z := zlen (filter is_tomb_stone c).

(** number of tomb stones at the end *)
Fixpoint leading_tomb_stones (c : content) : Z :=
  match c with
  | None :: c' => 1 + leading_tomb_stones c'
  | _ => 0
  end.
Definition trailing_tomb_stones (c : content) : Z := leading_tomb_stones (rev c).
(** drop the last [k] entries *)
Definition drop_last (k : Z) (c : content) : content :=
  firstn (length c - Z.to_nat k)%nat c.

(** the entry at an index, [None] when the index is out of bounds *)
Definition entry (c : content) (i : Z) : option (option tuple) := nth_error c (Z.to_nat i).
