(** * What is left on a page that was compacted and cleared

    [run_page_compaction] moves the tuples together and
    [zero_out_free_space_on_page] clears what is free then. *)
From Verif Require Export PageSpec.

Definition clean (srt : list (Z * Z) -> list (Z * Z)) (ps : Z) (d : size_def) (p : mem) : res mem :=
  let* (_, p1) := run_page_compaction srt true p ps d in
  let* (_, p2) := zero_out_free_space_on_page p1 ps d in
  Ok p2.

(** [get_nth_tuple_on_page] points to [o] for entry [i] *)
Definition lies (ps : Z) (d : size_def) (p : mem) (i o : Z) : Prop := get_nth_tuple_on_page p ps d i = Ok (Some o).
(** the tuples of two pages lie in the same order *)
Definition same_order (ps : Z) (d : size_def) (p q : mem) : Prop :=
  forall i j a b a' b', 0 <= i -> 0 <= j -> lies ps d p i a -> lies ps d p j b -> lies ps d q i a' -> lies ps d q j b' ->
    a < b -> a' < b'.

(** what the byte at [o] of a page with the entries [c] is there for; the last
    [a] bytes of the page are those allotted to tuples *)
Definition in_use (ps : Z) (d : size_def) (p : mem) (c : content) (a o : Z) : Prop :=
  o < ps - a (* the header and the numbers of entries *)
  \/ o < ps - a + zlen c * get_additional_space_overhead_per_tuple_on_page ps d (* where the tuples lie *)
  \/ exists i t at_, 0 <= i /\ entry c i = Some (Some t) /\ lies ps d p i at_ /\ at_ <= o < at_ + zlen t.
(** in a fixed array every tomb stone keeps its place *)
Definition in_tomb_stone (ps : Z) (d : size_def) (c : content) (a o : Z) : Prop :=
  sd_variable d = false
  /\ exists i, 0 <= i /\ entry c i = Some None /\ ps - a + i * sd_size d <= o < ps - a + (i + 1) * sd_size d.
