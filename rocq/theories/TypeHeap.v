(** * Types on the heap: cloning and destroying them (src/data_type_info.c)

    Everywhere else in the model a type is a tree of structs.  Here the structs
    are at addresses and point to each other, some of them static, others from
    [malloc]. *)
From Verif Require Export DataType.

(** one [struct data_type_info] in memory.  [scalars] has its fields that are
    not pointers; the address 0 is NULL.  [containees_at] are [element_count]
    entries for a TUPLE and none otherwise. *)
Record node := mk_node {
  is_static : bool;
  scalars : dti;
  containee_at : Z;
  containees_at : list (position * Z)
}.
(** [heap]: the structs that exist; [mallocs]: the number of calls of [malloc]
    so far; [alloc_error]: the [int] that [allocation_error] points to; [called]:
    the calls of callbacks so far, each with the callback and the struct passed *)
Record world := mk_world {
  heap : Z -> option node;
  mallocs : nat;
  alloc_error : bool;
  called : list (Z * Z)
}.
Definition store (h : Z -> option node) (a : Z) (n : option node) : Z -> option node := fun x => if x =? a then n else h x.

(** reading a struct through a pointer *)
Definition deref (w : world) (a : Z) : res node := match heap w a with Some n => Ok n | None => UB end.
(** [free]; only for a struct from [malloc], which is not [is_static] *)
Definition free (w : world) (a : Z) : res world :=
  let* n := deref w a in
  if is_static n then UB else Ok (mk_world (store (heap w) a None) (mallocs w) (alloc_error w) (called w)).
(** [stic_p->callback(stic_p->context, dti)], when [stic_p] is not NULL *)
Definition callback (cb : option Z) (w : world) (a : Z) : world :=
  match cb with
  | None => w
  | Some c => mk_world (heap w) (mallocs w) (alloc_error w) (called w ++ [(c, a)])
  end.

(** the loops over the elements of a TUPLE, src/data_type_info.c:1174-1175, 1237-1238 *)
Fixpoint each (f : world -> Z -> res world) (l : list Z) (w : world) : res world :=
  match l with
  | [] => Ok w
  | a :: l' => let* w1 := f w a in each f l' w1
  end.

(** src/data_type_info.c:1143-1180 [destroy_type_info_recursively]; [fuel] bounds
    the nesting *)
Fixpoint destroy_type (fuel : nat) (cb : option Z) (w : world) (a : Z) : res world :=
  match fuel with
  | O => UB
  | S fuel' =>
      let* n := deref w a in
      if is_static n then Ok (callback cb w a)
      else match type (scalars n) with
           | STRING | BINARY | ARRAY =>
               let* w1 := destroy_type fuel' cb w (containee_at n) in
               free w1 a
           | TUPLE =>
               let* w1 := each (destroy_type fuel' cb) (map snd (containees_at n)) w in
               free w1 a
           | _ => free w a
           end
  end.

Section Clone.
  (** the allocator: the address that the [k]-th call returns, given the heap;
      0 when it fails *)
  Variable malloc : nat -> (Z -> option node) -> Z.
  (** the two callbacks *)
  Variable (stic on_destroy : option Z).

  (** [malloc] of a struct that is then overwritten by [n] *)
  Definition new (w : world) (n : node) : Z * world :=
    let b := malloc (mallocs w) (heap w) in
    if b =? 0 then (0, mk_world (heap w) (S (mallocs w)) true (called w))
    else (b, mk_world (store (heap w) b (Some n)) (S (mallocs w)) (alloc_error w) (called w)).
  (** [res->containee = p] *)
  Definition set_containee (w : world) (b p : Z) : res world :=
    let* n := deref w b in
    Ok (mk_world (store (heap w) b (Some (mk_node (is_static n) (scalars n) p (containees_at n)))) (mallocs w) (alloc_error w) (called w)).
  (** [res->containees[i].al.type_info = p] *)
  Definition set_link (l : list (position * Z)) (i : nat) (p : Z) : list (position * Z) :=
    firstn i l ++ match skipn i l with [] => [] | (q, _) :: l' => (q, p) :: l' end.
  Definition set_containees (w : world) (b : Z) (i : nat) (p : Z) : res world :=
    let* n := deref w b in
    Ok (mk_world (store (heap w) b (Some (mk_node (is_static n) (scalars n) (containee_at n) (set_link (containees_at n) i p)))) (mallocs w) (alloc_error w) (called w)).

  (** src/data_type_info.c:1232-1243, the loop over the elements of a TUPLE;
      [l] are the elements of the source from [i] on *)
  Fixpoint clone_each (fuel : nat) (f : world -> Z -> res (Z * world)) (b : Z) (l : list Z) (i : nat) (w : world) : res (Z * world) :=
    match l with
    | [] => Ok (b, w)
    | a :: l' =>
        let* (r, w1) := f w a in
        let* w2 := set_containees w1 b i r in
        if alloc_error w2 then
          let* n := deref w2 b in
          let* w3 := each (destroy_type fuel on_destroy) (firstn i (map snd (containees_at n))) w2 in
          let* w4 := free w3 b in
          Ok (0, w4)
        else clone_each fuel f b l' (S i) w2
    end.

  (** src/data_type_info.c:1182-1250 [clone_type_info_recursively] *)
  Fixpoint clone_type (fuel : nat) (w : world) (a : Z) : res (Z * world) :=
    match fuel with
    | O => UB
    | S fuel' =>
        let* n := deref w a in
        if is_static n then Ok (a, callback stic w a)
        else
          let (b, w1) := new w n in
          if b =? 0 then Ok (0, w1)
          else match type (scalars n) with
               | STRING | BINARY | ARRAY =>
                   let* (r, w2) := clone_type fuel' w1 (containee_at n) in
                   let* w3 := set_containee w2 b r in
                   if alloc_error w3 then let* w4 := free w3 b in Ok (0, w4)
                   else Ok (b, w3)
               | TUPLE => clone_each fuel' (clone_type fuel') b (map snd (containees_at n)) 0 w1
               | _ => Ok (b, w1)
               end
    end.
End Clone.
