(** * What the functions on the elements of one container must do *)
From Verif Require Export TupleSpec.

(** what a function returns, and writes, without the position that it leaves *)
Definition result {A} (r : res (A * cache)) : res A := let* (a, c) := r in Ok a.

(** a position that a caller may have for element [i] of the data: none, or the
    one that was computed earlier, for the same index of data of the same type
    with the same number of elements *)
Definition kept (d : dti) (m : mem) (o i : Z) (c : cache) : Prop :=
  c = None
  \/ exists m0 o0, data_at d m0 o0 /\ get_element_count d m0 o0 = get_element_count d m o /\ position_of d m0 o0 i None = Ok (true, c).

(** ** a sequence of calls *)
Inductive element_call :=
| CPosition | CIsNull | CPointer | CSize | CRead | CCanSet (v : datum) (inc : Z) | CSet (v : datum) (inc : Z) | CSetNull | CMoveToEnd.
Inductive answer := ABool (b : bool) | APointer (p : option Z) | ASize (s : Z) | AValue (v : option datum).
(** one call for element [i] of the data at [o] *)
Definition call (d : dti) (o i : Z) (f : element_call) (m : mem) (c : cache) : res ((answer * mem) * cache) :=
  match f with
  | CPosition => let* (b, c') := position_of d m o i c in Ok ((ABool b, m), c')
  | CIsNull => let* (b, c') := is_element_null d m o i c in Ok ((ABool b, m), c')
  | CPointer => let* (p, c') := pointer_to_element d m o i c in Ok ((APointer p, m), c')
  | CSize => let* (s, c') := size_of_element d m o i c in Ok ((ASize s, m), c')
  | CRead => let* (v, c') := read_element d m o i c in Ok ((AValue v, m), c')
  | CCanSet v inc => let* (b, c') := can_set_element_of d m o i inc v c in Ok ((ABool b, m), c')
  | CSet v inc => let* (r, c') := set_element_of d m o i inc v c in Ok ((ABool (fst r), snd r), c')
  | CSetNull => let* (r, c') := set_element_null d m o i c in Ok ((ABool (fst r), snd r), c')
  | CMoveToEnd => let* (r, c') := move_element_to_end d m o i c in Ok ((ABool (fst r), snd r), c')
  end.
(** the caller keeps one position for each index *)
Fixpoint calls_kept (d : dti) (o : Z) (fs : list (Z * element_call)) (m : mem) (cs : Z -> cache) : res (list answer * mem) :=
  match fs with
  | [] => Ok ([], m)
  | (i, f) :: fs' =>
      let* (am, c) := call d o i f m (cs i) in
      let* (r, m') := calls_kept d o fs' (snd am) (fun j => if j =? i then c else cs j) in
      Ok (fst am :: r, m')
  end.
(** the caller passes an INVALID position every time *)
Fixpoint calls_fresh (d : dti) (o : Z) (fs : list (Z * element_call)) (m : mem) : res (list answer * mem) :=
  match fs with
  | [] => Ok ([], m)
  | (i, f) :: fs' =>
      let* (am, c) := call d o i f m None in
      let* (r, m') := calls_fresh d o fs' (snd am) in
      Ok (fst am :: r, m')
  end.
(** the arguments respect the API when the call is made *)
Definition call_allowed (d : dti) (o i : Z) (f : element_call) (m : mem) : Prop :=
  0 <= i < 4294967296
  /\ match f with
     | CCanSet v inc | CSet v inc =>
         room d m o inc
         /\ (forall t, get_type_info d [i] = Some t -> fits t v)
         /\ (forall t vm vo, get_type_info d [i] = Some t -> v = DPtr vm vo -> data_at t vm vo)
     | _ => True
     end.
Fixpoint calls_allowed (d : dti) (o : Z) (fs : list (Z * element_call)) (m : mem) : Prop :=
  match fs with
  | [] => True
  | (i, f) :: fs' => call_allowed d o i f m /\ forall am c, call d o i f m None = Ok (am, c) -> calls_allowed d o fs' (snd am)
  end.
