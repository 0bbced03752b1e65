(** * Reading a type description leaks nothing *)
From Verif Require Import SizeProps TupleProps HeapProps AllocFacts SerdeProps.
From Coq Require Import ZifyBool ZifyNat ZifyN Zify.
Ltac Zify.zify_post_hook ::= Z.div_mod_to_equations.

(** ** Success.  The type is the one of C39 and C40; its structs are new, except
    for static ones of the library, all other memory is unchanged, and
    destroying the type restores the memory *)
Theorem C62_success malloc static_at e m w o n d a w' : allocates malloc -> heap w 0 = None -> alloc_error w = false -> statics_exist static_at (heap w) ->
  deserialize_type_info_at malloc static_at e m w o n = Ok (Some (d, a), w') ->
  deserialize_type_info e m o n = Ok (Some d) /\ alloc_error w' = false /\ a <> 0 /\ laid_out (heap w') a d
  /\ exists t, root t = a /\ shape_at (heap w') t /\ NoDup (blocks t) /\ (forall x, In x (blocks t) -> heap w x = None) /\ (forall x, ~ In x (blocks t) -> heap w' x = heap w x)
     /\ (forall x, In x (statics t) -> exists ty nu sz, numeral_kind ty /\ x = static_at ty nu sz)
     /\ forall fuel, (depth t <= fuel)%nat -> exists w2, destroy_type fuel None w' a = Ok w2 /\ forall x, heap w2 x = heap w x.
Proof.
  intros AL N0 AE ST E. pose proof (deserialize_ok malloc static_at AL e m (S (length m)) w o n (conj N0 (conj AE ST))) as R. unfold deserialize_type_info_at in E. rewrite E in R. cbn [outcome] in R.
  destruct R as (P & A & C & L & t & T1 & MA & D). unfold deserialize_type_info. rewrite P. cbn [bind]. split; [reflexivity|]. split; [exact A|].
  split; [intros ->; apply laid_out_unfold in L; destruct L as (k & L1 & _); rewrite (made_null _ _ _ _ MA N0) in L1; discriminate|]. split; [exact L|].
  destruct MA as (S1 & ND & FR & OT & LB). exists t. split; [exact T1|]. split; [exact S1|]. split; [exact ND|]. split; [intros x X; apply FR; exact X|]. split; [exact OT|]. split; [exact LB|].
  intros fuel DF. subst a. destruct (destroy_ok t fuel None DF w' S1 ND) as (w2 & E2 & (F1 & F2) & _). exists w2. split; [exact E2|]. intro x.
  destruct (in_dec Z.eq_dec x (blocks t)) as [X|X]; [rewrite F1 by exact X; symmetry; apply FR; exact X|rewrite F2 by exact X; apply OT; exact X].
Qed.
Print Assumptions C62_success.

(** ** Failure.  Whenever NULL is returned, for bad input as well as for a
    failing [malloc] at any point, the memory is as before; the error flag says
    which of the two it was *)
Theorem C62_failure malloc static_at e m w o n w' : allocates malloc -> heap w 0 = None -> alloc_error w = false -> statics_exist static_at (heap w) ->
  deserialize_type_info_at malloc static_at e m w o n = Ok (None, w') ->
  (forall x, heap w' x = heap w x)
  /\ (alloc_error w' = false -> deserialize_type_info e m o n = Ok None)
  /\ (alloc_error w' = true -> exists k h, malloc k h = 0).
Proof.
  intros AL N0 AE ST E. pose proof (deserialize_ok malloc static_at AL e m (S (length m)) w o n (conj N0 (conj AE ST))) as R. unfold deserialize_type_info_at in E. rewrite E in R. cbn [outcome] in R.
  destruct R as (H & _ & X & Y). split; [exact H|]. split; [|exact Y]. intro Q. unfold deserialize_type_info. rewrite (X Q). reflexivity.
Qed.
Print Assumptions C62_failure.

(** ** Memory management adds no undefined behaviour, and no failures when
    [malloc] does not fail *)
Theorem C62_outcomes malloc static_at e m w o n r : allocates malloc -> heap w 0 = None -> alloc_error w = false -> statics_exist static_at (heap w) ->
  deserialize_type_info e m o n = Ok r ->
  exists r' w', deserialize_type_info_at malloc static_at e m w o n = Ok (r', w')
  /\ (match r' with Some (d, _) => r = Some d | None => r = None \/ alloc_error w' = true end)
  /\ ((forall k h, malloc k h <> 0) -> alloc_error w' = false).
Proof.
  intros AL N0 AE ST E. pose proof (deserialize_ok malloc static_at AL e m (S (length m)) w o n (conj N0 (conj AE ST))) as R. unfold deserialize_type_info_at. unfold deserialize_type_info in E.
  destruct (deserialize_at malloc static_at e m (S (length m)) w o n) as [[[[d a]|] w']|] eqn:D; cbn [outcome] in R.
  - destruct R as (P & A & _). rewrite P in E. cbn [bind] in E. eexists _, _. split; [reflexivity|]. split; [congruence|auto].
  - destruct R as (H & _ & X & Y). eexists _, _. split; [reflexivity|]. split.
    + destruct (alloc_error w'); [auto|]. rewrite (X eq_refl) in E. cbn [bind] in E. left. congruence.
    + intro NF. destruct (alloc_error w'); [|reflexivity]. destruct (Y eq_refl) as (k & h & K). elim (NF k h K).
  - rewrite R in E. discriminate.
Qed.
Print Assumptions C62_outcomes.

(** ** The hypotheses are met: the description of C39's example, with the
    static types at the addresses from 1 on *)
Definition kind_no (ty : data_type) : Z := match ty with BIT_FIELD => 1 | UINT => 2 | INT => 3 | FLOAT => 4 | LARGE_UINT => 5 | LARGE_INT => 6 | _ => 7 end.
Definition st_at (ty : data_type) (nu : bool) (sz : Z) : Z := kind_no ty.
Definition st_heap (x : Z) : option node :=
  let st ty := Some (mk_node true (num ty false 1) 0 []) in
  if x =? 1 then st BIT_FIELD else if x =? 2 then st UINT else if x =? 3 then st INT else if x =? 4 then st FLOAT else if x =? 5 then st LARGE_UINT else if x =? 6 then st LARGE_INT else None.
Definition st_world : world := mk_world st_heap 0 false [].
Definition description : mem := match serialize_type_info (final ex_record) (zmem 67) 1 with Ok (_, m) => m | UB => [] end.
Example C62_statics : statics_exist st_at st_heap /\ st_heap 0 = None.
Proof. split; [|reflexivity]. intros ty nu sz K. destruct ty; try contradiction; eexists; (split; [reflexivity|split; reflexivity]). Qed.
Definition live (w : world) : list Z := filter (fun x => match heap w x with Some _ => true | None => false end) (map Z.of_nat (seq 0 30)).
Example C62_run :
  match deserialize_type_info_at ex_malloc st_at ex_env description st_world 1 66 with
  | Ok (Some (d, a), w') => (a, live w', match destroy_type 5 None w' a with Ok w2 => live w2 | UB => [] end)
  | _ => (0, [], [])
  end = (10, [1; 2; 3; 4; 5; 6; 10; 11; 12], [1; 2; 3; 4; 5; 6]).
Proof. vm_compute. reflexivity. Qed.
(** the third call of [malloc] fails, and a description cut off after 55 bytes *)
Example C62_run_fails :
  match deserialize_type_info_at ex_malloc2 st_at ex_env description st_world 1 66, deserialize_type_info_at ex_malloc st_at ex_env description st_world 1 55 with
  | Ok (None, w1), Ok (None, w2) => (alloc_error w1, live w1, alloc_error w2, mallocs w2, live w2)
  | _, _ => (false, [], false, 0%nat, [])
  end = (true, [1; 2; 3; 4; 5; 6], false, 2%nat, [1; 2; 3; 4; 5; 6]).
Proof. vm_compute. reflexivity. Qed.
