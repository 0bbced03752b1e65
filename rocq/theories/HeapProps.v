(** * C61: cloning and destroying types *)
From Verif Require Import HeapFacts SizeProps TupleProps.
From Coq Require Import ZifyBool ZifyNat ZifyN Zify.
Ltac Zify.zify_post_hook ::= Z.div_mod_to_equations.

Lemma copy_length h h' t : forall t', copy_of h h' t t' -> length (blocks t') = length (blocks t).
Proof.
  induction t as [a|a ps IH] using shape_ind'; intros [b|b qs] C; try contradiction; [reflexivity|]. apply copy_block in C. destruct C as [_ C]. cbn [blocks length]. f_equal.
  induction C as [|p q ps qs C _ IHC]; [reflexivity|]. inversion IH; subst. cbn [flat_map]. rewrite !app_length. f_equal; auto.
Qed.
Lemma cloned_more w w' t t' : cloned w w' t t' -> forall x n, heap w x = Some n -> heap w' x = Some n.
Proof. intros (_ & _ & _ & F & O & _) x n H. rewrite O; [exact H|]. intro X. apply F in X. destruct X. congruence. Qed.

(** ** Cloning.  A clone is a new copy of every struct that is not static, the
    static ones are shared; nothing else in memory changes *)
Theorem C61_clone malloc stic on_destroy fuel w t r w' : allocates malloc -> heap w 0 = None -> alloc_error w = false -> shape_at (heap w) t -> (depth t <= fuel)%nat ->
  clone_type malloc stic on_destroy fuel w (root t) = Ok (r, w') -> r <> 0 ->
  alloc_error w' = false /\ called w' = called w ++ calls stic (statics t)
  /\ (forall d, describes (heap w) (root t) d -> describes (heap w') r d)
  /\ exists t', root t' = r /\ shape_at (heap w') t' /\ statics t' = statics t /\ length (blocks t') = length (blocks t)
     /\ NoDup (blocks t') /\ (forall x, In x (blocks t') -> heap w x = None) /\ (forall x, ~ In x (blocks t') -> heap w' x = heap w x).
Proof.
  intros AL N0 AE SH D E R. destruct (clone_ok malloc stic on_destroy AL t fuel D w SH AE N0) as (r0 & w0 & E0 & _ & K). rewrite E in E0. injection E0 as <- <-.
  destruct K as [(_ & A & C & t' & <- & CL)|(R0 & _)]; [|contradiction]. pose proof (cloned_more _ _ _ _ CL) as MO. destruct CL as (S1 & C1 & ND & FR & OT & ST & _).
  split; [exact A|]. split; [exact C|]. split; [intro d; apply copied; auto|].
  exists t'. split; [reflexivity|]. split; [exact S1|]. split; [exact ST|]. split; [apply (copy_length _ _ _ _ C1)|]. split; [exact ND|]. split; [intros x X; apply FR; exact X|exact OT].
Qed.
Print Assumptions C61_clone.

(** ** Without memory.  Cloning has no other outcomes; when it fails the memory
    is as before, and each static struct was released as often as it was taken *)
Theorem C61_clone_outcomes malloc stic on_destroy fuel w t : allocates malloc -> heap w 0 = None -> alloc_error w = false -> shape_at (heap w) t -> (depth t <= fuel)%nat ->
  exists r w', clone_type malloc stic on_destroy fuel w (root t) = Ok (r, w')
  /\ (r = 0 -> alloc_error w' = true /\ (forall x, heap w' x = heap w x) /\ (exists k h, malloc k h = 0)
       /\ exists ev l, called w' = called w ++ ev /\ Permutation ev (calls stic l ++ calls on_destroy l)).
Proof.
  intros AL N0 AE SH D. destruct (clone_ok malloc stic on_destroy AL t fuel D w SH AE N0) as (r & w' & E & _ & K). exists r, w'. split; [exact E|]. intros ->.
  destruct K as [(K & _)|(_ & A & H & (ev & C & l & P) & k & h & _ & KM)]; [contradiction|]. split; [exact A|]. split; [exact H|]. split; [eauto|]. exists ev, l. auto.
Qed.
Print Assumptions C61_clone_outcomes.

(** ** Destroying.  Exactly the structs that are not static are freed, each once,
    and the callback is called for each static one *)
Theorem C61_destroy fuel cb w t : shape_at (heap w) t -> NoDup (blocks t) -> (depth t <= fuel)%nat ->
  exists w', destroy_type fuel cb w (root t) = Ok w' /\ (forall x, In x (blocks t) -> heap w' x = None) /\ (forall x, ~ In x (blocks t) -> heap w' x = heap w x)
  /\ called w' = called w ++ calls cb (statics t).
Proof.
  intros SH N D. destruct (destroy_ok t fuel cb D w SH N) as (w' & E & (F1 & F2) & _ & _ & C). exists w'. auto.
Qed.
Print Assumptions C61_destroy.

(** ** A clone and its source are independent: destroying the clone restores the
    memory, destroying the source leaves the clone as it is *)
Theorem C61_independent malloc stic on_destroy fuel w t r w' cb : allocates malloc -> heap w 0 = None -> alloc_error w = false -> shape_at (heap w) t -> (depth t <= fuel)%nat ->
  clone_type malloc stic on_destroy fuel w (root t) = Ok (r, w') -> r <> 0 ->
  (exists w2, destroy_type fuel cb w' r = Ok w2 /\ (forall x, heap w2 x = heap w x) /\ called w2 = called w ++ calls stic (statics t) ++ calls cb (statics t))
  /\ (NoDup (blocks t) -> exists w2 t', destroy_type fuel cb w' (root t) = Ok w2 /\ root t' = r /\ shape_at (heap w2) t' /\ NoDup (blocks t') /\ (forall x, In x (blocks t') -> heap w2 x = heap w' x)).
Proof.
  intros AL N0 AE SH D E R. destruct (clone_ok malloc stic on_destroy AL t fuel D w SH AE N0) as (r0 & w0 & E0 & _ & K). rewrite E in E0. injection E0 as <- <-.
  destruct K as [(_ & A & C & t' & <- & CL)|(R0 & _)]; [|contradiction]. pose proof (cloned_more _ _ _ _ CL) as MO. destruct CL as (S1 & C1 & ND & FR & OT & ST & DT). split.
  - destruct (destroy_ok t' fuel cb ltac:(lia) w' S1 ND) as (w2 & E2 & (F1 & F2) & _ & _ & C2). exists w2. split; [exact E2|]. split; [|rewrite C2, C, ST, app_assoc; reflexivity].
    intro x. destruct (in_dec Z.eq_dec x (blocks t')) as [X|X]; [rewrite F1 by exact X; symmetry; apply FR; exact X|rewrite F2, OT by exact X; reflexivity].
  - intro NT. destruct (shape_live _ _ SH) as [L1 L2].
    assert (SH' : shape_at (heap w') t). { apply (shape_frame (heap w)); [exact SH|]. intros x X. apply in_app_iff in X. destruct X as [X|X]; [destruct (L1 x X) as (m & K & _)|destruct (L2 x X) as (m & K & _)]; rewrite K; apply MO; exact K. }
    destruct (destroy_ok t fuel cb D w' SH' NT) as (w2 & E2 & (F1 & F2) & _). exists w2, t'. split; [exact E2|]. split; [reflexivity|].
    assert (DJ : forall x, In x (blocks t') -> ~ In x (blocks t)). { intros x X Y. destruct (L1 x Y) as (m & K & _). destruct (FR x X). congruence. }
    split; [|split; [exact ND|intros x X; apply F2; apply DJ; exact X]].
    apply (shape_frame (heap w')); [exact S1|]. intros x X. apply F2. apply in_app_iff in X. destruct X as [X|X]; [apply DJ; exact X|]. rewrite ST in X. intro Y. destruct (L1 x Y) as (m & K1 & K2). destruct (L2 x X) as (m' & K3 & K4). congruence.
Qed.
Print Assumptions C61_independent.

(** ** The hypotheses are met: a tuple of a static number, an array of a number
    of its own and again the static number *)
Definition ex_scalars (d : dti) : dti := mk_dti (is_finalized d) (type_name d) (type d) (is_nullable d) (is_variable_sized_ d) (size d) (max_size d)
    (has_variable_element_count d) (element_count_ d) (prefix_bitmap_size_in_bits d) None [].
Definition pos0 : position := mk_position [] 0 0.
Definition ex_static : dti := num UINT false 2.
Definition ex_own : dti := num INT true 4.
Definition ex_array : dti := var_array 100 ex_own.
Definition ex_tuple : dti := mk_dti false [] TUPLE true false 0 200 false 0 0 None [(pos0, ex_static); (pos0, ex_array); (pos0, ex_static)].
Definition ex_heap (x : Z) : option node :=
  if x =? 1 then Some (mk_node true ex_static 0 [])
  else if x =? 2 then Some (mk_node false ex_own 0 [])
  else if x =? 3 then Some (mk_node false (ex_scalars ex_array) 2 [])
  else if x =? 4 then Some (mk_node false (ex_scalars ex_tuple) 0 [(pos0, 1); (pos0, 3); (pos0, 1)])
  else None.
Definition ex_world : world := mk_world ex_heap 0 false [].
Definition ex_shape : shape := Block 4 [Static 1; Block 3 [Block 2 []]; Static 1].
Definition ex_malloc (k : nat) (h : Z -> option node) : Z := match h (10 + Z.of_nat k) with None => 10 + Z.of_nat k | Some _ => 0 end.
(** this one fails at the third call *)
Definition ex_malloc2 (k : nat) (h : Z -> option node) : Z := if Nat.eqb k 2 then 0 else ex_malloc k h.
Example ex_allocates : allocates ex_malloc /\ allocates ex_malloc2.
Proof.
  assert (A : allocates ex_malloc) by (intros k h; unfold ex_malloc; destruct (h (10 + Z.of_nat k)) eqn:E; congruence). split; [exact A|]. intros k h. unfold ex_malloc2. destruct (Nat.eqb k 2); [congruence|apply A].
Qed.
Example C61_example : shape_at ex_heap ex_shape /\ describes ex_heap 4 ex_tuple /\ ex_heap 0 = None /\ NoDup (blocks ex_shape) /\ blocks ex_shape = [4; 3; 2] /\ statics ex_shape = [1; 1] /\ depth ex_shape = 3%nat.
Proof.
  split; [cbn [shape_at ex_shape]; repeat (first [split | eexists; split; [reflexivity|] | exact I]); reflexivity|].
  split; [repeat (first [split | eexists; split; [reflexivity|] | exact I]); reflexivity|]. split; [reflexivity|]. split; [repeat constructor; cbn; lia|]. auto.
Qed.
(** a clone is made at 10, 11, 12; destroying it frees these and no others *)
Example C61_run :
  match clone_type ex_malloc (Some 7) (Some 8) 3 ex_world 4 with
  | Ok (r, w') =>
      (r, called w', map (fun x => match heap w' x with Some n => Some (links n) | None => None end) [1; 2; 3; 4; 10; 11; 12; 13],
       match destroy_type 3 (Some 8) w' r with Ok w2 => map (fun x => match heap w2 x with Some _ => true | None => false end) [1; 2; 3; 4; 10; 11; 12; 13] | UB => [] end)
  | UB => (0, [], [], [])
  end
  = (10, [(7, 1); (7, 1)], [Some []; Some []; Some [2]; Some [1; 3; 1]; Some [1; 11; 1]; Some [12]; Some []; None],
     [true; true; true; true; false; false; false; false]).
Proof. vm_compute. reflexivity. Qed.
(** the third call of [malloc] fails: the static number that was taken is released *)
Example C61_run_fails :
  match clone_type ex_malloc2 (Some 7) (Some 8) 3 ex_world 4 with
  | Ok (r, w') => (r, alloc_error w', called w', map (fun x => match heap w' x with Some n => true | None => false end) [1; 2; 3; 4; 10; 11; 12; 13])
  | UB => (0, false, [], [])
  end
  = (0, true, [(7, 1); (8, 1)], [true; true; true; true; false; false; false; false]).
Proof. vm_compute. reflexivity. Qed.
