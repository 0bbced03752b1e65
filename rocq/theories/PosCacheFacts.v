(** * The position of an element depends only on the type, the index and the number of elements *)
From Verif Require Export PosCache ObsFacts.
From Coq Require Import ZifyBool ZifyNat ZifyN Zify.
Ltac Zify.zify_post_hook ::= idtac.

Definition good_cache (d : dti) (n i : Z) (c : cache) : Prop :=
  match c with None => True | Some p => 0 <= i < n /\ p = pos d n i end.
Definition next_cache (d : dti) (n i : Z) (c : cache) : cache := if n <=? i then c else Some (pos d n i).

Lemma on_leaf A d m o i c (r : A) k : is_container_type_info d = false -> on_element d m o i c r k = Ok (r, c).
Proof. intro C. unfold on_element. rewrite C. reflexivity. Qed.
Lemma on_element_ok A d m o s es i c (r : A) k : container d -> cv d m o s es -> 0 <= i -> good_cache d (zlen es) i c ->
  on_element d m o i c r k = if zlen es <=? i then Ok (r, c) else let* a := k (pos d (zlen es) i) in Ok (a, Some (pos d (zlen es) i)).
Proof.
  intros CT V I G. unfold on_element. rewrite (proj2 CT), (cv_get_count d m o s es CT V). cbn [negb bind].
  destruct (zlen es <=? i) eqn:L; [reflexivity|]. assert (locate d m o i c = Ok (pos d (zlen es) i)) as ->.
  { destruct c as [p|]; cbn [locate]; [destruct G as [_ ->]; reflexivity|]. apply (cv_pos d m o s es i CT V). lia. }
  reflexivity.
Qed.

(** ** the functions on an element and the ones on a path of one position *)
Section One.
  Variables (d : dti) (m : mem) (o s : Z) (es : list celem) (i : Z) (c : cache).
  Hypothesis CT : container d.
  Hypothesis V : cv d m o s es.
  Hypothesis I : 0 <= i.
  Hypothesis G : good_cache d (zlen es) i c.
  Notation n := (zlen es).

  Lemma next_out : n <=? i = true -> next_cache d n i c = c.
  Proof. intro L. unfold next_cache. rewrite L. reflexivity. Qed.
  Ltac enter := rewrite (on_element_ok _ d m o s es i c _ _ CT V I G); unfold next_cache; let L := fresh "L" in destruct (n <=? i) eqn:L.
  Ltac plain := rewrite ?(proj2 CT), ?(cv_get_count d m o s es CT V); cbn [negb bind]; try (match goal with K : (n <=? i) = _ |- _ => rewrite K end); try rewrite (cv_pos d m o s es i CT V) by lia; cbn [bind].

  Lemma position_one : position_of d m o i c = Ok (negb (n <=? i), next_cache d n i c).
  Proof. unfold position_of. enter; reflexivity. Qed.
  Lemma read_one : read_element d m o i c = let* v := get_value d [i] m o in Ok (v, next_cache d n i c).
  Proof.
    unfold read_element. cbn [get_value]. unfold get_containee_datum. enter; plain; [reflexivity|]. reflexivity.
  Qed.
  Lemma can_set_one inc v : can_set_element_of d m o i inc v c = let* b := can_set_element d [i] m o v inc in Ok (b, next_cache d n i c).
  Proof. unfold can_set_element_of. cbn [can_set_element]. unfold can_set_containee. enter; plain; reflexivity. Qed.
  Lemma set_one inc v : set_element_of d m o i inc v c = let* r := set_containee d m o i inc v in Ok (r, next_cache d n i c).
  Proof. unfold set_element_of, set_containee. enter; plain; reflexivity. Qed.
  Lemma set_null_one : set_element_null d m o i c = let* r := set_containee d m o i 0 DNull in Ok (r, next_cache d n i c).
  Proof. unfold set_element_null, set_containee. enter; plain; reflexivity. Qed.

  Variable e : celem.
  Hypothesis En : nth_error es (Z.to_nat i) = Some e.
  Lemma one_in : n <=? i = false.
  Proof. pose proof (znth_some _ _ _ En). lia. Qed.
  Lemma is_null_one : is_element_null d m o i c = Ok (is_cnull e, next_cache d n i c).
  Proof. unfold is_element_null. enter; [rewrite one_in in L; discriminate|]. rewrite (cv_is_null d m o s es i e CT V I En). reflexivity. Qed.
  Lemma pointer_one : pointer_to_element d m o i c = Ok (ptr_of d n m o i e, next_cache d n i c).
  Proof. unfold pointer_to_element. enter; [rewrite one_in in L; discriminate|]. rewrite (cv_get_ptr d m o s es i e CT V I En). reflexivity. Qed.
  Definition size_one (t : dti) : Z :=
    if is_bit_field t then 0 else if negb (is_variable_sized_ t) then size t else match e with CBytes x => zlen x | _ => 0 end.
  Lemma pos_type : pi_type (pos d n i) = etype d i.
  Proof. pose proof one_in. destruct (pos_spec d n i (proj1 CT) (proj2 CT) (cv_n _ _ _ _ _ V) ltac:(lia)) as (Q1 & _). exact Q1. Qed.
  Lemma element_get_size x : e = CBytes x -> get_size (etype d i) m (addr d n m o i) = Ok (zlen x).
  Proof.
    intros ->. destruct (cv_chunk d m o s es i x CT V I En) as (A1 & A2 & A3 & A4 & A5 & A6 & A7).
    pose proof (cv_bounds d m o s es CT V). pose proof (cv_o _ _ _ _ _ V). pose proof (cv_s _ _ _ _ _ V). unfold max_bytes in *.
    apply get_size_local; auto; lia.
  Qed.
  Lemma size_of_one : size_of_element d m o i c = Ok (size_one (etype d i), next_cache d n i c).
  Proof.
    unfold size_of_element. enter; [rewrite one_in in L; discriminate|]. unfold containee_size, size_one. rewrite pos_type.
    change (is_variable_sized_type_info (etype d i)) with (is_variable_sized_ (etype d i)).
    destruct (is_bit_field (etype d i)) eqn:B. { apply is_bit_field_spec in B. rewrite B. reflexivity. }
    assert (X : forall A (x y : A), match type (etype d i) with BIT_FIELD => x | _ => y end = y) by (intros; unfold is_bit_field in B; destruct (type (etype d i)); try reflexivity; discriminate).
    rewrite X. destruct (is_variable_sized_ (etype d i)) eqn:Vt; cbn [negb]; [|reflexivity].
    rewrite (cv_get_ptr d m o s es i e CT V I En). cbn [bind]. pose proof element_get_size as GS. pose proof one_in as ON. destruct e as [|z|x] eqn:Ee; cbn [ptr_of]; try reflexivity.
    - pose proof (cv_el _ _ _ _ _ V i _ I En) as (_ & A & _). congruence.
    - rewrite (GS x); auto.
  Qed.
  (** moving: what is returned *)
  Lemma is_moved_one : is_moved d m o (pos d n i) =
    Ok (is_variable_sized_ (etype d i) && match e with CBytes x => negb (addr d n m o i + zlen x =? o + s) | _ => false end).
  Proof.
    unfold is_moved. rewrite pos_type. change (is_variable_sized_type_info (etype d i)) with (is_variable_sized_ (etype d i)).
    destruct (is_variable_sized_ (etype d i)) eqn:Vt; cbn [negb andb]; [|reflexivity].
    rewrite (cv_get_ptr d m o s es i e CT V I En). cbn [bind]. pose proof element_get_size as GS. pose proof one_in as ON. destruct e as [|z|x] eqn:Ee; cbn [ptr_of]; try reflexivity.
    - pose proof (cv_el _ _ _ _ _ V i _ I En) as (_ & A & _). apply is_bit_field_spec in A.
      pose proof (cv_etype_wf d m o s es i CT V ltac:(lia)) as W. pose proof (wf_node _ W) as (_ & _ & _ & _ & _ & _ & N). rewrite A in N. destruct N as (N & _). congruence.
    - rewrite (GS x eq_refl), (cv_get_size d m o s es CT V). cbn [bind]. do 2 f_equal.
      destruct (cv_chunk d m o s es i x CT V I En) as (A1 & A2 & A3 & A4 & A5 & A6 & A7).
      pose proof (cv_bounds d m o s es CT V). pose proof (cv_o _ _ _ _ _ V). pose proof (cv_s _ _ _ _ _ V). unfold max_bytes in *.
      rewrite (u32_id (addr d n m o i - o)) by lia. rewrite u32_id by lia. lia.
  Qed.
End One.

Lemma move_one d m o bs es i c : holds d m o bs -> container d -> cv d m o (zlen bs) es ->
  (forall j x, 0 <= j -> nth_error es (Z.to_nat j) = Some (CBytes x) -> good (etype d j) x) -> 0 <= i -> good_cache d (zlen es) i c ->
  exists b m' bs', move_element_to_end d m o i c = Ok ((b, m'), next_cache d (zlen es) i c) /\ holds d m' o bs' /\ zlen bs' = zlen bs
    /\ cv d m' o (zlen bs) es /\ keep (fun x => x < o \/ o + zlen bs <= x) m m'
    /\ (nth_error es (Z.to_nat i) = None -> b = false /\ m' = m)
    /\ forall e, nth_error es (Z.to_nat i) = Some e ->
         (b = false -> m' = m)
         /\ b = is_variable_sized_ (etype d i) && match e with CBytes x => negb (addr d (zlen es) m o i + zlen x =? o + zlen bs) | _ => false end
         /\ (is_variable_sized_ (etype d i) = true -> at_end d m' o (zlen bs) es i e).
Proof.
  intros H CT V GE I G. unfold move_element_to_end. rewrite (on_element_ok _ d m o (zlen bs) es i c _ _ CT V I G). unfold next_cache.
  destruct (zlen es <=? i) eqn:L.
  - exists false, m, bs. split; [reflexivity|]. split; [exact H|]. split; [reflexivity|]. split; [exact V|]. split; [apply keep_refl|]. split; [auto|].
    intros e En. pose proof (znth_some _ _ _ En). lia.
  - destruct (znth_lt es i ltac:(lia)) as [e En]. rewrite (is_moved_one d m o (zlen bs) es i CT V I e En). cbn [bind].
    destruct (move_ok d m o (zlen bs) es i e CT V I En) as (m' & E & V' & AE & F & K). rewrite E. cbn [bind].
    destruct (cv_to d m' o _ _ CT V') as [Vb L']. exists (is_variable_sized_ (etype d i) && match e with CBytes x => negb (addr d (zlen es) m o i + zlen x =? o + zlen bs) | _ => false end), m', (slice m' o (zlen bs)).
    split; [reflexivity|]. split.
    { constructor; rewrite ?L'; auto. - apply (h_o _ _ _ _ H). - apply (cv_s _ _ _ _ _ V'). - apply (good_con d _ es CT); [exact Vb|exact GE]. }
    split; [exact L'|]. split; [exact V'|]. split; [exact K|]. split; [congruence|].
    intros e0 E0. rewrite En in E0. injection E0 as <-. split; [|split; [reflexivity|exact AE]].
    intro B. destruct (is_variable_sized_ (etype d i)) eqn:Vi; [|apply F; reflexivity]. cbn [andb] in B.
    assert (M : move_to_end d m o i (pos d (zlen es) i) = Ok m); [|congruence].
    unfold move_to_end. rewrite (pos_type d m o (zlen bs) es i CT V I e En). change (is_variable_sized_type_info (etype d i)) with (is_variable_sized_ (etype d i)). rewrite Vi. cbn [negb].
    rewrite (cv_get_ptr d m o _ es i e CT V I En). cbn [bind]. destruct e as [|z|x]; cbn [ptr_of]; try reflexivity.
    + pose proof (cv_el _ _ _ _ _ V i _ I En) as (_ & A & _). apply is_bit_field_spec in A.
      pose proof (cv_etype_wf d m o _ es i CT V ltac:(lia)) as W. pose proof (wf_node _ W) as (_ & _ & _ & _ & _ & _ & N). rewrite A in N. destruct N as (N & _). congruence.
    + pose proof (is_moved_one d m o (zlen bs) es i CT V I _ En) as MO. unfold is_moved in MO.
      rewrite (pos_type d m o (zlen bs) es i CT V I _ En) in MO. change (is_variable_sized_type_info (etype d i)) with (is_variable_sized_ (etype d i)) in MO. rewrite Vi in MO. cbn [negb andb] in MO.
      rewrite (cv_get_ptr d m o _ es i _ CT V I En) in MO. cbn [bind ptr_of] in MO.
      rewrite (element_get_size d m o (zlen bs) es i CT V I _ En x eq_refl) in MO |- *. rewrite (cv_get_size d m o _ es CT V) in MO |- *. cbn [bind] in MO |- *.
      injection MO as MO. rewrite B in MO. apply negb_false_iff in MO. rewrite MO. reflexivity.
Qed.
