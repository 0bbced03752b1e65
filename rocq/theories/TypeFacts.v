(** * Facts about types and finalization *)
From Verif Require Export TypeSpec BytesFacts.
From Coq Require Import ZifyBool ZifyNat ZifyN Zify.
Ltac Zify.zify_post_hook ::= Z.div_mod_to_equations.

(** remove wrap-arounds of values that are in range *)
Ltac unwrap := repeat match goal with
  | |- context [u64 ?x] => rewrite (u64_id x) by lia
  | |- context [u32 ?x] => rewrite (u32_id x) by lia
  end.

(** ** induction on types *)
Section DtiInd.
  Variable P : dti -> Prop.
  Hypothesis H : forall t,
    (forall c, containee_ t = Some c -> P c) ->
    (forall p c, In (p, c) (containees t) -> P c) -> P t.
  Fixpoint dti_rect2 (t : dti) : P t.
  Proof.
    apply H.
    - destruct t as [fn tn ty nu vs sz ms hv ec pb ce cs]; cbn [containee_].
      destruct ce as [c|]; intros c' E; [|discriminate].
      injection E as <-. apply dti_rect2.
    - destruct t as [fn tn ty nu vs sz ms hv ec pb ce cs]; cbn [containees].
      revert cs. fix F 1. intros [|[q c'] cs'] p c I.
      + destruct I.
      + destruct I as [E|I]; [injection E as E1 E2; rewrite <- E2; apply dti_rect2 | exact (F cs' p c I)].
  Defined.
End DtiInd.
Lemma dti_induction (P : dti -> Prop) :
  (forall t, (forall c, containee_ t = Some c -> P c) ->
             (forall p c, In (p, c) (containees t) -> P c) -> P t) -> forall t, P t.
Proof. intros H t. apply dti_rect2. exact H. Qed.

(** ** well formed finalized types *)

(** bits and slots through the fields of finalized elements *)
Definition ebits (t : dti) : Z := b2n (needs_is_valid_bit t) + (if is_bit_field t then size t else 0).
Definition eslot (ms : Z) (t : dti) : Z :=
  if is_bit_field t then 0 else if is_variable_sized_ t then value_size ms else size t.
Fixpoint sum_bits (cs : list (position * dti)) : Z :=
  match cs with [] => 0 | (_, t) :: cs' => ebits t + sum_bits cs' end.
Fixpoint sum_slots (ms : Z) (cs : list (position * dti)) : Z :=
  match cs with [] => 0 | (_, t) :: cs' => eslot ms t + sum_slots ms cs' end.
(** the positions of the elements of a TUPLE, from bit [b] and byte [o] on *)
Fixpoint lay (ms : Z) (cs : list (position * dti)) (b o : Z) : Prop :=
  match cs with
  | [] => True
  | (p, t) :: cs' =>
      (needs_is_valid_bit t = true -> p_valid p = b)
      /\ (is_bit_field t = true -> p_off p = b + b2n (needs_is_valid_bit t))
      /\ (is_bit_field t = false -> p_off p = o)
      /\ lay ms cs' (b + ebits t) (o + eslot ms t)
  end.

Definition node_ok (d : dti) : Prop :=
  is_finalized d = true /\ 0 <= size d /\ 0 <= max_size d <= max_bytes /\ (0 <= element_count_ d < 4294967296 /\ zlen (containees d) < 4294967296)
  /\ (is_bit_field d = false -> 1 <= size d <= max_bytes)
  /\ (is_variable_sized_ d = true -> size d <= max_size d)
  /\ match type d with
     | BIT_FIELD => is_variable_sized_ d = false /\ 1 <= size d <= 64
     | UINT | INT => is_variable_sized_ d = false /\ 1 <= size d <= 8
     | FLOAT => is_variable_sized_ d = false /\ (size d = 4 \/ size d = 8)
     | LARGE_UINT | LARGE_INT => is_variable_sized_ d = false /\ 1 <= size d <= 32
     | STRING | BINARY =>
         is_variable_sized_ d = has_variable_element_count d
         /\ prefix_bitmap_size_in_bits d = 0
         /\ containee_ d = Some uint8_type
         /\ size d = (if has_variable_element_count d then value_size (max_size d) else element_count_ d)
         /\ (has_variable_element_count d = false -> 1 <= element_count_ d)
     | TUPLE =>
         containees d <> [] /\ has_variable_element_count d = false
         /\ is_variable_sized_ d = existsb (fun pc => is_variable_sized_ (snd pc)) (containees d)
         /\ prefix_bitmap_size_in_bits d = sum_bits (containees d)
         /\ (let o := (if is_variable_sized_ d then value_size (max_size d) else 0)
                      + bitmap_size_in_bytes (sum_bits (containees d)) in
             size d = o + sum_slots (max_size d) (containees d)
             /\ lay (max_size d) (containees d) 0 o)
     | ARRAY =>
         exists c, containee_ d = Some c
         /\ is_variable_sized_ d = has_variable_element_count d || is_variable_sized_ c
         /\ (has_variable_element_count d = false -> 1 <= element_count_ d)
         /\ (has_variable_element_count d = false -> prefix_bitmap_size_in_bits d = element_count_ d * ebits c)
         /\ size d = (if is_variable_sized_ c then value_size (max_size d) else 0)
              + (if has_variable_element_count d then value_size (max_size d)
                 else bitmap_size_in_bytes (element_count_ d * ebits c) + element_count_ d * eslot (max_size d) c)
     end.

Fixpoint wf (d : dti) : Prop :=
  node_ok d
  /\ match type d with
     | TUPLE => (fix all (cs : list (position * dti)) := match cs with [] => True | (_, c) :: cs' => wf c /\ all cs' end) (containees d)
     | STRING | BINARY | ARRAY => match containee_ d with Some c => wf c | None => True end
     | _ => True
     end.

Lemma wf_all (cs : list (position * dti)) : (fix all (cs : list (position * dti)) := match cs with [] => True | (_, c) :: cs' => wf c /\ all cs' end) cs
  <-> (forall p c, In (p, c) cs -> wf c).
Proof.
  induction cs as [|[q c] cs IH]; cbn; split.
  - intros _ p c [].
  - trivial.
  - intros [A B] p c' [E|I]; [injection E as _ <-; exact A | exact (proj1 IH B p c' I)].
  - intros A. split; [eapply A; left; reflexivity | apply IH; intros; eapply A; right; eassumption].
Qed.
Lemma limits_all (cs : list (position * dti)) : (fix all (cs : list (position * dti)) := match cs with [] => True | (_, c) :: cs' => within_limits c /\ all cs' end) cs
  <-> (forall p c, In (p, c) cs -> within_limits c).
Proof.
  induction cs as [|[q c] cs IH]; cbn; split.
  - intros _ p c [].
  - trivial.
  - intros [A B] p c' [E|I]; [injection E as _ <-; exact A | exact (proj1 IH B p c' I)].
  - intros A. split; [eapply A; left; reflexivity | apply IH; intros; eapply A; right; eassumption].
Qed.

Lemma wf_unfold d : wf d <-> node_ok d
  /\ match type d with
     | TUPLE => forall p c, In (p, c) (containees d) -> wf c
     | STRING | BINARY | ARRAY => forall c, containee_ d = Some c -> wf c
     | _ => True
     end.
Proof.
  destruct d as [fn tn ty nu vs sz ms hv ec pb ce cs].
  cbn [wf type containees containee_].
  assert (O : forall P : dti -> Prop, match ce with Some c => P c | None => True end <-> (forall c, ce = Some c -> P c)).
  { intro P. destruct ce as [c|]; split; intros A; try (intros c' E; injection E as <-; exact A); auto; discriminate. }
  destruct ty; try rewrite wf_all; try rewrite O; reflexivity.
Qed.
Lemma wf_node d : wf d -> node_ok d.
Proof. intro W. apply wf_unfold in W. apply W. Qed.

(** a finalized type agrees with the specification *)
Lemma wf_spec d : wf d -> t_variable d = is_variable_sized_ d /\ t_size d = size d.
Proof.
  induction d as [d IHc IHs] using dti_induction. intro W. apply wf_unfold in W. destruct W as [N W].
  destruct d as [fn tn ty nu vs sz ms hv ec pb ce cs].
  unfold node_ok in N. cbn -[wf t_variable t_size containee_ containees] in *.
  destruct N as (F & S0 & MS & EC & SZ & VM & N).
  destruct ty; cbn [containee_ containees] in *.
  1-6: cbn; destruct N as [N1 N2]; auto.
  1-2: destruct N as (N1 & N2 & N3 & N4 & N5); cbn; destruct hv; subst; auto.
  - destruct N as (N0 & N1 & N2 & N3 & N4 & N5).
    assert (V : t_variable (mk_dti fn tn TUPLE nu vs sz ms hv ec pb ce cs) = vs).
    { cbn. rewrite N2. clear - IHs W. induction cs as [|[q c] cs IH]; [reflexivity|].
      cbn. rewrite IH; [|intros; eapply IHs; [right|]; eassumption|intros; eapply W; right; eassumption].
      rewrite (proj1 (IHs q c (or_introl eq_refl) (W q c (or_introl eq_refl)))). reflexivity. }
    split; [exact V|].
    cbn [t_size type containees max_size]. rewrite V, N4. f_equal; [f_equal|].
    + unfold bytes_of_bits, bitmap_size_in_bytes. do 2 f_equal.
      clear - IHs W. induction cs as [|[q c] cs IH]; [reflexivity|]. cbn [sum_bits].
      rewrite IH; [|intros; eapply IHs; [right|]; eassumption|intros; eapply W; right; eassumption].
      f_equal. pose proof (proj1 (IHs q c (or_introl eq_refl) (W q c (or_introl eq_refl)))) as E.
      unfold bits_in_bitmap, validity_bits, ebits, needs_is_valid_bit, is_variable_sized_type_info. rewrite E.
      destruct (negb (is_variable_sized_ c) && is_nullable c); reflexivity.
    + clear - IHs W. induction cs as [|[q c] cs IH]; [reflexivity|]. cbn [sum_slots].
      rewrite IH; [|intros; eapply IHs; [right|]; eassumption|intros; eapply W; right; eassumption].
      f_equal. destruct (IHs q c (or_introl eq_refl) (W q c (or_introl eq_refl))) as [E1 E2].
      unfold slot_bytes, eslot. rewrite E1, E2. reflexivity.
  - destruct N as (c & -> & N1 & N2 & N3 & N4).
    destruct (IHc c eq_refl (W c eq_refl)) as [E1 E2].
    cbn [t_variable t_size type containee_ max_size has_variable_element_count element_count_].
    rewrite E1, E2, N4. split; [symmetry; exact N1|].
    assert (B : bits_in_bitmap c = ebits c).
    { unfold bits_in_bitmap, validity_bits, ebits, needs_is_valid_bit, is_variable_sized_type_info. rewrite E1.
      destruct (negb (is_variable_sized_ c) && is_nullable c); reflexivity. }
    assert (L : slot_bytes ms c (size c) = eslot ms c) by (unfold slot_bytes, eslot; rewrite E1; reflexivity).
    rewrite B, L. reflexivity.
Qed.

(** ** finalization *)
Fixpoint finalize_elements (cs : list (position * dti)) (vs : bool) (bits : Z) : bool * bool * Z * list (position * dti) :=
  match cs with
  | [] => (true, vs, bits, [])
  | (p, t) :: cs' =>
      let '(ok, t1) := finalize t in
      if negb ok then (false, vs, bits, (p, t1) :: cs')
      else
        let vs1 := if is_variable_sized_type_info t1 then true else vs in
        let '(p1, bits1) := assign_bits p t1 bits in
        let '(ok2, vs2, bits2, cs2) := finalize_elements cs' vs1 bits1 in
        (ok2, vs2, bits2, (p1, t1) :: cs2)
  end.
Lemma finalize_tuple_eq t : type t = TUPLE -> is_finalized t = false ->
  finalize t = match containees t with
               | [] => (false, t)
               | _ => let '(ok, vs, bits, cs) := finalize_elements (containees t) false 0 in
                      if negb ok then (false, set_fin t false vs (size t) false bits (containee_ t) cs)
                      else finalize_tuple t vs bits cs
               end.
Proof.
  destruct t as [fn tn ty nu vs sz ms hv ec pb ce cs]. cbn [type is_finalized]. intros -> ->.
  cbn [finalize type is_finalized containees].
  assert (E : forall cs vs bits,
    (fix elements (cs : list (position * dti)) (vs : bool) (bits : Z) : bool * bool * Z * list (position * dti) :=
               match cs with
               | [] => (true, vs, bits, [])
               | (p, t) :: cs' =>
                   let '(ok, t1) := finalize t in
                   if negb ok then (false, vs, bits, (p, t1) :: cs')
                   else
                     let vs1 := if is_variable_sized_type_info t1 then true else vs in
                     let '(p1, bits1) := assign_bits p t1 bits in
                     let '(ok2, vs2, bits2, cs2) := elements cs' vs1 bits1 in
                     (ok2, vs2, bits2, (p1, t1) :: cs2)
               end) cs vs bits = finalize_elements cs vs bits).
  { clear. induction cs as [|[p t] cs IH]; intros vs bits; [reflexivity|]. cbn [finalize_elements].
    destruct (finalize t) as [ok t1]. destruct ok; [|reflexivity]. cbn [negb].
    destruct (assign_bits p t1 bits) as [p1 b1]. rewrite IH. reflexivity. }
  destruct cs as [|pc cs']; [reflexivity|]. rewrite <- E. reflexivity.
Qed.

(** finalized or not: finalized parts are well formed *)
Fixpoint sound (t : dti) : Prop :=
  if is_finalized t then wf t
  else match type t with
       | TUPLE => (fix all (cs : list (position * dti)) := match cs with [] => True | (_, c) :: cs' => sound c /\ all cs' end) (containees t)
       | ARRAY => match containee_ t with Some c => sound c | None => True end
       | _ => True
       end.
Lemma sound_all (cs : list (position * dti)) :
  (fix all (cs : list (position * dti)) := match cs with [] => True | (_, c) :: cs' => sound c /\ all cs' end) cs
  <-> (forall p c, In (p, c) cs -> sound c).
Proof.
  induction cs as [|[q c] cs IH]; cbn; split.
  - intros _ p c [].
  - trivial.
  - intros [A B] p c' [E|I]; [injection E as _ <-; exact A | exact (proj1 IH B p c' I)].
  - intros A. split; [eapply A; left; reflexivity | apply IH; intros; eapply A; right; eassumption].
Qed.
Lemma wf_finalized d : wf d -> is_finalized d = true.
Proof. intro W. apply wf_node in W. apply W. Qed.
Lemma wf_sound d : wf d -> sound d.
Proof. intro W. destruct d. cbn -[wf]. pose proof (wf_finalized _ W) as F. cbn in F. subst. exact W. Qed.

(** what finalization keeps *)
Definition same_type (t d : dti) : Prop :=
  type d = type t /\ is_nullable d = is_nullable t /\ type_name d = type_name t
  /\ t_variable d = t_variable t /\ t_size d = t_size t
  /\ (is_bit_field t = true -> size d = size t) /\ max_size d = max_size t.

Definition same_elements (l r : list (position * dti)) : Prop :=
  Forall2 (fun a b => field_name (fst b) = field_name (fst a) /\ same_type (snd a) (snd b)) l r.

Fixpoint layb (cs : list (position * dti)) (b : Z) : Prop :=
  match cs with
  | [] => True
  | (p, t) :: cs' =>
      (needs_is_valid_bit t = true -> p_valid p = b)
      /\ (is_bit_field t = true -> p_off p = b + b2n (needs_is_valid_bit t))
      /\ layb cs' (b + ebits t)
  end.

Lemma ebits_range d : wf d -> 0 <= ebits d <= 65.
Proof.
  intro W. pose proof (wf_node _ W) as (_ & S0 & _ & _ & _ & _ & N).
  unfold ebits, b2n, is_bit_field. destruct (type d); cbn; destruct (needs_is_valid_bit d); lia.
Qed.
Lemma eslot_range ms d : wf d -> 0 <= eslot ms d.
Proof.
  intro W. pose proof (wf_node _ W) as (_ & S0 & _).
  unfold eslot. destruct (is_bit_field d); [lia|]. destruct (is_variable_sized_ d); [|lia].
  pose proof (value_size_range ms). lia.
Qed.
Lemma is_bit_field_spec t : is_bit_field t = true <-> type t = BIT_FIELD.
Proof. unfold is_bit_field. destruct (type t); cbn; split; congruence. Qed.

Lemma same_ebits t d : same_type t d -> wf d -> ebits d = bits_in_bitmap t.
Proof.
  intros (T & Nu & _ & V & S & B & _) W. destruct (wf_spec d W) as [V' _].
  unfold ebits, bits_in_bitmap, validity_bits, needs_is_valid_bit, is_variable_sized_type_info, is_bit_field in *.
  rewrite <- V', V, Nu, T. destruct (negb (t_variable t) && is_nullable t); cbn [b2n];
  destruct (data_type_eqb (type t) BIT_FIELD); try rewrite B; auto.
Qed.
Lemma same_eslot ms t d : same_type t d -> wf d -> eslot ms d = slot_bytes ms t (t_size t).
Proof.
  intros (T & Nu & _ & V & S & B & _) W. destruct (wf_spec d W) as [V' S'].
  unfold eslot, slot_bytes, is_bit_field in *. rewrite T, <- V', V, <- S', S. reflexivity.
Qed.

Lemma assign_bits_spec p t bits p1 b1 : wf t -> 0 <= bits <= 1099511627776 ->
  assign_bits p t bits = (p1, b1) ->
  field_name p1 = field_name p /\ b1 = bits + ebits t
  /\ (needs_is_valid_bit t = true -> p_valid p1 = bits)
  /\ (is_bit_field t = true -> p_off p1 = bits + b2n (needs_is_valid_bit t)).
Proof.
  intros W B. pose proof (ebits_range t W) as R.
  pose proof (wf_node _ W) as (_ & S0 & _ & _ & _ & _ & N).
  unfold assign_bits, ebits, is_bit_field in *.
  destruct (needs_is_valid_bit t); destruct (type t); cbn [data_type_eqb b2n] in *;
    intro E; injection E as <- <-; cbn [field_name p_valid p_off];
    unwrap; repeat split; intros; try discriminate; try lia; auto.
Qed.

Definition fbits := (fix go (cs : list (position * dti)) := match cs with [] => 0 | (_, c) :: cs' => bits_in_bitmap c + go cs' end).
Definition fslots (ms : Z) := (fix go (cs : list (position * dti)) := match cs with [] => 0 | (_, c) :: cs' => slot_bytes ms c (t_size c) + go cs' end).

Definition finalize_good (t : dti) : Prop :=
  forall d, sound t -> within_limits t -> finalize t = (true, d) -> wf d /\ same_type t d.

Lemma sum_bits_nonneg cs : (forall p c, In (p, c) cs -> wf c) -> 0 <= sum_bits cs.
Proof.
  induction cs as [|[p c] cs IH]; intro W; cbn; [lia|].
  pose proof (ebits_range c (W p c (or_introl eq_refl))). specialize (IH (fun p c I => W p c (or_intror I))). lia.
Qed.
Lemma sum_slots_nonneg ms cs : (forall p c, In (p, c) cs -> wf c) -> 0 <= sum_slots ms cs.
Proof.
  induction cs as [|[p c] cs IH]; intro W; cbn; [lia|].
  pose proof (eslot_range ms c (W p c (or_introl eq_refl))). specialize (IH (fun p c I => W p c (or_intror I))). lia.
Qed.

Lemma finalize_elements_spec cs : forall vs bits vs' bits' cs',
  (forall p c, In (p, c) cs -> finalize_good c) ->
  (forall p c, In (p, c) cs -> sound c) -> (forall p c, In (p, c) cs -> within_limits c) ->
  0 <= bits -> bits + fbits cs <= 1099511627776 ->
  (forall p c, In (p, c) cs -> 0 <= bits_in_bitmap c) ->
  finalize_elements cs vs bits = (true, vs', bits', cs') ->
  same_elements cs cs' /\ (forall p c, In (p, c) cs' -> wf c)
  /\ vs' = vs || existsb (fun pc => is_variable_sized_ (snd pc)) cs'
  /\ bits' = bits + sum_bits cs' /\ layb cs' bits.
Proof.
  induction cs as [|[p t] cs IH]; intros vs bits vs' bits' cs' G S L B0 BT NB; cbn [finalize_elements].
  - intro E; injection E as <- <- <-. cbn. rewrite orb_false_r. repeat split; auto; try constructor. intros p c []. lia.
  - destruct (finalize t) as [ok t1] eqn:Ef. destruct ok; cbn [negb]; [|discriminate].
    destruct (assign_bits p t1 bits) as [p1 b1] eqn:Ea.
    destruct (finalize_elements cs (if is_variable_sized_type_info t1 then true else vs) b1) as [[[ok2 vs2] bits2] cs2] eqn:Ee.
    intro E; injection E as -> <- <- <-.
    destruct (G p t (or_introl eq_refl) t1 (S p t (or_introl eq_refl)) (L p t (or_introl eq_refl)) Ef) as [W1 S1].
    assert (FB : 0 <= fbits cs).
    { clear - NB. assert (NB' : forall p c, In (p, c) cs -> 0 <= bits_in_bitmap c) by (intros; eapply NB; right; eassumption).
      clear NB. induction cs as [|[q c] cs IH]; [cbn; lia|].
      pose proof (NB' q c (or_introl eq_refl)). cbn -[bits_in_bitmap]. fold fbits.
      specialize (IH (fun p c I => NB' p c (or_intror I))). lia. }
    cbn -[bits_in_bitmap] in BT; fold fbits in BT.
    pose proof (NB p t (or_introl eq_refl)) as NBt.
    destruct (assign_bits_spec p t1 bits p1 b1 W1 ltac:(lia) Ea) as (A1 & A2 & A3 & A4).
    rewrite (same_ebits t t1 S1 W1) in A2.
    destruct (IH _ b1 _ _ _ (fun p c I => G p c (or_intror I)) (fun p c I => S p c (or_intror I))
                (fun p c I => L p c (or_intror I)) ltac:(lia) ltac:(lia) (fun p c I => NB p c (or_intror I)) Ee)
      as (I1 & I2 & I3 & I4 & I5).
    split; [constructor; [cbn; auto|exact I1]|].
    split. { intros q c [E|I]; [injection E as _ <-; exact W1|exact (I2 q c I)]. }
    split. { rewrite I3. unfold is_variable_sized_type_info. cbn [existsb snd].
             destruct (is_variable_sized_ t1), vs; reflexivity. }
    split. { rewrite I4, A2. cbn [sum_bits]. rewrite (same_ebits t t1 S1 W1). lia. }
    cbn [layb]. split; [exact A3|]. split; [exact A4|]. rewrite (same_ebits t t1 S1 W1), <- A2. exact I5.
Qed.

Lemma assign_offsets_spec ms cs : forall b o sz' cs',
  (forall p c, In (p, c) cs -> wf c) -> 0 <= o -> o + sum_slots ms cs <= max_bytes -> layb cs b ->
  assign_offsets ms cs o = (sz', cs') ->
  sz' = o + sum_slots ms cs /\ lay ms cs' b o
  /\ Forall2 (fun a b => field_name (fst b) = field_name (fst a) /\ snd b = snd a) cs cs'.
Proof.
  induction cs as [|[p t] cs IH]; intros b o sz' cs' W O0 OT LB; cbn [assign_offsets].
  - intro E; injection E as <- <-. cbn. repeat split; auto. lia.
  - cbn [sum_slots] in OT. cbn [layb] in LB. destruct LB as (L1 & L2 & L3).
    pose proof (W p t (or_introl eq_refl)) as Wt.
    pose proof (eslot_range ms t Wt) as Es.
    assert (W' : forall p c, In (p, c) cs -> wf c) by (intros; eapply W; right; eassumption).
    pose proof (sum_slots_nonneg ms cs W') as Ss.
    assert (MB : max_bytes < 4294967296) by reflexivity.
    set (q := match type t with BIT_FIELD => (p, o)
              | _ => if is_variable_sized_type_info t
                     then (mk_position (field_name p) o (p_valid p), u32 (o + value_size ms))
                     else (mk_position (field_name p) o (p_valid p), u32 (o + size t)) end).
    assert (Q : snd q = o + eslot ms t /\ field_name (fst q) = field_name p /\ p_valid (fst q) = p_valid p
                /\ (is_bit_field t = true -> p_off (fst q) = p_off p) /\ (is_bit_field t = false -> p_off (fst q) = o)).
    { unfold eslot, is_variable_sized_type_info, is_bit_field in *. subst q.
      destruct (type t); cbn [data_type_eqb] in *; destruct (is_variable_sized_ t); cbn [fst snd field_name p_valid p_off];
      rewrite ?u32_id by lia; repeat split; try discriminate; auto; lia. }
    fold q. destruct q as [p1 sz1]. cbn [fst snd] in Q. destruct Q as (Q1 & Q2 & Q3 & Q4 & Q5). subst sz1.
    destruct (assign_offsets ms cs (o + eslot ms t)) as [sz2 cs2] eqn:E.
    intro E'; injection E' as <- <-.
    destruct (IH (b + ebits t) (o + eslot ms t) _ _ W' ltac:(lia) ltac:(lia) L3 E) as (I1 & I2 & I3).
    split; [cbn; lia|]. split.
    + cbn [lay]. rewrite Q3. split; [exact L1|]. split; [intro Bt; rewrite Q4 by exact Bt; apply L2; exact Bt|]. split; [exact Q5|exact I2].
    + constructor; [cbn; auto|exact I3].
Qed.

Lemma limits_unfold t : within_limits t <->
  0 <= size t < 4294967296 /\ 0 <= max_size t <= max_bytes /\ (0 <= element_count_ t < 4294967296 /\ zlen (containees t) < 4294967296)
  /\ (is_bit_field t = false -> t_size t <= max_bytes)
  /\ match type t with
     | TUPLE => forall p c, In (p, c) (containees t) -> within_limits c
     | ARRAY => forall c, containee_ t = Some c -> within_limits c
     | _ => True
     end.
Proof.
  destruct t as [fn tn ty nu vs sz ms hv ec pb ce cs].
  cbn [within_limits type containees containee_].
  assert (O : forall P : dti -> Prop, match ce with Some c => P c | None => True end <-> (forall c, ce = Some c -> P c)).
  { intro P. destruct ce as [c|]; split; intros A; try (intros c' E; injection E as <-; exact A); auto; discriminate. }
  destruct ty; try rewrite limits_all; try rewrite O; reflexivity.
Qed.

Lemma sound_unfold t : sound t <->
  if is_finalized t then wf t
  else match type t with
       | TUPLE => forall p c, In (p, c) (containees t) -> sound c
       | ARRAY => forall c, containee_ t = Some c -> sound c
       | _ => True
       end.
Proof.
  destruct t as [fn tn ty nu vs sz ms hv ec pb ce cs].
  cbn -[wf type_name]. 
  assert (O : forall P : dti -> Prop, match ce with Some c => P c | None => True end <-> (forall c, ce = Some c -> P c)).
  { intro P. destruct ce as [c|]; split; intros A; try (intros c' E; injection E as <-; exact A); auto; discriminate. }
  destruct fn; [reflexivity|].
  destruct ty; try rewrite sound_all; try rewrite O; reflexivity.
Qed.

Lemma t_size_nonneg t : within_limits t -> 0 <= t_size t.
Proof.
  induction t as [t IHc IHs] using dti_induction. intro L. apply limits_unfold in L.
  destruct t as [fn tn ty nu vs sz ms hv ec pb ce cs]. cbn -[t_size within_limits] in *.
  destruct L as (L1 & L2 & L3 & L4 & L5).
  pose proof (value_size_range ms) as V.
  destruct ty; cbn [t_size type size has_variable_element_count max_size element_count_ containees containee_]; try lia.
  1-2: destruct hv; lia.
  - assert (B : 0 <= fbits cs).
    { clear - L5. induction cs as [|[p c] cs IH]; cbn -[bits_in_bitmap]; fold fbits; [lia|].
      specialize (IH (fun p c I => L5 p c (or_intror I))).
      pose proof (L5 p c (or_introl eq_refl)) as Lc. apply limits_unfold in Lc.
      unfold bits_in_bitmap, validity_bits. destruct (negb (t_variable c) && is_nullable c), (is_bit_field c); lia. }
    assert (S : 0 <= fslots ms cs).
    { clear - L5 IHs. induction cs as [|[p c] cs IH]; cbn -[slot_bytes t_size]; fold (fslots ms); [lia|].
      specialize (IH (fun p c I => IHs p c (or_intror I)) (fun p c I => L5 p c (or_intror I))).
      pose proof (IHs p c (or_introl eq_refl) (L5 p c (or_introl eq_refl))) as Lc.
      pose proof (value_size_range ms).
      unfold slot_bytes. destruct (is_bit_field c), (t_variable c); lia. }
    fold fbits. fold (fslots ms).
    unfold bytes_of_bits. destruct (t_variable _); lia.
  - destruct ce as [c|]; [|lia].
    specialize (IHc c eq_refl (L5 c eq_refl)). specialize (L5 c eq_refl). apply limits_unfold in L5.
    assert (0 <= bits_in_bitmap c). { unfold bits_in_bitmap, validity_bits. destruct (negb (t_variable c) && is_nullable c), (is_bit_field c); lia. }
    assert (0 <= slot_bytes ms c (t_size c)). { unfold slot_bytes. destruct (is_bit_field c), (t_variable c); lia. }
    assert (0 <= ec * bits_in_bitmap c) by (apply Z.mul_nonneg_nonneg; lia).
    assert (0 <= ec * slot_bytes ms c (t_size c)) by (apply Z.mul_nonneg_nonneg; lia).
    unfold bytes_of_bits. destruct (t_variable c), hv; lia.
Qed.
Lemma bits_nonneg t : within_limits t -> 0 <= bits_in_bitmap t.
Proof.
  intro L. apply limits_unfold in L. unfold bits_in_bitmap, validity_bits.
  destruct (negb (t_variable t) && is_nullable t), (is_bit_field t); lia.
Qed.

Lemma Forall2_len {A B} (R : A -> B -> Prop) l r : Forall2 R l r -> length l = length r.
Proof. induction 1; cbn; congruence. Qed.
Lemma Forall2_In_r {A B} (R : A -> B -> Prop) l r b : Forall2 R l r -> In b r -> exists a, In a l /\ R a b.
Proof.
  induction 1 as [|x y l r H F IH]; [intros []|]. intros [->|I].
  - exists x. split; [left; reflexivity|exact H].
  - destruct (IH I) as (a & I' & R'). exists a. split; [right; exact I'|exact R'].
Qed.

Lemma fbits_same cs cs' : same_elements cs cs' -> (forall p c, In (p, c) cs' -> wf c) -> sum_bits cs' = fbits cs.
Proof.
  induction 1 as [|[p c] [p' c'] cs cs' [_ H] F IH]; intro W; [reflexivity|].
  cbn -[bits_in_bitmap ebits]. fold fbits. rewrite IH by (intros; eapply W; right; eassumption).
  rewrite (same_ebits c c' H (W p' c' (or_introl eq_refl))). reflexivity.
Qed.
Lemma fslots_same ms cs cs' : same_elements cs cs' -> (forall p c, In (p, c) cs' -> wf c) -> sum_slots ms cs' = fslots ms cs.
Proof.
  induction 1 as [|[p c] [p' c'] cs cs' [_ H] F IH]; intro W; [reflexivity|].
  cbn -[slot_bytes eslot t_size]. fold (fslots ms). rewrite IH by (intros; eapply W; right; eassumption).
  rewrite (same_eslot ms c c' H (W p' c' (or_introl eq_refl))). reflexivity.
Qed.
Definition anyvar := (fix any (cs : list (position * dti)) := match cs with [] => false | (_, c) :: cs' => t_variable c || any cs' end).
Lemma anyvar_same cs cs' : same_elements cs cs' -> (forall p c, In (p, c) cs' -> wf c) ->
  existsb (fun pc => is_variable_sized_ (snd pc)) cs' = anyvar cs.
Proof.
  induction 1 as [|[p c] [p' c'] cs cs' [_ H] F IH]; intro W; [reflexivity|].
  cbn -[t_variable]. fold anyvar. rewrite IH by (intros; eapply W; right; eassumption).
  cbn [snd] in H. destruct H as (_ & _ & _ & V & _).
  rewrite <- V, (proj1 (wf_spec c' (W p' c' (or_introl eq_refl)))). reflexivity.
Qed.
Lemma fbits_nonneg cs : (forall p c, In (p, c) cs -> within_limits c) -> 0 <= fbits cs.
Proof.
  induction cs as [|[p c] cs IH]; intro L; cbn -[bits_in_bitmap]; fold fbits; [lia|].
  pose proof (bits_nonneg c (L p c (or_introl eq_refl))). specialize (IH (fun p c I => L p c (or_intror I))). lia.
Qed.
Lemma slot_nonneg ms c : within_limits c -> 0 <= slot_bytes ms c (t_size c).
Proof.
  intro L. pose proof (t_size_nonneg c L). pose proof (value_size_range ms).
  unfold slot_bytes. destruct (is_bit_field c), (t_variable c); lia.
Qed.
Lemma fslots_nonneg ms cs : (forall p c, In (p, c) cs -> within_limits c) -> 0 <= fslots ms cs.
Proof.
  induction cs as [|[p c] cs IH]; intro L; cbn -[slot_bytes t_size]; fold (fslots ms); [lia|].
  pose proof (slot_nonneg ms c (L p c (or_introl eq_refl))). specialize (IH (fun p c I => L p c (or_intror I))). lia.
Qed.
Lemma same_elements_trans cs cs1 cs2 : same_elements cs cs1 ->
  Forall2 (fun a b => field_name (fst b) = field_name (fst a) /\ snd b = snd a) cs1 cs2 -> same_elements cs cs2.
Proof.
  intro H. revert cs2. induction H as [|a b cs cs1 H F IH]; intros cs2 H2; inversion H2 as [|x y l l' Hxy Hl]; subst; constructor.
  - destruct H as [Ha Hb], Hxy as [Hc Hd]. rewrite Hc, Hd. auto.
  - apply IH. assumption.
Qed.
Lemma sums_snd ms cs1 cs2 :
  Forall2 (fun a b => field_name (fst b) = field_name (fst a) /\ snd b = snd a) cs1 cs2 ->
  sum_bits cs2 = sum_bits cs1 /\ sum_slots ms cs2 = sum_slots ms cs1 /\
  existsb (fun pc : position * dti => is_variable_sized_ (snd pc)) cs2 = existsb (fun pc => is_variable_sized_ (snd pc)) cs1.
Proof.
  induction 1 as [|[p c] [p' c'] cs cs' [_ H] F (I1 & I2 & I3)]; [auto|]. cbn [snd] in H. subst c'.
  cbn [sum_bits sum_slots existsb snd]. rewrite I1, I2, I3. auto.
Qed.
Lemma elem_slot_pos ms d : wf d -> 1 <= 8 * eslot ms d + ebits d.
Proof.
  intro W. pose proof (wf_node _ W) as (_ & S0 & _ & _ & SZ & _ & N). pose proof (value_size_range ms).
  unfold eslot, ebits, is_bit_field in *. destruct (type d); cbn [data_type_eqb] in *; try specialize (SZ eq_refl); destruct (needs_is_valid_bit d), (is_variable_sized_ d); cbn [b2n]; lia.
Qed.

Lemma uint8_wf : wf uint8_type.
Proof. apply wf_unfold. cbn. repeat split; try lia; discriminate. Qed.

Theorem finalize_wf t : finalize_good t.
Proof.
  induction t as [t IHc IHs] using dti_induction. intros d S L E.
  pose proof (t_size_nonneg t L) as TN.
  apply sound_unfold in S. apply limits_unfold in L.
  destruct (is_finalized t) eqn:F.
  { assert (d = t) as -> by (destruct t as [fn tn ty nu vs sz ms hv ec pb ce cs]; cbn in F; subst fn; cbn [finalize is_finalized] in E; injection E as <-; reflexivity).
    split; [exact S|]. repeat split; auto. }
  destruct (type t) eqn:T.
  9: { (* TUPLE *)
    rewrite finalize_tuple_eq in E by assumption.
    destruct (containees t) as [|pc0 cs0] eqn:C; [discriminate|]. rewrite <- C in *. 
    destruct (finalize_elements (containees t) false 0) as [[[ok vs] bits] cs] eqn:Ee.
    destruct ok; cbn [negb] in E; [|discriminate].
    destruct L as (L1 & L2 & L3 & L4 & L5).
    assert (NBF : is_bit_field t = false) by (unfold is_bit_field; rewrite T; reflexivity).
    specialize (L4 NBF).
    assert (TS : t_size t = (if t_variable t then value_size (max_size t) else 0) + bytes_of_bits (fbits (containees t)) + fslots (max_size t) (containees t)).
    { destruct t as [fn tn ty nu vs0 sz ms hv ec pb ce cs1]. cbn [type] in T. subst ty. reflexivity. }
    assert (TV : t_variable t = anyvar (containees t)).
    { destruct t as [fn tn ty nu vs0 sz ms hv ec pb ce cs1]. cbn [type] in T. subst ty. reflexivity. }
    pose proof (value_size_range (max_size t)) as V.
    pose proof (fbits_nonneg _ L5) as FB. pose proof (fslots_nonneg (max_size t) _ L5) as FS.
    unfold max_bytes in L4. unfold bytes_of_bits in TS.
    destruct (finalize_elements_spec (containees t) false 0 vs bits cs) as (I1 & I2 & I3 & I4 & I5); auto; try lia.
    { destruct (t_variable t); lia. }
    { intros; apply bits_nonneg; eapply L5; eassumption. }
    rewrite orb_false_l in I3. rewrite Z.add_0_l in I4.
    pose proof (fbits_same _ _ I1 I2) as SB. pose proof (fslots_same (max_size t) _ _ I1 I2) as SS.
    pose proof (anyvar_same _ _ I1 I2) as AV.
    unfold finalize_tuple in E.
    rewrite I3, AV, <- TV in E.
    set (o0 := u32 _) in E.
    assert (O : o0 = (if t_variable t then value_size (max_size t) else 0) + bitmap_size_in_bytes bits).
    { subst o0. unfold bitmap_size_in_bytes. rewrite I4, SB. apply u32_id. destruct (t_variable t); lia. }
    rewrite O in E. clearbody o0. clear o0 O.
    destruct (assign_offsets (max_size t) cs _) as [sz cs2] eqn:Eo.
    assert (A1 : 0 <= (if t_variable t then value_size (max_size t) else 0) + bitmap_size_in_bytes bits).
    { unfold bitmap_size_in_bytes. rewrite I4, SB. destruct (t_variable t); lia. }
    assert (A2 : (if t_variable t then value_size (max_size t) else 0) + bitmap_size_in_bytes bits + sum_slots (max_size t) cs <= max_bytes).
    { unfold bitmap_size_in_bytes, max_bytes. rewrite I4, SB, SS. destruct (t_variable t); lia. }
    destruct (assign_offsets_spec (max_size t) cs 0 _ sz cs2 I2 A1 A2 I5 Eo) as (J1 & J2 & J3).
    destruct (t_variable t && (max_size t <? sz)) eqn:Em; [discriminate|]. injection E as <-.
    assert (SZ : sz = t_size t). { rewrite J1, TS, I4, SB, SS. unfold bitmap_size_in_bytes. lia. }
    destruct (sums_snd (max_size t) cs cs2 J3) as (K1 & K2 & K3).
    assert (W2 : forall p c, In (p, c) cs2 -> wf c).
    { intros p c I. destruct (Forall2_In_r _ _ _ _ J3 I) as ([p' c'] & I' & _ & Ec). cbn in Ec. subst c'. eapply I2; eassumption. }
    assert (W : wf (set_fin t true (t_variable t) sz false bits (containee_ t) cs2)).
    { apply wf_unfold. split.
      - unfold node_ok, set_fin; cbn. rewrite T.
        assert (P : 1 <= sz).
        { destruct cs as [|[p c] cs'].
          { inversion I1. congruence. }
          pose proof (I2 p c (or_introl eq_refl)) as Wc. pose proof (elem_slot_pos (max_size t) c Wc) as Ps.
          pose proof (sum_bits_nonneg cs' (fun p c I => I2 p c (or_intror I))).
          pose proof (sum_slots_nonneg (max_size t) cs' (fun p c I => I2 p c (or_intror I))).
          rewrite J1, I4. cbn [sum_bits sum_slots]. unfold bitmap_size_in_bytes.
          pose proof (ebits_range c Wc). pose proof (eslot_range (max_size t) c Wc).
          destruct (t_variable t); lia. }
        assert (LL : zlen cs2 = zlen (containees t)).
        { unfold zlen. rewrite <- (Forall2_len _ _ _ J3), <- (Forall2_len _ _ _ I1). reflexivity. }
        split; [reflexivity|]. split; [lia|]. split; [lia|]. split; [lia|]. split; [unfold max_bytes; lia|].
        split. { intro Vt. rewrite Vt in Em. cbn [andb] in Em. lia. }
        split. { intro; subst cs2. inversion J3; subst cs. inversion I1. congruence. }
        split; [reflexivity|]. split; [rewrite K3, AV, TV; reflexivity|]. split; [rewrite K1; exact I4|].
        rewrite K1, K2, <- I4. split; [exact J1|exact J2].
      - unfold set_fin; cbn [type containees]. rewrite T. exact W2. }
    split; [exact W|]. destruct (wf_spec _ W) as [WV WS].
    repeat split; auto.
    - rewrite WS. exact SZ.
    - intro Bf. rewrite NBF in Bf. discriminate. }
  9: { (* ARRAY *)
    destruct L as (L1 & L2 & L3 & L4 & L5).
    assert (NBF : is_bit_field t = false) by (unfold is_bit_field; rewrite T; reflexivity).
    specialize (L4 NBF).
    destruct t as [fn tn ty nu vs0 sz ms hv ec pb ce cs1].
    cbn -[finalize t_variable t_size within_limits sound wf] in *. subst ty fn.
    destruct ce as [c0|]; [|discriminate]. cbn [finalize is_finalized type containee_] in E.
    destruct (finalize c0) as [ok c] eqn:Ec. destruct ok; cbn [negb] in E; [|discriminate].
    destruct (IHc c0 eq_refl c (S c0 eq_refl) (L5 c0 eq_refl) Ec) as [Wc Sc].
    specialize (L5 c0 eq_refl).
    cbn [t_size type containee_ has_variable_element_count max_size element_count_] in *.
    rewrite <- (same_ebits c0 c Sc Wc), <- (same_eslot ms c0 c Sc Wc) in *.
    assert (Vc : t_variable c0 = is_variable_sized_ c).
    { destruct Sc as (_ & _ & _ & Vc & _). rewrite <- Vc. apply wf_spec. exact Wc. }
    rewrite Vc in *.
    pose proof (ebits_range c Wc) as EB. pose proof (eslot_range ms c Wc) as ES. pose proof (elem_slot_pos ms c Wc) as EP.
    pose proof (wf_node c Wc) as (_ & Cs0 & _ & _ & Cs & _ & Cn).
    pose proof (value_size_range ms) as V.
    unfold finalize_array in E. cbn -[finalize bitmap_size_in_bytes value_size u32 u64 set_fin offset_of_prefix_bitmap] in E.
    destruct (negb hv && (ec =? 0)) eqn:E0; [discriminate|].
    assert (ECP : hv = false -> 1 <= ec) by (intros ->; cbn [negb andb] in E0; lia).
    assert (MB : 0 <= ec * ebits c <= 4294967296 * 65) by (split; [apply Z.mul_nonneg_nonneg; lia | apply Z.mul_le_mono_nonneg; lia]).
    assert (MS : 0 <= ec * eslot ms c) by (apply Z.mul_nonneg_nonneg; lia).
    assert (MP : hv = false -> 1 <= bitmap_size_in_bytes (ec * ebits c) + ec * eslot ms c).
    { intro H. specialize (ECP H). unfold bitmap_size_in_bytes. assert (1 * 1 <= ec * (8 * eslot ms c + ebits c)) by (apply Z.mul_le_mono_nonneg; lia). lia. }
    unfold max_bytes in L4. unfold bytes_of_bits in L4.
    (* the bitmap *)
    set (pb1 := match type c with BIT_FIELD => u64 (ec * u32 (b2n (needs_is_valid_bit c) + size c))
                | _ => if negb (is_variable_sized_type_info c) then u32 (ec * b2n (needs_is_valid_bit c)) else 0 end) in E.
    assert (PB : hv = false -> pb1 = ec * ebits c).
    { intro H. subst pb1. unfold ebits, is_variable_sized_type_info, needs_is_valid_bit, is_bit_field in *.
      unfold is_variable_sized_type_info in *.
      destruct (type c); cbn [data_type_eqb] in *; destruct (is_variable_sized_ c), (is_nullable c);
        cbn [negb andb b2n] in *; unwrap; lia. }
    set (pb2 := if hv then pb else pb1) in E.
    assert (PB2 : hv = false -> pb2 = ec * ebits c) by (intro H; subst pb2; rewrite H; apply PB; exact H).
    clearbody pb2. clear PB.
    destruct (hv || is_variable_sized_ c) eqn:Ev; cbn [negb] in E; unfold is_variable_sized_type_info in E; rewrite ?Ev in E; cbn [negb] in E.
    - (* variable sized *)
      set (ms0 := offset_of_prefix_bitmap _) in E.
      assert (M0 : ms0 = (if is_variable_sized_ c then value_size ms else 0) + (if hv then value_size ms else 0)).
      { subst ms0. unfold offset_of_prefix_bitmap, offset_of_prefix_count, bytes_for_prefix_count, bytes_for_prefix_size,
          has_size_in_prefix, has_element_count_in_prefix, is_variable_element_count, is_variable_sized_type_info, is_container_type_info, set_fin, containee.
        cbn -[value_size]. rewrite ?Ev. cbn -[value_size]. destruct (is_variable_sized_ c), hv; cbn -[value_size]; lia. }
      clearbody ms0.
      set (ms1 := if hv then ms0 else _) in E.
      assert (M1 : ms1 = (if is_variable_sized_ c then value_size ms else 0)
              + (if hv then value_size ms else bitmap_size_in_bytes (ec * ebits c) + ec * eslot ms c)).
      { subst ms1. destruct hv; [lia|]. rewrite M0. cbn [orb] in Ev. rewrite Ev.
        assert (Nb : type c <> BIT_FIELD) by (intro Hb; rewrite Hb in Cn; destruct Cn; congruence).
        unfold ebits, eslot, is_bit_field, needs_is_valid_bit, is_variable_sized_type_info in *. rewrite Ev in *. cbn [negb andb b2n] in *.
        destruct (type c); try congruence; cbn [data_type_eqb] in *;
        rewrite !Z.mul_0_r in *; unfold bitmap_size_in_bytes in *; cbn [Z.add Z.div] in *; unwrap; lia. }
      clearbody ms1.
      destruct (ms <? ms1) eqn:Em; [discriminate|]. injection E as <-.
      assert (W : wf (set_fin (mk_dti false tn ARRAY nu vs0 sz ms hv ec pb (Some c0) cs1) true true ms1 hv pb2 (Some c) cs1)).
      { apply wf_unfold. split; [|intros ? E; cbn in E; injection E as <-; exact Wc].
        unfold node_ok, set_fin, is_bit_field; cbn -[bitmap_size_in_bytes value_size].
        repeat split; try lia; try discriminate.
        - destruct hv; [|specialize (MP eq_refl)]; destruct (is_variable_sized_ c); lia.
        - destruct hv; [|specialize (MP eq_refl)]; destruct (is_variable_sized_ c); lia.
        - exists c. auto 7. }
      split; [exact W|]. destruct (wf_spec _ W) as [WV WS].
      repeat split; auto; try discriminate.
      + rewrite WV. cbn [t_variable type has_variable_element_count containee_]. rewrite Vc, Ev. reflexivity.
      + rewrite WS. cbn [t_size set_fin size type has_variable_element_count containee_ max_size element_count_].
        rewrite <- (same_ebits c0 c Sc Wc), <- (same_eslot ms c0 c Sc Wc), Vc. exact M1.
    - (* fixed size *)
      destruct hv; [discriminate|]. cbn [orb] in Ev. rewrite Ev in *. specialize (PB2 eq_refl). specialize (MP eq_refl).
      set (sz1 := match type c with BIT_FIELD => _ | _ => _ end) in E.
      assert (M1 : sz1 = 0 + (bitmap_size_in_bytes (ec * ebits c) + ec * eslot ms c)).
      { subst sz1. rewrite PB2. unfold bitmap_size_in_bytes in *.
        unfold eslot, is_bit_field in *. rewrite Ev in *. destruct (type c); cbn [data_type_eqb] in *; rewrite ?Z.mul_0_r in *; unwrap; lia. }
      clearbody sz1. injection E as <-.
      assert (W : wf (set_fin (mk_dti false tn ARRAY nu vs0 sz ms false ec pb (Some c0) cs1) true false sz1 false pb2 (Some c) cs1)).
      { apply wf_unfold. split; [|intros ? E; cbn in E; injection E as <-; exact Wc].
        unfold node_ok, set_fin, is_bit_field; cbn -[bitmap_size_in_bytes value_size].
        repeat split; try lia; try discriminate; try (unfold max_bytes, bitmap_size_in_bytes in *; lia).
        exists c. rewrite Ev. auto 7. }
      split; [exact W|]. destruct (wf_spec _ W) as [WV WS].
      repeat split; auto; try discriminate.
      + rewrite WV. cbn [t_variable type has_variable_element_count containee_]. rewrite Vc. reflexivity.
      + rewrite WS. cbn [t_size set_fin size type has_variable_element_count containee_ max_size element_count_].
        rewrite <- (same_ebits c0 c Sc Wc), <- (same_eslot ms c0 c Sc Wc), Vc. exact M1. }
  1-6: clear IHc IHs S; destruct t as [fn tn ty nu vs0 sz ms hv ec pb ce cs1]; cbn in T, F; subst ty fn;
       cbn -[set_fin] in E, L, TN;
       match type of E with (if ?b then _ else _) = _ => destruct b eqn:Eb; [|discriminate] end; injection E as <-;
       (split; [apply wf_unfold; split; [unfold node_ok, set_fin, is_bit_field; cbn; unfold max_bytes in *; repeat split; try lia; try discriminate | exact I] | repeat split; auto; try discriminate]).
  1-2: clear IHc IHs S; destruct t as [fn tn ty nu vs0 sz ms hv ec pb ce cs1]; cbn in T, F; subst ty fn;
       cbn -[set_fin value_size] in E, L, TN; pose proof (value_size_range ms) as V; destruct L as (L1 & L2 & L3 & L4 & _); specialize (L4 eq_refl);
       destruct hv; cbn [negb andb] in E;
       [ destruct (ms <? value_size ms) eqn:Em; cbn [negb] in E; [discriminate|]
       | destruct (ec =? 0) eqn:E0; [discriminate|] ]; injection E as <-;
       (split; [apply wf_unfold; split;
          [unfold node_ok, set_fin, is_bit_field; cbn -[value_size uint8_type]; repeat split; try lia; try discriminate
          | intros ? E; cbn -[uint8_type] in E; injection E as <-; exact uint8_wf]
       | repeat split; auto; try discriminate]).
Qed.

(** ** types built by a user *)
Lemma wf_limits d : wf d -> within_limits d.
Proof.
  induction d as [d IHc IHs] using dti_induction. intro W.
  destruct (wf_spec d W) as [_ TS]. apply wf_unfold in W. destruct W as [N W].
  apply limits_unfold. destruct N as (F & S0 & MS & EC & SZ & VM & N).
  unfold max_bytes in *.
  assert (size d < 4294967296).
  { destruct (is_bit_field d) eqn:B; [|specialize (SZ eq_refl); lia].
    apply is_bit_field_spec in B. rewrite B in N. lia. }
  split; [lia|]. split; [lia|]. split; [lia|]. split.
  { intro B. rewrite TS. specialize (SZ B). lia. }
  destruct (type d); trivial.
  - intros p c I. exact (IHs p c I (W p c I)).
  - intros c E. exact (IHc c E (W c E)).
Qed.
Theorem built_good t : type_built t -> sound t /\ within_limits t.
Proof.
  induction 1 as [t F L A A' IHA T IHT | t d B [S L] E].
  - split; [|exact L]. apply sound_unfold. rewrite F. destruct (type t) eqn:Ty; trivial.
    + intros p c I. exact (proj1 (IHT p c eq_refl I)).
    + intros c E. exact (proj1 (IHA c eq_refl E)).
  - destruct (finalize_wf t d S L E) as [W _]. split; [apply wf_sound; exact W | apply wf_limits; exact W].
Qed.
Theorem built_finalized t d : type_built t -> finalize t = (true, d) -> wf d /\ same_type t d.
Proof. intros B E. destruct (built_good t B) as [S L]. exact (finalize_wf t d S L E). Qed.
Lemma finalize_again d : wf d -> finalize d = (true, d).
Proof.
  intro W. pose proof (wf_finalized _ W) as F.
  destruct d as [fn tn ty nu vs sz ms hv ec pb ce cs]. cbn in F. subst fn. reflexivity.
Qed.
