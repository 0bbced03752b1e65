(** * Setting, expanding and discarding at a path *)
From Verif Require Export NestFacts.
From Coq Require Import ZifyBool ZifyNat ZifyN Zify.
Ltac Zify.zify_post_hook ::= Z.div_mod_to_equations.

(** ** types along a path *)
Lemma ctype_inv d i t : containee_type_without_data d i = Some t -> 0 <= i < 4294967296 -> wf d ->
  is_container_type_info d = true /\ t = etype d i /\ wf t /\ (is_variable_sized_ t = true -> is_variable_sized_ d = true)
  /\ (is_variable_element_count d = false -> i < element_count d).
Proof.
  unfold containee_type_without_data. intros E I W. destruct (is_container_type_info d) eqn:C; [|discriminate]. cbn [negb] in E.
  destruct (is_variable_element_count d) eqn:VC; cbn [negb andb] in E.
  - assert (NT : type d <> TUPLE) by (unfold is_variable_element_count in VC; rewrite C in VC; cbn [negb] in VC; destruct (type d); try congruence; destruct (is_variable_sized_type_info d); discriminate).
    destruct (wf_containee d W C NT) as [Wc _].
    assert (VD : is_variable_sized_ d = true). { unfold is_variable_element_count, is_variable_sized_type_info in VC. rewrite C in VC. destruct (is_variable_sized_ d); [reflexivity|]. cbn in VC. destruct (type d); discriminate. }
    assert (ET : etype d i = containee d) by (unfold etype; destruct (type d); congruence).
    assert (t = etype d i).
    { rewrite ET. destruct (is_container_cases d C) as [T|[_ [T|[T|T]]]]; rewrite T in E; try congruence; rewrite (containee_string d W) by auto; congruence. }
    subst t. rewrite ET. split; [reflexivity|]. split; [reflexivity|]. split; [exact Wc|]. split; [auto|discriminate].
  - destruct (element_count d <=? i) eqn:LE; [discriminate|].
    assert (CN : count_ok d (element_count d)). { pose proof (min_count_ok d W C) as Q. unfold min_count in Q. rewrite VC in Q. exact Q. }
    assert (t = etype d i).
    { destruct (is_container_cases d C) as [T|[NT T]].
      - unfold etype. rewrite T in *. destruct (nth_error (containees d) (Z.to_nat i)) as [[p t']|]; [|discriminate]. cbn in E. congruence.
      - assert (ET : etype d i = containee d) by (unfold etype; destruct (type d); congruence). rewrite ET.
        destruct T as [T|[T|T]]; rewrite T in E; try congruence; rewrite (containee_string d W) by auto; congruence. }
    subst t. split; [reflexivity|]. split; [reflexivity|]. split; [eapply etype_wf; eauto; lia|]. split; [|lia].
    intro V. apply (elements_var d i (element_count d) (conj W C) CN ltac:(lia) V).
Qed.
Lemma ctype_some d n i : container d -> count_ok d n -> 0 <= i < n -> containee_type_without_data d i = Some (etype d i).
Proof.
  intros [W C] CN I. unfold containee_type_without_data. rewrite C. cbn [negb].
  assert (LE : negb (is_variable_element_count d) && (element_count d <=? i) = false).
  { destruct (is_variable_element_count d) eqn:VC; [reflexivity|]. rewrite <- (proj2 CN VC). cbn. lia. }
  rewrite LE. unfold etype. destruct (is_container_cases d C) as [T|[NT T]].
  - rewrite T. rewrite (tuple_count d _ T CN) in I. destruct (znth_lt (containees d) i I) as [[p t] En]. rewrite En. reflexivity.
  - destruct T as [T|[T|T]]; rewrite T; try reflexivity; rewrite (containee_string d W) by auto; reflexivity.
Qed.
Lemma type_info_wf pa : forall d t, path_ok pa -> wf d -> get_type_info d pa = Some t -> wf t /\ (is_variable_sized_ t = true -> is_variable_sized_ d = true).
Proof.
  induction pa as [|i pa IH]; intros d t PO W E; cbn [get_type_info] in E.
  - injection E as <-. auto.
  - inversion PO; subst. destruct (containee_type_without_data d i) as [t1|] eqn:E1; [|discriminate].
    destruct (ctype_inv d i t1 E1 ltac:(assumption) W) as (_ & -> & W1 & V1 & _). destruct (IH _ _ ltac:(assumption) W1 E) as [W2 V2]. auto.
Qed.

(** ** the data on a path *)
Inductive reach : dti -> list Z -> celem -> dti -> celem -> Prop :=
| r_self t e : reach t [] e t e
| r_step t i pa c es x t' y : container t -> cv t c 0 (zlen c) es -> 0 <= i -> nth_error es (Z.to_nat i) = Some x -> reach (etype t i) pa x t' y ->
    reach t (i :: pa) (CBytes c) t' y.

Lemma child_ok d m o s es i e : container d -> cv d m o s es -> 0 <= i -> nth_error es (Z.to_nat i) = Some e ->
  child d m o i = Ok (Some (match ptr_of d (zlen es) m o i e with None => None | Some a => Some (etype d i, a) end)).
Proof.
  intros CT V I En. pose proof (znth_some _ _ _ En) as IL. pose proof CT as [W C]. unfold child. rewrite C. cbn [negb].
  rewrite (cv_get_count d m o s es CT V). cbn [bind]. replace (zlen es <=? i) with false by lia.
  rewrite (cv_pos d m o s es i CT V) by lia. cbn [bind]. rewrite (cv_get_ptr d m o s es i e CT V I En). cbn [bind].
  destruct (pos_spec d (zlen es) i W C (cv_n _ _ _ _ _ V) ltac:(lia)) as (Q1 & _). rewrite Q1. reflexivity.
Qed.
Lemma child_none d m o s es i : container d -> cv d m o s es -> zlen es <= i -> child d m o i = Ok None.
Proof.
  intros CT V I. pose proof CT as [W C]. unfold child. rewrite C. cbn [negb].
  rewrite (cv_get_count d m o s es CT V). cbn [bind]. replace (zlen es <=? i) with true by lia. reflexivity.
Qed.
Lemma cv_same d m o s es m' o' s' es' : container d -> cv d m o s es -> cv d m' o' s' es' -> s = s' -> slice m o s = slice m' o' s' -> es = es'.
Proof.
  intros CT V V' <- E. pose proof (cv_o _ _ _ _ _ V) as Ho. pose proof (cv_o _ _ _ _ _ V') as Ho'. pose proof (cv_s _ _ _ _ _ V) as Hs. pose proof (cv_s _ _ _ _ _ V') as Hs'.
  pose proof (cv_local d m o s es m' o' CT V Ho' Hs' (eq_sym E)) as V1. clear V E Ho Hs.
  assert (ZE : zlen es = zlen es').
  { pose proof (cv_get_count _ _ _ _ _ CT V1) as Q1. pose proof (cv_get_count _ _ _ _ _ CT V') as Q2. congruence. }
  apply nth_error_ext. intro k. destruct (nth_error es k) as [e|] eqn:E1; destruct (nth_error es' k) as [e'|] eqn:E2.
  - f_equal. rewrite <- (Nat2Z.id k) in E1, E2. set (i := Z.of_nat k) in *. assert (I : 0 <= i) by lia.
    pose proof (cv_el _ _ _ _ _ V1 i e I E1) as [A1 A2]. pose proof (cv_el _ _ _ _ _ V' i e' I E2) as [B1 B2].
    pose proof (cv_get_ptr _ _ _ _ _ i _ CT V1 I E1) as P1. pose proof (cv_get_ptr _ _ _ _ _ i _ CT V' I E2) as P2. rewrite ZE in P1. rewrite P1 in P2. injection P2 as P2.
    destruct e as [|z|c]; destruct e' as [|z'|c']; cbn in P2; try discriminate; try reflexivity; destruct A2 as (A2 & A3 & A4); destruct B2 as (B2 & B3 & B4); try congruence.
    + f_equal. apply Z.bits_inj'. intros b Hb. destruct (Z_lt_le_dec b (size (etype d i))) as [L|L].
      * rewrite <- A4, <- B4 by lia. reflexivity.
      * assert (T0 : forall y, 0 <= y < 2 ^ size (etype d i) -> Z.testbit y b = false).
        { intros y Y. rewrite <- (Z.mod_small y (2 ^ size (etype d i))) by lia. apply Z.mod_pow2_bits_high. split; [|exact L].
          destruct (Z_lt_le_dec (size (etype d i)) 0) as [N|N]; [rewrite Z.pow_neg_r in Y by lia; lia|lia]. }
        rewrite !T0 by lia. reflexivity.
    + f_equal. destruct (is_variable_sized_ (etype d i)) eqn:Vi.
      * destruct (A3 eq_refl) as (C1 & C2 & C3 & C4 & C5). destruct (B3 eq_refl) as (D1 & D2 & D3 & D4 & D5). rewrite ZE in *.
        set (x := slot d (zlen es') m' o' i) in *. pose proof (cv_bounds _ _ _ _ _ CT V').
        pose proof (get_size_local (etype d i) c m' (o' + x) ltac:(lia) ltac:(lia) C3 C5) as G1.
        pose proof (get_size_local (etype d i) c' m' (o' + x) ltac:(lia) ltac:(lia) D3 D5) as G2. rewrite G1 in G2. injection G2 as G2. congruence.
      * destruct (A4 eq_refl) as [C1 C2]. destruct (B4 eq_refl) as [D1 D2]. rewrite ZE in *. congruence.
  - apply nth_error_None in E2. assert (k < length es)%nat by (apply nth_error_Some; congruence). unfold zlen in ZE. lia.
  - apply nth_error_None in E1. assert (k < length es')%nat by (apply nth_error_Some; congruence). unfold zlen in ZE. lia.
  - reflexivity.
Qed.
Lemma cv_same0 d bs es es' : container d -> cv d bs 0 (zlen bs) es -> cv d bs 0 (zlen bs) es' -> es = es'.
Proof. intros CT V V'. apply (cv_same d bs 0 _ es bs 0 _ es' CT V V'); reflexivity. Qed.

Lemma reach_element pa : forall d m o bs t c, holds d m o bs -> reach d pa (CBytes bs) t (CBytes c) ->
  exists a, element_at d pa m o t a /\ holds t m a c.
Proof.
  induction pa as [|i pa IH]; intros d m o bs t c H R; inversion R; subst.
  - exists o. split; [constructor|exact H].
  - match goal with K : container d |- _ => pose proof K as CT end. pose proof CT as [W C].
    destruct (holds_cv d m o bs H C) as (es' & _ & V & Vb & GE).
    match goal with K : cv d bs 0 (zlen bs) es |- _ => pose proof (cv_same0 d bs es es' CT K Vb) end. subst es'.
    destruct x as [|z|c1]; try (match goal with K : reach _ pa _ _ _ |- _ => inversion K; subst; fail end).
    match goal with K : nth_error es _ = Some _ |- _ => pose proof K as En end.
    pose proof (child_holds d m o bs es i c1 CT V ltac:(assumption) En (GE i c1 ltac:(assumption) En)) as HC.
    destruct (IH _ _ _ _ _ _ HC ltac:(eassumption)) as (a & E & HA). exists a. split; [|exact HA].
    econstructor; [|exact E]. rewrite (child_ok d m o _ es i _ CT V ltac:(assumption) En). reflexivity.
Qed.

(** ** the result of moving an element only *)
Lemma op_moved d m o bs es i e pa P f inc m1 : container d -> holds d m o bs -> cv d m o (zlen bs) es -> 0 <= i -> nth_error es (Z.to_nat i) = Some e ->
  (forall j c, 0 <= j -> nth_error es (Z.to_nat j) = Some (CBytes c) -> good (etype d j) c) ->
  cv d m1 o (zlen bs) es -> keep (fun x => x < o \/ o + zlen bs <= x) m m1 -> 0 <= inc ->
  op_done d (i :: pa) P f inc m o bs false m1.
Proof.
  intros CT H V I En GE V1 K Hi. destruct (cv_to d m1 o _ _ CT V1) as [V1' L]. exists (slice m1 o (zlen bs)). rewrite L.
  split. { constructor; rewrite ?L; auto. - apply (h_o _ _ _ _ H). - apply (cv_s _ _ _ _ _ V1). - apply (good_con d _ es CT V1' GE). }
  split; [lia|]. split; [auto|]. split; [auto|]. split; [rewrite Z.max_id; exact K|].
  right. destruct (cv_to d m o _ _ CT V) as [Vb _]. rewrite (h_slice _ _ _ _ H) in Vb.
  exists bs, (slice m1 o (zlen bs)), es, e, e. rewrite lset_id by exact En. repeat (split; [assumption || reflexivity|]).
  destruct pa; left; auto.
Qed.

(** ** [set_element_in_tuple] *)
Lemma can_set_datum_local t m a m0 a0 valid inc v : (valid = true -> get_size t m a = get_size t m0 a0) -> can_set_datum t m a valid inc v = can_set_datum t m0 a0 valid inc v.
Proof.
  intro E. unfold can_set_datum. destruct (is_datum_NULL v); [reflexivity|]. destruct valid; [rewrite (E eq_refl)|]; reflexivity.
Qed.
Lemma can_set_containee_local d m o m0 o0 s es i inc v : container d -> cv d m o s es -> cv d m0 o0 s es -> 0 <= i ->
  can_set_containee d m o i inc v = can_set_containee d m0 o0 i inc v.
Proof.
  intros CT V V0 I. pose proof CT as [W C]. unfold can_set_containee. rewrite C. cbn [negb].
  rewrite (cv_get_count d m o s es CT V), (cv_get_count d m0 o0 s es CT V0). cbn [bind]. destruct (zlen es <=? i) eqn:LE; [reflexivity|].
  rewrite (cv_pos d m o s es i CT V), (cv_pos d m0 o0 s es i CT V0) by lia. cbn [bind].
  destruct (is_datum_NULL v); [reflexivity|]. destruct (negb (is_variable_sized_type_info (pi_type (pos d (zlen es) i)))); [reflexivity|].
  rewrite (cv_get_size d m o s es CT V), (cv_get_size d m0 o0 s es CT V0). cbn [bind].
  destruct (znth_lt es i ltac:(lia)) as [e En].
  rewrite (cv_get_ptr d m o s es i e CT V I En), (cv_get_ptr d m0 o0 s es i e CT V0 I En). cbn [bind].
  destruct (pos_spec d (zlen es) i W C (cv_n _ _ _ _ _ V) ltac:(lia)) as (Q1 & _). rewrite Q1.
  destruct e as [|z|c]; cbn [ptr_of].
  - apply can_set_datum_local. discriminate.
  - pose proof (cv_el _ _ _ _ _ V i _ I En) as (_ & B & _). apply is_bit_field_spec in B. unfold can_set_datum. rewrite B. reflexivity.
  - apply can_set_datum_local. intros _.
    destruct (cv_chunk d m o s es i c CT V I En) as (A1 & A2 & A3 & A4 & A5 & A6 & A7). destruct (cv_chunk d m0 o0 s es i c CT V0 I En) as (B1 & B2 & B3 & B4 & B5 & B6 & B7).
    pose proof (cv_bounds d m o s es CT V). pose proof (cv_o _ _ _ _ _ V). pose proof (cv_s _ _ _ _ _ V). pose proof (cv_o _ _ _ _ _ V0). pose proof (cv_s _ _ _ _ _ V0).
    rewrite (get_size_local (etype d i) c m (addr d (zlen es) m o i)), (get_size_local (etype d i) c m0 (addr d (zlen es) m0 o0 i)) by (auto; lia). reflexivity.
Qed.

Definition stored (v : datum) : dti -> celem -> celem -> Prop := fun t _ e' => stored_elem t v e'.

Lemma stored_good t v c : stored_elem t v (CBytes c) -> good t c.
Proof.
  unfold stored_elem. destruct v; intro R; try discriminate R;
  (destruct (is_bit_field t); [discriminate|]; destruct R as (old & E & G); injection E as ->; exact G).
Qed.

Lemma set_self d m o bs inc v : holds d m o bs -> fits d v -> points_good d v -> 0 <= inc < 4294967296 ->
  (is_variable_sized_ d = true -> o + Z.min (zlen bs + inc) (max_size d) <= zlen m) ->
  exists r m', set_internal d [] m o v inc (is_variable_sized_ d) = Ok (r, m') /\ op_done d [] (stored v) (negb (is_variable_sized_ d)) inc m o bs r m'
    /\ forall m0 o0, holds d m0 o0 bs -> can_set_element d [] m0 o0 v inc = Ok r.
Proof.
  intros H FT PG Hinc ROOM. pose proof (h_o _ _ _ _ H) as Ho. pose proof (h_in _ _ _ _ H) as Hl.
  destruct (good_size _ _ (h_good _ _ _ _ H)) as (W & Bd & G3 & G4 & G5 & G6). cbn [set_internal can_set_element].
  destruct (is_datum_NULL v) eqn:NN.
  - exists false, m. split; [reflexivity|]. split; [apply op_refused; auto; lia|]. reflexivity.
  - assert (ST : forall old, good d (sbytes d v old) -> stored v d (CBytes bs) (CBytes (sbytes d v old))).
    { intros old G. unfold stored, stored_elem. rewrite Bd. destruct v; try discriminate; exists old; auto. }
    destruct (is_variable_sized_ d) eqn:Vd.
    + destruct (set_datum_var d m o true inc v (zlen bs) W Vd NN FT PG Ho (holds_size _ _ _ _ H)) as (E1 & E2 & E3 & E4).
      { intro A. unfold size_acceptable in A. specialize (ROOM eq_refl). specialize (G5 eq_refl).
        pose proof (zlen_nonneg (sbytes d v [])). pose proof (u32_range (zlen (sbytes d v []) - zlen bs)).
        destruct (zlen bs <? zlen (sbytes d v [])) eqn:LT; [|lia].
        pose proof (wf_node d W) as (_ & _ & MSD & _). unfold max_bytes in *.
        rewrite u32_id in A by lia. lia. }
      exists (size_acceptable d (zlen bs) (zlen (sbytes d v [])) inc). eexists. split; [exact E1|]. split.
      * destruct (size_acceptable d (zlen bs) (zlen (sbytes d v [])) inc) eqn:A; [|apply op_refused; auto; lia].
        specialize (E3 eq_refl). set (c := sbytes d v []) in *. unfold size_acceptable in A.
        pose proof (good_size _ _ E3) as (_ & _ & F3 & F4 & F5 & F6).
        assert (SZ : zlen c <= zlen bs + inc /\ zlen c <= max_size d).
        { pose proof (wf_node d W) as (_ & _ & MSD & _). unfold max_bytes in *. destruct (zlen bs <? zlen c) eqn:LT; [rewrite u32_id in A by lia|]; lia. }
        specialize (ROOM eq_refl). assert (o + zlen c <= zlen m) by lia.
        exists c. split; [constructor; auto; try lia; rewrite ?zlen_upd by lia; try lia; apply slice_upd_same'; lia|].
        split; [lia|]. split; [discriminate|]. split; [discriminate|]. split; [|right; split; [reflexivity|apply ST; exact E3]].
        apply (keep_upd' _ _ _ _ (zlen c)); cbn beta; lia.
      * intros m0 o0 H0. rewrite <- E2. apply can_set_datum_local. intros _. rewrite (holds_size _ _ _ _ H), (holds_size _ _ _ _ H0). reflexivity.
    + specialize (G6 eq_refl).
      destruct (set_datum_fixed d m o true inc v W Bd Vd NN FT PG Ho ltac:(lia)) as (E1 & E2 & E3).
      set (c := sbytes d v (slice m o (size d))) in *. exists true. eexists. split; [exact E1|]. split.
      * exists c. split; [constructor; auto; try lia; rewrite ?zlen_upd by lia; try lia; apply slice_upd_same'; lia|].
        split; [lia|]. split; [discriminate|]. split; [lia|]. split; [|right; split; [reflexivity|apply ST; exact E3]].
        apply (keep_upd' _ _ _ _ (zlen c)); cbn beta; lia.
      * intros m0 o0 H0. unfold can_set_datum. rewrite NN. change (is_variable_sized_type_info d) with (is_variable_sized_ d). rewrite Vd. cbn [negb].
        unfold is_bit_field in Bd. destruct (type d); try reflexivity; discriminate.
Qed.

Lemma set_child d m o bs inc v i t : 0 <= i < 4294967296 -> holds d m o bs -> get_type_info d [i] = Some t -> fits t v -> points_good t v -> 0 <= inc < 4294967296 ->
  (is_variable_sized_ d = true -> o + Z.min (zlen bs + inc) (max_size d) <= zlen m) ->
  exists r m', set_containee d m o i inc v = Ok (r, m') /\ op_done d [i] (stored v) (negb (is_variable_sized_ t)) inc m o bs r m'
    /\ forall m0 o0, holds d m0 o0 bs -> can_set_containee d m0 o0 i inc v = Ok r.
Proof.
  intros I H TI FT PG Hinc ROOM. destruct (good_size _ _ (h_good _ _ _ _ H)) as (W & _).
  cbn [get_type_info] in TI. destruct (containee_type_without_data d i) as [t1|] eqn:E1; [|discriminate]. injection TI as ->.
  destruct (ctype_inv d i t E1 I W) as (C & -> & Wt & _ & _).
  destruct (holds_cv d m o bs H C) as (es & CT & V & Vb & GE).
  destruct (zlen es <=? i) eqn:LE.
  - exists false, m. split; [unfold set_containee; rewrite C, (cv_get_count d m o _ es CT V); cbn [negb bind]; rewrite LE; reflexivity|].
    split; [apply op_refused; auto; lia|]. intros m0 o0 H0. pose proof (cv_from d bs es m0 o0 CT Vb (h_o _ _ _ _ H0) (h_in _ _ _ _ H0) (h_slice _ _ _ _ H0)) as V0.
    unfold can_set_containee. rewrite C, (cv_get_count d m0 o0 _ es CT V0). cbn [negb bind]. rewrite LE. reflexivity.
  - destruct (znth_lt es i ltac:(lia)) as [e En].
    destruct (set_containee_ok d m o _ es i e inc v CT V ltac:(lia) En FT PG Hinc ROOM) as (r & m' & s' & e' & R1 & R2 & R3 & R4 & R5 & R6 & R7 & R8).
    exists r, m'. split; [exact R1|]. split.
    + destruct (cv_to d m' o s' _ CT R3) as [V' L']. exists (slice m' o s'). rewrite L'. split.
      { constructor; rewrite ?L'; auto. - apply (h_o _ _ _ _ H). - apply (cv_s _ _ _ _ _ R3). - apply (good_lset d m' o s' es (Z.to_nat i) e'); auto.
        intros c ->. replace (Z.of_nat (Z.to_nat i)) with i by lia. destruct r.
        * apply (stored_good _ v). apply R7. reflexivity.
        * pose proof (R6 eq_refl) as Q. subst e. apply GE; auto. lia. }
      split; [lia|]. split. { intro R0. rewrite (R6 R0) in R4. lia. } split. { intro F. unfold clen in R4. destruct (is_variable_sized_ (etype d i)); [discriminate|lia]. }
      split; [exact R8|]. right. exists bs, (slice m' o s'), es, e, e'. rewrite L'. rewrite L' in V'. repeat (split; [assumption || reflexivity || lia|]).
      destruct r; [right; split; [reflexivity|unfold stored; auto]|left; split; [reflexivity|symmetry; auto]].
    + intros m0 o0 H0. rewrite <- R2. pose proof (cv_from d bs es m0 o0 CT Vb (h_o _ _ _ _ H0) (h_in _ _ _ _ H0) (h_slice _ _ _ _ H0)) as V0.
      eapply can_set_containee_local; eauto. lia.
Qed.

Lemma inner_inc d m o bs inc : holds d m o bs -> 0 <= inc < 4294967296 ->
  exists inc', (if is_variable_sized_type_info d then let* sz := get_size d m o in Ok (Z.min inc (u32 (max_size d - sz))) else Ok inc) = Ok inc'
    /\ 0 <= inc' <= inc /\ (is_variable_sized_ d = true -> inc' = Z.min inc (max_size d - zlen bs) /\ zlen bs + inc' <= max_size d).
Proof.
  intros H Hi. destruct (good_size _ _ (h_good _ _ _ _ H)) as (W & _ & _ & G4 & G5 & _). change (is_variable_sized_type_info d) with (is_variable_sized_ d).
  destruct (is_variable_sized_ d) eqn:Vd.
  - rewrite (holds_size _ _ _ _ H). cbn [bind]. specialize (G5 eq_refl). pose proof (wf_node d W) as (_ & _ & MSD & _). unfold max_bytes in *.
    rewrite u32_id by lia. eexists. split; [reflexivity|]. lia.
  - exists inc. split; [reflexivity|]. split; [lia|discriminate].
Qed.

Theorem nested_set pa : forall d m o bs inc v t, path_ok pa -> holds d m o bs -> get_type_info d pa = Some t -> fits t v -> points_good t v -> 0 <= inc < 4294967296 ->
  (is_variable_sized_ d = true -> o + Z.min (zlen bs + inc) (max_size d) <= zlen m) ->
  exists r m', set_internal d pa m o v inc (is_variable_sized_ t) = Ok (r, m') /\ op_done d pa (stored v) (negb (is_variable_sized_ t)) inc m o bs r m'
    /\ forall m0 o0, holds d m0 o0 bs -> can_set_element d pa m0 o0 v inc = Ok r.
Proof.
  induction pa as [|i pa IH]; intros d m o bs inc v t PO H TI FT PG Hinc ROOM.
  { cbn [get_type_info] in TI. injection TI as <-. apply set_self; auto. }
  pose proof (Forall_inv PO) as I. pose proof (Forall_inv_tail PO) as PO'. cbn beta in I.
  destruct pa as [|j pa].
  { apply set_child; auto. }
  destruct (good_size _ _ (h_good _ _ _ _ H)) as (W & _). remember (j :: pa) as pa' eqn:EP.
  cbn [get_type_info] in TI. destruct (containee_type_without_data d i) as [t1|] eqn:E1; [|discriminate].
  destruct (ctype_inv d i t1 E1 I W) as (C & -> & Wt & VU & _).
  destruct (type_info_wf pa' _ _ PO' Wt TI) as [Wt' VU'].
  destruct (holds_cv d m o bs H C) as (es & CT & V & Vb & GE).
  assert (UN : forall m o inc (var : bool), set_internal d (i :: pa') m o v inc var = 
      if negb (is_container_type_info d) then Ok (false, m)
      else
        let* n := get_element_count d m o in
        if n <=? i then Ok (false, m)
        else
          let* inc' := if is_variable_sized_type_info d
                       then let* sz := get_size d m o in Ok (Z.min inc (u32 (max_size d - sz)))
                       else Ok inc in
          let* pi := get_pos d m o i in
          let* m1 := if var then move_to_end d m o i pi else Ok m in
          let* c := get_ptr d m1 o pi in
          match c with
          | None => Ok (false, m1)
          | Some a =>
            if var then
              let* container_old := get_size d m1 o in
              let* child_old := containee_size d m1 o pi in
              let* (result, m2) := set_internal (pi_type pi) pa' m1 a v inc' var in
              if result : bool then
                let* child_new := containee_size d m2 o pi in
                let* m3 := overwrite_size d m2 o (u32 (container_old - child_old + child_new)) in
                Ok (true, m3)
              else Ok (false, m2)
            else set_internal (pi_type pi) pa' m1 a v inc' var
          end) by (subst pa'; reflexivity).
  assert (UC : forall m o inc, can_set_element d (i :: pa') m o v inc =
      if negb (is_container_type_info d) then Ok false
      else
        let* n := get_element_count d m o in
        if n <=? i then Ok false
        else
          let* inc' := if is_variable_sized_type_info d
                       then let* sz := get_size d m o in Ok (Z.min inc (u32 (max_size d - sz)))
                       else Ok inc in
          let* pi := get_pos d m o i in
          let* c := get_ptr d m o pi in
          match c with
          | None => Ok false
          | Some a => can_set_element (pi_type pi) pa' m a v inc'
          end) by (subst pa'; reflexivity).
  rewrite UN. clear UN. rewrite C. cbn [negb]. rewrite (cv_get_count d m o _ es CT V). cbn [bind].
  assert (CV0 : forall m0 o0, holds d m0 o0 bs -> cv d m0 o0 (zlen bs) es) by (intros m0 o0 H0; apply (cv_from d bs es m0 o0 CT Vb (h_o _ _ _ _ H0) (h_in _ _ _ _ H0) (h_slice _ _ _ _ H0))).
  destruct (zlen es <=? i) eqn:LE.
  { exists false, m. split; [reflexivity|]. split; [apply op_refused; auto; lia|]. intros m0 o0 H0. specialize (CV0 _ _ H0).
    rewrite UC, C, (cv_get_count d m0 o0 _ es CT CV0). cbn [negb bind]. rewrite LE. reflexivity. }
  destruct (znth_lt es i ltac:(lia)) as [e En]. assert (I' : 0 <= i < zlen es) by lia.
  destruct (inner_inc d m o bs inc H Hinc) as (inc' & E2 & I1 & I2). rewrite E2. cbn [bind].
  rewrite (cv_pos d m o _ es i CT V I'). cbn [bind].
  destruct (pos_spec d (zlen es) i W C (cv_n _ _ _ _ _ V) I') as (Q1 & _).
  assert (CAN : forall m0 o0, holds d m0 o0 bs -> can_set_element d (i :: pa') m0 o0 v inc = match ptr_of d (zlen es) m0 o0 i e with None => Ok false | Some a => can_set_element (etype d i) pa' m0 a v inc' end).
  { intros m0 o0 H0. pose proof (CV0 _ _ H0) as V0. rewrite UC, C, (cv_get_count d m0 o0 _ es CT V0). cbn [negb bind]. rewrite LE.
    assert (E2' : (if is_variable_sized_type_info d then let* sz := get_size d m0 o0 in Ok (Z.min inc (u32 (max_size d - sz))) else Ok inc) = Ok inc') by (rewrite <- E2, (holds_size _ _ _ _ H), (holds_size _ _ _ _ H0); reflexivity).
    rewrite E2'. cbn [bind]. rewrite (cv_pos d m0 o0 _ es i CT V0 I'). cbn [bind]. rewrite (cv_get_ptr d m0 o0 _ es i e CT V0 ltac:(lia) En). cbn [bind]. rewrite Q1. reflexivity. }
  clear UC.
  destruct e as [|z|c].
  - assert (MV : exists m1, (if is_variable_sized_ t then move_to_end d m o i (pos d (zlen es) i) else Ok m) = Ok m1 /\ cv d m1 o (zlen bs) es /\ keep (fun x => x < o \/ o + zlen bs <= x) m m1).
    { destruct (is_variable_sized_ t); [|exists m; split; [reflexivity|]; split; [exact V|apply keep_refl]].
      destruct (move_ok d m o _ es i _ CT V ltac:(lia) En) as (m1 & M1 & M2 & _ & _ & M3). exists m1. auto. }
    destruct MV as (m1 & M1 & M2 & M3). step M1. rewrite (cv_get_ptr d m1 o _ es i _ CT M2 ltac:(lia) En). cbn [bind ptr_of].
    exists false, m1. split; [reflexivity|]. split; [|intros m0 o0 H0; rewrite (CAN _ _ H0); reflexivity].
    eapply op_moved; eauto; lia.
  - exfalso. pose proof (cv_el _ _ _ _ _ V i _ ltac:(lia) En) as (_ & B & _). subst pa'. cbn [get_type_info] in TI.
    unfold containee_type_without_data in TI. apply is_bit_field_spec in B. unfold is_container_type_info in TI. rewrite B in TI. discriminate.
  - assert (GC : good (etype d i) c) by (apply GE; auto; lia).
    assert (CANR : forall r, (forall m0 a0, holds (etype d i) m0 a0 c -> can_set_element (etype d i) pa' m0 a0 v inc' = Ok r) -> forall m0 o0, holds d m0 o0 bs -> can_set_element d (i :: pa') m0 o0 v inc = Ok r).
    { intros r IC m0 o0 H0. rewrite (CAN _ _ H0). cbn [ptr_of]. apply IC. apply (child_holds d m0 o0 bs es i c CT (CV0 _ _ H0) ltac:(lia) En GC). }
    destruct (is_variable_sized_ t) eqn:Vt.
    + specialize (VU' eq_refl). specialize (VU VU'). specialize (ROOM VU). destruct (I2 VU) as [I3 I4].
      destruct (nest_var d m o bs es CT V H GE i inc inc' pa' (stored v) c ltac:(lia) En I1 VU' I4 (fun m a => set_internal (etype d i) pa' m a v inc' true)
        (fun r => forall m0 o0, holds (etype d i) m0 o0 c -> can_set_element (etype d i) pa' m0 o0 v inc' = Ok r)) as (r & m3 & R1 & R2 & R3).
      { intros m1 a HC Lm Ea. destruct (IH (etype d i) m1 a c inc' v t PO' HC TI FT PG ltac:(lia)) as (r & m2 & R1 & R2 & R3).
        - intros _. lia.
        - rewrite Vt in *. exists r, m2. auto. }
      exists r, m3. rewrite Q1. split; [exact R1|]. split; [exact R2|]. apply (CANR r R3).
    + cbn [bind]. rewrite (cv_get_ptr d m o _ es i _ CT V ltac:(lia) En). cbn [bind ptr_of]. rewrite Q1.
      pose proof (child_holds d m o bs es i c CT V ltac:(lia) En GC) as HC.
      destruct (IH (etype d i) m (addr d (zlen es) m o i) c inc' v t PO' HC TI FT PG ltac:(lia)) as (r & m2 & R1 & R2 & R3).
      { intros Vi. specialize (VU Vi). specialize (ROOM VU). destruct (I2 VU).
        destruct (cv_chunk d m o _ es i c CT V ltac:(lia) En) as (_ & A2 & _). lia. }
      rewrite Vt in *.
      destruct (nest_fixed d m o bs es CT V H GE i inc inc' pa' (stored v) c ltac:(lia) En I1 (fun m a => set_internal (etype d i) pa' m a v inc' false)) as (r' & m2' & X1 & X2).
      { intros a HA ->. exists r, m2. auto. }
      rewrite R1 in X1. injection X1 as <- <-. exists r, m2. split; [exact R1|]. split; [exact X2|]. apply CANR. exact R3.
Qed.

(** ** [expand_element_count_for_element_in_tuple] *)
Definition expanded (index slots : Z) : dti -> celem -> celem -> Prop := fun t e e' =>
  exists c c' es, e = CBytes c /\ e' = CBytes c' /\ container t /\ cv t c 0 (zlen c) es /\ index <= zlen es
    /\ cv t c' 0 (zlen c') (ins es index slots (zelem (containee t))).
Definition discarded (index slots : Z) : dti -> celem -> celem -> Prop := fun t e e' =>
  exists c c' es, e = CBytes c /\ e' = CBytes c' /\ container t /\ cv t c 0 (zlen c) es /\ index + slots <= zlen es
    /\ cv t c' 0 (zlen c') (del es index slots).

Lemma vcount_container t : is_variable_element_count t = true -> is_container_type_info t = true /\ is_variable_sized_ t = true.
Proof.
  unfold is_variable_element_count, is_variable_sized_type_info. intro VC. destruct (is_container_type_info t); [|discriminate]. split; [reflexivity|].
  destruct (is_variable_sized_ t); [reflexivity|]. cbn in VC. destruct (type t); discriminate.
Qed.
Lemma zelem_good t c : wf t -> zelem t = CBytes c -> good t c.
Proof.
  intros W E. unfold zelem in E. destruct (is_nullable_type_info t) eqn:Nl; [discriminate|]. destruct (is_bit_field t) eqn:B; [discriminate|]. injection E as <-.
  assert (F : is_variable_sized_ t = false) by (unfold is_nullable_type_info, is_variable_sized_type_info in Nl; destruct (is_variable_sized_ t); [discriminate|reflexivity]).
  rewrite <- (min_data_fixed t F). apply good_min; auto.
Qed.
Lemma can_expand_local d m o m0 o0 s es index slots inc : container d -> cv d m o s es -> cv d m0 o0 s es -> can_expand d m o index slots inc = can_expand d m0 o0 index slots inc.
Proof.
  intros CT V V0. unfold can_expand, expand_plan. rewrite (cv_get_count d m o s es CT V), (cv_get_count d m0 o0 s es CT V0).
  rewrite (cv_get_size d m o s es CT V), (cv_get_size d m0 o0 s es CT V0). reflexivity.
Qed.
Lemma can_discard_local d m o m0 o0 s es index slots : container d -> cv d m o s es -> cv d m0 o0 s es -> can_discard d m o index slots = can_discard d m0 o0 index slots.
Proof. intros CT V V0. unfold can_discard. rewrite (cv_get_count d m o s es CT V), (cv_get_count d m0 o0 s es CT V0). reflexivity. Qed.

Lemma expand_self d m o bs index slots inc : holds d m o bs -> is_variable_element_count d = true -> 0 <= index -> 0 <= inc < 4294967296 ->
  (forall es, cv d bs 0 (zlen bs) es -> expand_limits d (zlen bs) (zlen es) slots) ->
  o + Z.min (zlen bs + inc) (max_size d) <= zlen m ->
  exists r m', expand d m o index slots inc = Ok (r, m') /\ op_done d [] (expanded index slots) false inc m o bs r m'
    /\ forall m0 o0, holds d m0 o0 bs -> can_expand d m0 o0 index slots inc = Ok r.
Proof.
  intros H VC HI Hinc LIM ROOM. destruct (vcount_container d VC) as [C Vd]. destruct (holds_cv d m o bs H C) as (es & CT & V & Vb & GE).
  destruct (expand_ok d m o _ es index slots inc CT V VC HI Hinc (LIM es Vb) ROOM) as (r & m' & s' & es' & R1 & R2 & R3 & R4 & R5 & R6 & R7).
  exists r, m'. split; [exact R1|]. split.
  - destruct r; [|destruct (R5 eq_refl) as (-> & _); apply op_refused; auto; lia].
    destruct (R6 eq_refl) as [R8 ->]. destruct (cv_to d m' o s' _ CT R3) as [V' L']. exists (slice m' o s'). rewrite L'. split.
    { constructor; rewrite ?L'; auto. - apply (h_o _ _ _ _ H). - apply (cv_s _ _ _ _ _ R3). - apply (good_con d _ _ CT V').
      intros j c J E. rewrite (arr_etype d VC). rewrite nth_ins in E by (destruct (LIM es Vb); lia).
      destruct (j <? index) eqn:C1; [rewrite <- (arr_etype d VC j); apply GE; auto|].
      destruct (j <? index + slots) eqn:C2; [apply zelem_good; [apply (arr_wf d CT VC)|congruence]|].
      rewrite <- (arr_etype d VC (j - slots)). apply GE; auto. lia. }
    split; [lia|]. split; [discriminate|]. split; [discriminate|]. split; [exact R7|]. right. split; [reflexivity|]. rewrite L' in V'.
    exists bs, (slice m' o s'), es. rewrite L'. auto 10.
  - intros m0 o0 H0. rewrite <- R2. pose proof (cv_from d bs es m0 o0 CT Vb (h_o _ _ _ _ H0) (h_in _ _ _ _ H0) (h_slice _ _ _ _ H0)) as V0. eapply can_expand_local; eauto.
Qed.
Lemma discard_self d m o bs index slots : holds d m o bs -> is_variable_element_count d = true -> 0 <= index < 4294967296 -> 0 <= slots < 4294967296 ->
  exists r m', discard d m o index slots = Ok (r, m') /\ op_done d [] (discarded index slots) false 0 m o bs r m'
    /\ forall m0 o0, holds d m0 o0 bs -> can_discard d m0 o0 index slots = Ok r.
Proof.
  intros H VC HI HS. destruct (vcount_container d VC) as [C Vd]. destruct (holds_cv d m o bs H C) as (es & CT & V & Vb & GE).
  destruct (discard_ok d m o _ es index slots CT V VC HI HS) as (r & m' & s' & es' & R1 & R2 & R3 & R4 & R5 & R6 & R7).
  exists r, m'. split; [exact R1|]. split.
  - destruct r; [|destruct (R5 eq_refl) as (-> & _); apply op_refused; auto; lia].
    destruct (R6 eq_refl) as [R8 ->]. destruct (cv_to d m' o s' _ CT R3) as [V' L']. exists (slice m' o s'). rewrite L'. split.
    { constructor; rewrite ?L'; auto. - apply (h_o _ _ _ _ H). - apply (cv_s _ _ _ _ _ R3). - apply (good_con d _ _ CT V').
      intros j c J E. rewrite (arr_etype d VC). rewrite nth_del in E by lia.
      destruct (j <? index) eqn:C1; [rewrite <- (arr_etype d VC j); apply GE; auto|].
      rewrite <- (arr_etype d VC (j + slots)). apply GE; auto. lia. }
    split; [lia|]. split; [discriminate|]. split; [discriminate|]. split; [eapply keep_weaken; [exact R7|]; cbn beta; intros; lia|]. right. split; [reflexivity|]. rewrite L' in V'.
    exists bs, (slice m' o s'), es. rewrite L'. auto 10.
  - intros m0 o0 H0. rewrite <- R2. pose proof (cv_from d bs es m0 o0 CT Vb (h_o _ _ _ _ H0) (h_in _ _ _ _ H0) (h_slice _ _ _ _ H0)) as V0. eapply can_discard_local; eauto.
Qed.

Theorem nested_expand pa : forall d m o bs index slots inc t, path_ok pa -> holds d m o bs -> get_type_info d pa = Some t -> is_variable_element_count t = true ->
  0 <= index -> 0 <= inc < 4294967296 ->
  (forall t' c es, reach d pa (CBytes bs) t' (CBytes c) -> cv t' c 0 (zlen c) es -> expand_limits t' (zlen c) (zlen es) slots) ->
  o + Z.min (zlen bs + inc) (max_size d) <= zlen m ->
  exists r m', expand_internal d pa m o index slots inc = Ok (r, m') /\ op_done d pa (expanded index slots) false inc m o bs r m'
    /\ forall m0 o0, holds d m0 o0 bs -> can_expand_internal d pa m0 o0 index slots inc = Ok r.
Proof.
  induction pa as [|i pa IH]; intros d m o bs index slots inc t PO H TI VC HI Hinc LIM ROOM.
  { cbn [get_type_info] in TI. injection TI as <-. cbn [expand_internal can_expand_internal]. apply expand_self; auto. intros es V. eapply LIM; eauto. constructor. }
  pose proof (Forall_inv PO) as I. pose proof (Forall_inv_tail PO) as PO'. cbn beta in I.
  destruct (good_size _ _ (h_good _ _ _ _ H)) as (W & _ & _ & SZ & SM & _).
  cbn [get_type_info] in TI. destruct (containee_type_without_data d i) as [t1|] eqn:E1; [|discriminate].
  destruct (ctype_inv d i t1 E1 I W) as (C & -> & Wt & VU & _).
  destruct (type_info_wf pa _ _ PO' Wt TI) as [Wt' VU']. destruct (vcount_container t VC) as [Ct Vt]. specialize (VU' Vt). specialize (VU VU'). specialize (SM VU).
  destruct (holds_cv d m o bs H C) as (es & CT & V & Vb & GE).
  pose proof (wf_node d W) as (_ & _ & MSD & _). unfold max_bytes in *.
  cbn [expand_internal can_expand_internal]. rewrite C. cbn [negb]. rewrite (cv_get_count d m o _ es CT V). cbn [bind].
  assert (CV0 : forall m0 o0, holds d m0 o0 bs -> cv d m0 o0 (zlen bs) es) by (intros m0 o0 H0; apply (cv_from d bs es m0 o0 CT Vb (h_o _ _ _ _ H0) (h_in _ _ _ _ H0) (h_slice _ _ _ _ H0))).
  destruct (zlen es <=? i) eqn:LE.
  { exists false, m. split; [reflexivity|]. split; [apply op_refused; auto; lia|]. intros m0 o0 H0. specialize (CV0 _ _ H0).
    rewrite (cv_get_count d m0 o0 _ es CT CV0). cbn [bind]. rewrite LE. reflexivity. }
  destruct (znth_lt es i ltac:(lia)) as [e En]. assert (I' : 0 <= i < zlen es) by lia.
  rewrite (cv_get_size d m o _ es CT V). cbn [bind]. rewrite (u32_id (max_size d - zlen bs)) by lia. set (inc' := Z.min inc (max_size d - zlen bs)).
  rewrite (cv_pos d m o _ es i CT V I'). cbn [bind].
  destruct (pos_spec d (zlen es) i W C (cv_n _ _ _ _ _ V) I') as (Q1 & _).
  assert (CAN : forall m0 o0, holds d m0 o0 bs ->
     (let* n := get_element_count d m0 o0 in if n <=? i then Ok false else let* sz := get_size d m0 o0 in let* pi := get_pos d m0 o0 i in let* c := get_ptr d m0 o0 pi in
       match c with None => Ok false | Some a => can_expand_internal (pi_type pi) pa m0 a index slots (Z.min inc (u32 (max_size d - sz))) end)
     = match ptr_of d (zlen es) m0 o0 i e with None => Ok false | Some a => can_expand_internal (etype d i) pa m0 a index slots inc' end).
  { intros m0 o0 H0. pose proof (CV0 _ _ H0) as V0. rewrite (cv_get_count d m0 o0 _ es CT V0). cbn [negb bind]. rewrite LE.
    rewrite (cv_get_size d m0 o0 _ es CT V0). cbn [bind]. rewrite (u32_id (max_size d - zlen bs)) by lia.
    rewrite (cv_pos d m0 o0 _ es i CT V0 I'). cbn [bind]. rewrite (cv_get_ptr d m0 o0 _ es i e CT V0 ltac:(lia) En). cbn [bind]. rewrite Q1. reflexivity. }
  destruct e as [|z|c].
  - destruct (move_ok d m o _ es i _ CT V ltac:(lia) En) as (m1 & M1 & M2 & _ & _ & M3).
    step M1. rewrite (cv_get_ptr d m1 o _ es i _ CT M2 ltac:(lia) En). cbn [bind ptr_of].
    exists false, m1. split; [reflexivity|]. split; [|intros m0 o0 H0; rewrite (CAN _ _ H0); reflexivity].
    eapply op_moved; eauto; lia.
  - exfalso. pose proof (cv_el _ _ _ _ _ V i _ ltac:(lia) En) as (_ & B & _). destruct (eslot_var (max_size d) _ Wt VU'). congruence.
  - assert (GC : good (etype d i) c) by (apply GE; auto; lia).
    destruct (nest_var d m o bs es CT V H GE i inc inc' pa (expanded index slots) c ltac:(lia) En ltac:(lia) VU' ltac:(lia) (fun m a => expand_internal (etype d i) pa m a index slots inc')
        (fun r => forall m0 o0, holds (etype d i) m0 o0 c -> can_expand_internal (etype d i) pa m0 o0 index slots inc' = Ok r)) as (r & m3 & R1 & R2 & R3).
    { intros m1 a HC Lm Ea. apply (IH (etype d i) m1 a c index slots inc' t PO' HC TI VC HI); try lia.
      intros t' c' es' R V'. eapply LIM; [|exact V']. econstructor; eauto. lia. }
    exists r, m3. rewrite Q1. split; [exact R1|]. split; [exact R2|].
    intros m0 o0 H0. rewrite (CAN _ _ H0). cbn [ptr_of]. apply R3. apply (child_holds d m0 o0 bs es i c CT (CV0 _ _ H0) ltac:(lia) En GC).
Qed.

Theorem nested_discard pa : forall d m o bs index slots t, path_ok pa -> holds d m o bs -> get_type_info d pa = Some t -> is_variable_element_count t = true ->
  0 <= index < 4294967296 -> 0 <= slots < 4294967296 ->
  exists r m', discard_internal d pa m o index slots = Ok (r, m') /\ op_done d pa (discarded index slots) false 0 m o bs r m'
    /\ forall m0 o0, holds d m0 o0 bs -> can_discard_internal d pa m0 o0 index slots = Ok r.
Proof.
  induction pa as [|i pa IH]; intros d m o bs index slots t PO H TI VC HI HSl.
  { cbn [get_type_info] in TI. injection TI as <-. cbn [discard_internal can_discard_internal]. apply discard_self; auto. }
  pose proof (Forall_inv PO) as I. pose proof (Forall_inv_tail PO) as PO'. cbn beta in I.
  destruct (good_size _ _ (h_good _ _ _ _ H)) as (W & _ & _ & SZ & SM & _).
  cbn [get_type_info] in TI. destruct (containee_type_without_data d i) as [t1|] eqn:E1; [|discriminate].
  destruct (ctype_inv d i t1 E1 I W) as (C & -> & Wt & VU & _).
  destruct (type_info_wf pa _ _ PO' Wt TI) as [Wt' VU']. destruct (vcount_container t VC) as [Ct Vt]. specialize (VU' Vt). specialize (VU VU'). specialize (SM VU).
  destruct (holds_cv d m o bs H C) as (es & CT & V & Vb & GE).
  cbn [discard_internal can_discard_internal]. rewrite C. cbn [negb]. rewrite (cv_get_count d m o _ es CT V). cbn [bind].
  assert (CV0 : forall m0 o0, holds d m0 o0 bs -> cv d m0 o0 (zlen bs) es) by (intros m0 o0 H0; apply (cv_from d bs es m0 o0 CT Vb (h_o _ _ _ _ H0) (h_in _ _ _ _ H0) (h_slice _ _ _ _ H0))).
  destruct (zlen es <=? i) eqn:LE.
  { exists false, m. split; [reflexivity|]. split; [apply op_refused; auto; lia|]. intros m0 o0 H0. specialize (CV0 _ _ H0).
    rewrite (child_none d m0 o0 _ es i CT CV0) by lia. reflexivity. }
  destruct (znth_lt es i ltac:(lia)) as [e En]. assert (I' : 0 <= i < zlen es) by lia.
  rewrite (cv_pos d m o _ es i CT V I'). cbn [bind].
  destruct (pos_spec d (zlen es) i W C (cv_n _ _ _ _ _ V) I') as (Q1 & _).
  destruct e as [|z|c].
  - destruct (move_ok d m o _ es i _ CT V ltac:(lia) En) as (m1 & M1 & M2 & _ & _ & M3).
    step M1. rewrite (cv_get_ptr d m1 o _ es i _ CT M2 ltac:(lia) En). cbn [bind ptr_of].
    exists false, m1. split; [reflexivity|]. split; [|intros m0 o0 H0; rewrite (child_ok d m0 o0 _ es i _ CT (CV0 _ _ H0) ltac:(lia) En); reflexivity].
    eapply op_moved; eauto; lia.
  - exfalso. pose proof (cv_el _ _ _ _ _ V i _ ltac:(lia) En) as (_ & B & _). destruct (eslot_var (max_size d) _ Wt VU'). congruence.
  - assert (GC : good (etype d i) c) by (apply GE; auto; lia).
    destruct (nest_var d m o bs es CT V H GE i 0 0 pa (discarded index slots) c ltac:(lia) En ltac:(lia) VU' ltac:(lia) (fun m a => discard_internal (etype d i) pa m a index slots)
        (fun r => forall m0 o0, holds (etype d i) m0 o0 c -> can_discard_internal (etype d i) pa m0 o0 index slots = Ok r)) as (r & m3 & R1 & R2 & R3).
    { intros m1 a HC Lm Ea. apply (IH (etype d i) m1 a c index slots t PO' HC TI VC HI HSl). }
    exists r, m3. rewrite Q1. split; [exact R1|]. split; [exact R2|].
    intros m0 o0 H0. rewrite (child_ok d m0 o0 _ es i _ CT (CV0 _ _ H0) ltac:(lia) En). cbn [ptr_of bind]. apply R3. apply (child_holds d m0 o0 bs es i c CT (CV0 _ _ H0) ltac:(lia) En GC).
Qed.
