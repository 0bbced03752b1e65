(** * What is read at every path of well formed data *)
From Verif Require Export NestOps ReadSpec.
From Coq Require Import ZifyBool ZifyNat ZifyN Zify.
Ltac Zify.zify_post_hook ::= Z.div_mod_to_equations.

(** ** the element itself *)
Definition obs_self (d : dti) (bs : list byte) : obs :=
  match type d with
  | BIT_FIELD => ONull
  | UINT => OUint (dec bs)
  | INT => OInt (sdec bs)
  | FLOAT => if size d =? 4 then OFloat (dec bs) else ODouble (dec bs)
  | LARGE_UINT => OLargeUint (dec bs)
  | LARGE_INT => OLargeInt (sdec bs)
  | STRING => OStr (cut0 (slice bs (pbo d) (zlen bs - pbo d)))
  | BINARY => OStr (slice bs (pbo d) (zlen bs - pbo d))
  | TUPLE | ARRAY => OData bs
  end.

Lemma holds_self d bs : good d bs -> holds d bs 0 bs.
Proof. intro G. constructor; auto; try lia. apply slice_all; reflexivity. Qed.

Lemma string_bytes d m o bs : holds d m o bs -> string_type d ->
  exists n, get_element_count d m o = Ok n /\ zlen bs = pbo d + n /\ 0 <= n /\ 0 <= pbo d /\ slice m (o + pbo d) n = slice bs (pbo d) n
  /\ exists es, container d /\ cv d bs 0 (zlen bs) es /\ zlen es = n /\ forall i, 0 <= i < n -> nth_error es (Z.to_nat i) = Some (CBytes [bat bs (pbo d + i)]).
Proof.
  intros H T. pose proof (string_container d T) as C. destruct (holds_cv d m o bs H C) as (es & CT & V & Vb & GE). pose proof CT as [W _].
  destruct (string_layout d W T) as (HS & OC & VC & LV & LF & ET & SB & SS).
  assert (SO : forall n k, so d n k = pbo d + k) by (intros n k; unfold so; rewrite SB, SS; unfold bitmap_size_in_bytes; cbn; lia).
  pose proof (pbo_range d) as (P1 & _). pose proof (zlen_nonneg es) as Zn.
  assert (L : zlen bs = pbo d + zlen es).
  { rewrite (cv_tot _ _ _ _ _ V). unfold FS. rewrite SO.
    rewrite (vtot_fixed d _ es CT (cv_n _ _ _ _ _ V) HS 0) by lia. lia. }
  pose proof (h_o _ _ _ _ H) as Ho. pose proof (h_in _ _ _ _ H) as Hl. pose proof (h_slice _ _ _ _ H) as Hs.
  exists (zlen es). split; [apply (cv_get_count d m o _ es CT V)|]. split; [exact L|]. split; [exact Zn|]. split; [lia|]. split.
  - apply (slice_sub m o (zlen bs) bs 0); try lia. rewrite Hs. symmetry. apply slice_all; reflexivity.
  - exists es. split; [exact CT|]. split; [exact Vb|]. split; [reflexivity|]. intros i I. destruct (znth_lt es i I) as [e E]. rewrite E. f_equal.
    pose proof (cv_el _ _ _ _ _ Vb i e ltac:(lia) E) as [_ A]. rewrite ET in A. destruct e as [|z|c].
    + destruct A as [A _]. discriminate.
    + destruct A as [A _]. discriminate.
    + destruct A as (_ & _ & A). destruct (A eq_refl) as [A1 A2]. change (size uint8_type) with 1 in A1, A2. rewrite SO in A2. cbn [Z.add] in A2. rewrite slice_1 in A2 by lia. congruence.
Qed.

Lemma observe_self d m o bs : holds d m o bs -> observe d [] m o = Ok (Some (obs_self d bs)).
Proof.
  intro H. pose proof (h_o _ _ _ _ H) as Ho. pose proof (h_in _ _ _ _ H) as Hl. pose proof (h_slice _ _ _ _ H) as Hs.
  pose proof (good_size _ _ (h_good _ _ _ _ H)) as (W & Bd & G3 & G4 & G5 & G6). pose proof (wf_node d W) as (_ & _ & _ & _ & _ & _ & N).
  unfold observe. cbn [get_value get_type_info]. unfold get_datum, obs_self. pose proof (holds_size _ _ _ _ H) as SZ.
  assert (RD : is_variable_sized_ d = false -> rd m o (size d) = Ok bs).
  { intro F. specialize (G6 F). rewrite rd_ok by lia. rewrite <- G6. congruence. }
  destruct (type d) eqn:T; try (destruct N as (F & N)); try (rewrite RD by assumption; cbn [bind obs_of]; reflexivity).
  - apply is_bit_field_spec in T. congruence.
  - rewrite RD by assumption. cbn [bind]. destruct (size d =? 4); reflexivity.
  - destruct (string_bytes d m o bs H (or_introl T)) as (n & E1 & E2 & E3 & E4 & E5 & _). rewrite E1. cbn [bind].
    rewrite strnlen_eq by lia. cbn [bind obs_of]. rewrite E5. replace (zlen bs - pbo d) with n by lia.
    pose proof (cut0_len (slice bs (pbo d) n)) as CL. rewrite zlen_slice in CL by lia. pose proof (zlen_nonneg (cut0 (slice bs (pbo d) n))).
    rewrite rd_ok by lia. cbn [bind]. rewrite <- E5 at 1. rewrite slice_cut0 by lia. rewrite E5. reflexivity.
  - destruct (string_bytes d m o bs H (or_intror T)) as (n & E1 & E2 & E3 & E4 & E5 & _). rewrite E1. cbn [bind obs_of].
    replace (zlen bs - pbo d) with n by lia. rewrite rd_ok by lia. cbn [bind]. rewrite E5. reflexivity.
  - cbn [bind obs_of]. rewrite SZ. cbn [bind]. rewrite rd_ok by lia. cbn [bind]. rewrite Hs. reflexivity.
  - cbn [bind obs_of]. rewrite SZ. cbn [bind]. rewrite rd_ok by lia. cbn [bind]. rewrite Hs. reflexivity.
Qed.

(** ** one step *)
Lemma not_container_value d pa m o : pa <> [] -> is_container_type_info d = false -> get_value d pa m o = Ok None.
Proof.
  intros NE C. destruct pa as [|i [|j pa]]; [congruence| |].
  - cbn [get_value]. unfold get_containee_datum. rewrite C. reflexivity.
  - cbn [get_value]. unfold child. rewrite C. reflexivity.
Qed.
Lemma value_step d m o s es i e pb : container d -> cv d m o s es -> 0 <= i -> nth_error es (Z.to_nat i) = Some e ->
  get_value d (i :: pb) m o =
    match e with
    | CNull => Ok (Some DNull)
    | CBits z => match pb with [] => Ok (Some (DBits z)) | _ => Ok None end
    | CBytes c => get_value (etype d i) pb m (addr d (zlen es) m o i)
    end.
Proof.
  intros CT V I En. pose proof (znth_some _ _ _ En) as IL. pose proof CT as [W C]. assert (I' : 0 <= i < zlen es) by lia.
  destruct (pos_spec d (zlen es) i W C (cv_n _ _ _ _ _ V) I') as (Q1 & Q2 & Q3 & Q4).
  pose proof (cv_etype_wf d m o s es i CT V I') as Wt. pose proof (cv_bounds d m o s es CT V) as BB. pose proof (cv_o _ _ _ _ _ V) as Ho. pose proof (cv_s _ _ _ _ _ V) as Hs.
  destruct pb as [|j pb].
  - cbn [get_value]. unfold get_containee_datum. rewrite C. cbn [negb]. rewrite (cv_get_count d m o s es CT V). cbn [bind]. replace (zlen es <=? i) with false by lia.
    rewrite (cv_pos d m o s es i CT V I'). cbn [bind]. rewrite (cv_get_ptr d m o s es i e CT V I En). cbn [bind]. rewrite Q1.
    pose proof (cv_el _ _ _ _ _ V i e I En) as [A1 A2].
    destruct e as [|z|c]; cbn [ptr_of].
    + reflexivity.
    + destruct A2 as (B & Z0 & A3). pose proof (ebits_parts _ Wt) as (EP1 & EP2 & EP3 & EP4). rewrite B in EP1. specialize (EP3 B). pose proof B as T. apply is_bit_field_spec in T. rewrite T.
      rewrite (Q3 B). set (nv := b2n (needs_is_valid_bit (etype d i))) in *. set (sz := size (etype d i)) in *.
      assert (NV : 0 <= nv <= 1) by (unfold nv; destruct (needs_is_valid_bit (etype d i)); cbn; lia).
      destruct (bit_in_bitmap d m o s es i 0 CT V I' ltac:(lia)) as [R1 _].
      destruct (bit_in_bitmap d m o s es i (nv + sz - 1) CT V I' ltac:(lia)) as [_ R2].
      rewrite get_bits_ok by lia. cbn [bind]. do 3 f_equal. replace (sb d i + nv + sz - 1 - (sb d i + nv) + 1) with sz by lia.
      apply Z.bits_inj'. intros b Hb. destruct (Z_lt_le_dec b sz) as [L|L].
      * rewrite bits_val_testbit by lia. rewrite <- A3 by lia. reflexivity.
      * pose proof (bits_val_range m (o + pbo d) (Z.to_nat sz) (sb d i + nv)) as BR. rewrite Z2Nat.id in BR by lia.
        assert (T0 : forall y, 0 <= y < 2 ^ sz -> Z.testbit y b = false) by (intros y Y; rewrite <- (Z.mod_small y (2 ^ sz)) by lia; apply Z.mod_pow2_bits_high; lia).
        rewrite !T0 by lia. reflexivity.
    + destruct A2 as (B & _). cbn [get_value]. unfold is_bit_field in B. destruct (type (etype d i)); try discriminate; reflexivity.
  - cbn [get_value]. rewrite (child_ok d m o s es i e CT V I En). cbn [bind].
    pose proof (cv_el _ _ _ _ _ V i e I En) as [_ A2].
    destruct e as [|z|c]; cbn [ptr_of]; [reflexivity| |reflexivity].
    destruct A2 as (B & _). apply is_bit_field_spec in B. apply (not_container_value _ (j :: pb)); [discriminate|]. unfold is_container_type_info. rewrite B. reflexivity.
Qed.
Definition oel (t : dti) (pb : list Z) (e : celem) : res (option obs) :=
  match e with
  | CNull => Ok (Some ONull)
  | CBits z => match pb with [] => Ok (Some (OBits z)) | _ => Ok None end
  | CBytes c => observe t pb c 0
  end.
Lemma step_type d m o s es i pb : container d -> cv d m o s es -> 0 <= i < zlen es -> get_type_info d (i :: pb) = get_type_info (etype d i) pb.
Proof. intros CT V I. cbn [get_type_info]. rewrite (ctype_some d (zlen es) i CT (cv_n _ _ _ _ _ V) I). reflexivity. Qed.
Lemma observe_step0 d m o s es i e pb : container d -> cv d m o s es -> 0 <= i -> nth_error es (Z.to_nat i) = Some e ->
  observe d (i :: pb) m o =
    match e with
    | CNull => Ok (Some ONull)
    | CBits z => match pb with [] => Ok (Some (OBits z)) | _ => Ok None end
    | CBytes c => observe (etype d i) pb m (addr d (zlen es) m o i)
    end.
Proof.
  intros CT V I En. pose proof (znth_some _ _ _ En) as IL. unfold observe. rewrite (value_step d m o s es i e pb CT V I En), (step_type d m o s es i pb CT V) by lia.
  destruct e as [|z|c].
  - cbn [bind]. destruct (get_type_info (etype d i) pb); reflexivity.
  - destruct pb; cbn [bind]; [reflexivity|]. destruct (get_type_info (etype d i) (z0 :: pb)); reflexivity.
  - reflexivity.
Qed.
Lemma observe_out d m o s es i pb : container d -> cv d m o s es -> zlen es <= i -> observe d (i :: pb) m o = Ok None.
Proof.
  intros CT V I. pose proof CT as [W C]. assert (E : get_value d (i :: pb) m o = Ok None).
  { destruct pb as [|j pb]; cbn [get_value].
    - unfold get_containee_datum. rewrite C. cbn [negb]. rewrite (cv_get_count d m o s es CT V). cbn [bind]. replace (zlen es <=? i) with true by lia. reflexivity.
    - rewrite (child_none d m o s es i CT V I). reflexivity. }
  unfold observe. rewrite E. cbn [bind]. destruct (get_type_info d (i :: pb)); reflexivity.
Qed.
Lemma observe_leaf d i pb m o : is_container_type_info d = false -> observe d (i :: pb) m o = Ok None.
Proof. intro C. unfold observe. rewrite not_container_value by (auto; discriminate). cbn [bind]. destruct (get_type_info d (i :: pb)); reflexivity. Qed.

(** reading depends only on the bytes of the data *)
Theorem observe_local pb : forall d m o bs, path_ok pb -> holds d m o bs -> observe d pb m o = observe d pb bs 0.
Proof.
  induction pb as [|i pb IH]; intros d m o bs PO H; pose proof (holds_self d bs (h_good _ _ _ _ H)) as H0.
  - rewrite (observe_self d m o bs H), (observe_self d bs 0 bs H0). reflexivity.
  - pose proof (Forall_inv PO) as I. pose proof (Forall_inv_tail PO) as PO'. cbn beta in I.
    destruct (is_container_type_info d) eqn:C; [|rewrite !observe_leaf by exact C; reflexivity].
    destruct (holds_cv d m o bs H C) as (es & CT & V & Vb & GE).
    destruct (Z_lt_le_dec i (zlen es)) as [L|L]; [|rewrite (observe_out d m o _ es i pb CT V L), (observe_out d bs 0 _ es i pb CT Vb L); reflexivity].
    destruct (znth_lt es i ltac:(lia)) as [e En].
    rewrite (observe_step0 d m o _ es i e pb CT V ltac:(lia) En), (observe_step0 d bs 0 _ es i e pb CT Vb ltac:(lia) En).
    destruct e as [|z|c]; try reflexivity.
    rewrite (IH (etype d i) m _ c PO' (child_holds d m o bs es i c CT V ltac:(lia) En (GE i c ltac:(lia) En))).
    rewrite (IH (etype d i) bs _ c PO' (child_holds d bs 0 bs es i c CT Vb ltac:(lia) En (GE i c ltac:(lia) En))). reflexivity.
Qed.
Lemma observe_step d bs es i e pb : container d -> good d bs -> cv d bs 0 (zlen bs) es -> 0 <= i -> nth_error es (Z.to_nat i) = Some e -> path_ok pb ->
  observe d (i :: pb) bs 0 = oel (etype d i) pb e.
Proof.
  intros CT G V I En PO. rewrite (observe_step0 d bs 0 _ es i e pb CT V I En). destruct e as [|z|c]; try reflexivity.
  cbn [oel]. apply observe_local; [exact PO|]. destruct (good_cv d bs G (proj2 CT)) as (es' & _ & V' & GE). rewrite <- (cv_same0 d bs es es' CT V V') in GE.
  apply (child_holds d bs 0 bs es i c CT V I En). auto.
Qed.

(** element counts *)
Definition cel (t : dti) (pb : list Z) (e : celem) : res Z :=
  match e with CBytes c => element_count_of t pb c 0 | _ => Ok 0 end.
Lemma count_leaf d pb m o : is_container_type_info d = false -> element_count_of d pb m o = Ok 0.
Proof. intro C. destruct pb; cbn [element_count_of]; [unfold get_element_count|unfold child]; rewrite C; reflexivity. Qed.
Lemma count_step0 d m o s es i e pb : container d -> cv d m o s es -> 0 <= i -> nth_error es (Z.to_nat i) = Some e ->
  element_count_of d (i :: pb) m o = match e with CBytes c => element_count_of (etype d i) pb m (addr d (zlen es) m o i) | _ => Ok 0 end.
Proof.
  intros CT V I En. cbn [element_count_of]. rewrite (child_ok d m o s es i e CT V I En). cbn [bind].
  pose proof (cv_el _ _ _ _ _ V i e I En) as [_ A2]. destruct e as [|z|c]; cbn [ptr_of]; try reflexivity.
  destruct A2 as (B & _). apply is_bit_field_spec in B. apply count_leaf. unfold is_container_type_info. rewrite B. reflexivity.
Qed.
Lemma count_out d m o s es i pb : container d -> cv d m o s es -> zlen es <= i -> element_count_of d (i :: pb) m o = Ok 0.
Proof. intros CT V I. cbn [element_count_of]. rewrite (child_none d m o s es i CT V I). reflexivity. Qed.
Theorem count_local pb : forall d m o bs, path_ok pb -> holds d m o bs -> element_count_of d pb m o = element_count_of d pb bs 0.
Proof.
  induction pb as [|i pb IH]; intros d m o bs PO H; pose proof (holds_self d bs (h_good _ _ _ _ H)) as H0;
    (destruct (is_container_type_info d) eqn:C; [|rewrite !count_leaf by exact C; reflexivity]); destruct (holds_cv d m o bs H C) as (es & CT & V & Vb & GE).
  - cbn [element_count_of]. rewrite (cv_get_count d m o _ es CT V), (cv_get_count d bs 0 _ es CT Vb). reflexivity.
  - pose proof (Forall_inv PO) as I. pose proof (Forall_inv_tail PO) as PO'. cbn beta in I.
    destruct (Z_lt_le_dec i (zlen es)) as [L|L]; [|rewrite (count_out d m o _ es i pb CT V L), (count_out d bs 0 _ es i pb CT Vb L); reflexivity].
    destruct (znth_lt es i ltac:(lia)) as [e En].
    rewrite (count_step0 d m o _ es i e pb CT V ltac:(lia) En), (count_step0 d bs 0 _ es i e pb CT Vb ltac:(lia) En).
    destruct e as [|z|c]; try reflexivity.
    rewrite (IH (etype d i) m _ c PO' (child_holds d m o bs es i c CT V ltac:(lia) En (GE i c ltac:(lia) En))).
    rewrite (IH (etype d i) bs _ c PO' (child_holds d bs 0 bs es i c CT Vb ltac:(lia) En (GE i c ltac:(lia) En))). reflexivity.
Qed.
Lemma count_step d bs es i e pb : container d -> good d bs -> cv d bs 0 (zlen bs) es -> 0 <= i -> nth_error es (Z.to_nat i) = Some e -> path_ok pb ->
  element_count_of d (i :: pb) bs 0 = cel (etype d i) pb e.
Proof.
  intros CT G V I En PO. rewrite (count_step0 d bs 0 _ es i e pb CT V I En). destruct e as [|z|c]; try reflexivity.
  cbn [cel]. apply count_local; [exact PO|]. destruct (good_cv d bs G (proj2 CT)) as (es' & _ & V' & GE). rewrite <- (cv_same0 d bs es es' CT V V') in GE.
  apply (child_holds d bs 0 bs es i c CT V I En). auto.
Qed.

(** ** effects of an operation on a path *)
Definition goodel (t : dti) (e : celem) : Prop := match e with CBytes c => good t c | _ => True end.
Lemma goodel_nth d bs es i e : container d -> good d bs -> cv d bs 0 (zlen bs) es -> 0 <= i -> nth_error es (Z.to_nat i) = Some e -> goodel (etype d i) e.
Proof.
  intros CT G V I En. destruct (good_cv d bs G (proj2 CT)) as (es' & _ & V' & GE). rewrite <- (cv_same0 d bs es es' CT V V') in GE. destruct e; cbn; auto.
Qed.
Fixpoint is_prefix (p q : list Z) : bool :=
  match p, q with
  | [], _ => true
  | _, [] => false
  | i :: p', j :: q' => (i =? j) && is_prefix p' q'
  end.
Definition unrel (p q : list Z) : Prop := is_prefix p q = false /\ is_prefix q p = false.
Lemma is_prefix_app p : forall q, is_prefix p q = true -> exists r, q = p ++ r.
Proof.
  induction p as [|i p IH]; intros q H; [exists q; reflexivity|]. destruct q as [|j q]; [discriminate|]. cbn [is_prefix] in H. apply andb_prop in H. destruct H as [E H].
  apply Z.eqb_eq in E. subst j. destruct (IH q H) as [r ->]. exists r. reflexivity.
Qed.
Lemma unrelated_unrel p q : unrelated p q -> unrel p q.
Proof.
  intros [A B]. split.
  - destruct (is_prefix p q) eqn:E; [|reflexivity]. destruct A. apply is_prefix_app. exact E.
  - destruct (is_prefix q p) eqn:E; [|reflexivity]. destruct B. apply is_prefix_app. exact E.
Qed.

Lemma frame_el r P pa : forall t e e' pb, upd_el r P t pa e e' -> goodel t e -> goodel t e' -> path_ok pb -> unrel pa pb ->
  oel t pb e = oel t pb e' /\ cel t pb e = cel t pb e'.
Proof.
  induction pa as [|i pa IH]; intros t e e' pb U G G' PO [U1 U2]; [discriminate|].
  destruct U as [[_ ->]|(c & c' & es & x & x' & -> & -> & CT & V & I & En & V' & U)]; [auto|].
  destruct pb as [|j pb]; [discriminate|]. pose proof (Forall_inv PO) as J. pose proof (Forall_inv_tail PO) as PO'. cbn beta in J. cbn in G, G'.
  cbn [oel cel]. pose proof (znth_some _ _ _ En) as IL.
  destruct (Z_lt_le_dec j (zlen es)) as [L|L].
  2: { rewrite (observe_out t c 0 _ es j pb CT V L), (observe_out t c' 0 _ _ j pb CT V') by (rewrite zlen_lset; lia).
       rewrite (count_out t c 0 _ es j pb CT V L), (count_out t c' 0 _ _ j pb CT V') by (rewrite zlen_lset; lia). auto. }
  destruct (Z.eq_dec j i) as [->|N].
  - assert (En' : nth_error (lset es (Z.to_nat i) x') (Z.to_nat i) = Some x') by (apply lset_same; unfold zlen in *; lia).
    rewrite (observe_step t c es i x pb CT G V I En PO'), (observe_step t c' _ i x' pb CT G' V' I En' PO').
    rewrite (count_step t c es i x pb CT G V I En PO'), (count_step t c' _ i x' pb CT G' V' I En' PO').
    apply IH; auto.
    + apply (goodel_nth t c es); auto.
    + apply (goodel_nth t c' _ i x' CT G' V' I En').
    + cbn [is_prefix] in U1, U2. rewrite Z.eqb_refl in U1, U2. split; assumption.
  - destruct (znth_lt es j ltac:(lia)) as [y Ej].
    assert (Ej' : nth_error (lset es (Z.to_nat i) x') (Z.to_nat j) = Some y) by (rewrite lset_other by lia; exact Ej).
    rewrite (observe_step t c es j y pb CT G V ltac:(lia) Ej PO'), (observe_step t c' _ j y pb CT G' V' ltac:(lia) Ej' PO').
    rewrite (count_step t c es j y pb CT G V ltac:(lia) Ej PO'), (count_step t c' _ j y pb CT G' V' ltac:(lia) Ej' PO'). auto.
Qed.

Lemma reach_upd P pa : forall t e e', upd_el true P t pa e e' ->
  exists t' x x', reach t pa e t' x /\ reach t pa e' t' x' /\ P t' x x'.
Proof.
  induction pa as [|i pa IH]; intros t e e' U; (destruct U as [[? _]|U]; [discriminate|]).
  - exists t, e, e'. split; [constructor|]. split; [constructor|apply U].
  - destruct U as (c & c' & es & x & x' & -> & -> & CT & V & I & En & V' & U).
    destruct (IH _ _ _ U) as (t' & y & y' & R1 & R2 & R3). exists t', y, y'.
    pose proof (znth_some _ _ _ En) as IL.
    split; [econstructor; eauto|]. split; [|exact R3]. econstructor; eauto. apply lset_same; unfold zlen in *; lia.
Qed.
Lemma reach_good pa : forall t e t' y, reach t pa e t' y -> goodel t e -> goodel t' y.
Proof.
  induction pa as [|i pa IH]; intros t e t' y R G; inversion R; subst; [exact G|]. eapply IH; [eassumption|]. eapply goodel_nth; eauto.
Qed.
Lemma reach_type pa : forall t e t' y, path_ok pa -> reach t pa e t' y -> get_type_info t pa = Some t'.
Proof.
  induction pa as [|i pa IH]; intros t e t' y PO R; inversion R; subst; [reflexivity|].
  match goal with K : nth_error es _ = Some _ |- _ => pose proof (znth_some _ _ _ K) end.
  erewrite step_type; [|eassumption|eassumption|lia]. eapply IH; eauto. apply (Forall_inv_tail PO).
Qed.
Lemma reach_oel pa : forall t e t' y pb, reach t pa e t' y -> goodel t e -> path_ok pa -> path_ok pb ->
  oel t (pa ++ pb) e = oel t' pb y /\ cel t (pa ++ pb) e = cel t' pb y.
Proof.
  induction pa as [|i pa IH]; intros t e t' y pb R G PO PB; inversion R; subst; [auto|].
  pose proof (Forall_inv_tail PO) as PO'. assert (PP : path_ok (pa ++ pb)) by (apply Forall_app; auto). cbn [app oel cel]. cbn in G.
  erewrite observe_step; eauto. erewrite count_step; eauto. eapply IH; eauto. eapply goodel_nth; eauto.
Qed.

Lemma string_same t c c' es : string_type t -> good t c -> good t c' -> cv t c 0 (zlen c) es -> cv t c' 0 (zlen c') es -> obs_self t c = obs_self t c'.
Proof.
  intros T G G' V V'.
  destruct (string_bytes t c 0 c (holds_self _ _ G) T) as (n & _ & E2 & E3 & E4 & _ & es1 & CT & W1 & W2 & W3).
  destruct (string_bytes t c' 0 c' (holds_self _ _ G') T) as (n' & _ & F2 & _ & _ & _ & es2 & _ & X1 & X2 & X3).
  rewrite (cv_same0 t c es1 es CT W1 V) in *. rewrite (cv_same0 t c' es2 es CT X1 V') in *.
  rewrite <- W2 in *. rewrite <- X2 in *. clear n n' W2 X2.
  assert (E : slice c (pbo t) (zlen es) = slice c' (pbo t) (zlen es)).
  { apply bat_ext; try lia. intros k K. specialize (W3 k K). specialize (X3 k K). congruence. }
  unfold obs_self. replace (zlen c - pbo t) with (zlen es) by lia. replace (zlen c' - pbo t) with (zlen es) by lia. rewrite E.
  destruct T as [T|T]; rewrite T; reflexivity.
Qed.
Lemma refused_el P pa : forall t e e' pb, upd_el false P t pa e e' -> goodel t e -> goodel t e' -> path_ok pb ->
  same_reading (oel t pb e) (oel t pb e') /\ cel t pb e = cel t pb e'.
Proof.
  induction pa as [|i pa IH]; intros t e e' pb U G G' PO.
  { destruct U as [[_ ->]|[? _]]; [|discriminate]. split; [left|]; reflexivity. }
  destruct U as [[_ ->]|(c & c' & es & x & x' & -> & -> & CT & V & I & En & V' & U)]; [split; [left|]; reflexivity|].
  cbn in G, G'. pose proof (znth_some _ _ _ En) as IL.
  assert (En' : nth_error (lset es (Z.to_nat i) x') (Z.to_nat i) = Some x') by (apply lset_same; unfold zlen in *; lia).
  destruct pb as [|j pb].
  - cbn [oel cel]. split.
    + rewrite (observe_self t c 0 c (holds_self _ _ G)), (observe_self t c' 0 c' (holds_self _ _ G')).
      destruct (is_container_cases t (proj2 CT)) as [T|[NT T]]; [right; unfold obs_self; rewrite T; eauto|].
      assert (ST : string_type t \/ type t = ARRAY) by (destruct T as [T|[T|T]]; [left; left|left; right|right]; exact T).
      destruct ST as [ST|ST]; [|right; unfold obs_self; rewrite ST; eauto].
      left. do 2 f_equal. apply (string_same t c c' es); auto.
      assert (x' = x). { pose proof (string_layout t (proj1 CT) ST) as (_ & _ & _ & _ & _ & ET & _). rewrite ET in U.
        destruct pa; destruct U as [[_ U]|U]; auto; [destruct U; discriminate|]. destruct U as (? & ? & ? & ? & ? & _ & _ & [_ U] & _). discriminate. }
      subst x'. rewrite lset_id in V' by exact En. exact V'.
    + cbn [element_count_of]. rewrite (cv_get_count t c 0 _ es CT V), (cv_get_count t c' 0 _ _ CT V'), zlen_lset. reflexivity.
  - pose proof (Forall_inv PO) as J. pose proof (Forall_inv_tail PO) as PO'. cbn beta in J. cbn [oel cel].
    destruct (Z_lt_le_dec j (zlen es)) as [L|L].
    2: { rewrite (observe_out t c 0 _ es j pb CT V L), (observe_out t c' 0 _ _ j pb CT V') by (rewrite zlen_lset; lia).
         rewrite (count_out t c 0 _ es j pb CT V L), (count_out t c' 0 _ _ j pb CT V') by (rewrite zlen_lset; lia). split; [left|]; reflexivity. }
    destruct (Z.eq_dec j i) as [->|N].
    + rewrite (observe_step t c es i x pb CT G V I En PO'), (observe_step t c' _ i x' pb CT G' V' I En' PO').
      rewrite (count_step t c es i x pb CT G V I En PO'), (count_step t c' _ i x' pb CT G' V' I En' PO').
      apply IH; auto.
      * apply (goodel_nth t c es); auto.
      * apply (goodel_nth t c' _ i x' CT G' V' I En').
    + destruct (znth_lt es j ltac:(lia)) as [y Ej].
      assert (Ej' : nth_error (lset es (Z.to_nat i) x') (Z.to_nat j) = Some y) by (rewrite lset_other by lia; exact Ej).
      rewrite (observe_step t c es j y pb CT G V ltac:(lia) Ej PO'), (observe_step t c' _ j y pb CT G' V' ltac:(lia) Ej' PO').
      rewrite (count_step t c es j y pb CT G V ltac:(lia) Ej PO'), (count_step t c' _ j y pb CT G' V' ltac:(lia) Ej' PO'). split; [left|]; reflexivity.
Qed.
