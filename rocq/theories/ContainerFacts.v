(** * One level view of the data of a container, and reading it *)
From Verif Require Export LayoutFacts.
From Coq Require Import ZifyBool ZifyNat ZifyN Zify.
Ltac Zify.zify_post_hook ::= Z.div_mod_to_equations.

(** an element: NULL, the value of a bit field, or the bytes of any other one *)
Inductive celem := CNull | CBits (z : Z) | CBytes (c : list byte).
Definition is_cnull (e : celem) : bool := match e with CNull => true | _ => false end.
Definition clen (t : dti) (e : celem) : Z :=
  if is_variable_sized_ t then match e with CBytes c => zlen c | _ => 0 end else 0.
(** bytes of the variable sized elements from number [i] on *)
Fixpoint vtot (d : dti) (i : Z) (es : list celem) : Z :=
  match es with [] => 0 | e :: es' => clen (etype d i) e + vtot d (i + 1) es' end.

Notation vs d := (value_size (max_size d)).
(** the offset stored for the variable sized element [i] *)
Definition slot (d : dti) (n : Z) (m : mem) (o i : Z) : Z := dec (slice m (o + so d n i) (vs d)).

Definition elem_ok (d : dti) (m : mem) (o s n i : Z) (e : celem) : Prop :=
  let t := etype d i in
  (needs_is_valid_bit t = true -> bitat m (o + pbo d) (sb d i) = negb (is_cnull e))
  /\ match e with
     | CNull => is_nullable_type_info t = true /\ (is_variable_sized_ t = true -> slot d n m o i = 0)
     | CBits z => is_bit_field t = true /\ 0 <= z < 2 ^ size t
         /\ forall k, 0 <= k < size t -> bitat m (o + pbo d) (sb d i + b2n (needs_is_valid_bit t) + k) = Z.testbit z k
     | CBytes c => is_bit_field t = false
         /\ (is_variable_sized_ t = true ->
               FS d n <= slot d n m o i /\ slot d n m o i + zlen c <= s
               /\ slice m (o + slot d n m o i) (zlen c) = c /\ 1 <= zlen c <= max_size t /\ get_size t c 0 = Ok (zlen c))
         /\ (is_variable_sized_ t = false -> zlen c = size t /\ slice m (o + so d n i) (size t) = c)
     end.

(** a nullable 64 bit bit field has 65 bits in the bitmap; an array of variable
    length of them stays empty, because it can not be expanded *)
Definition narrow (d : dti) (n : Z) : Prop :=
  is_variable_element_count d = true -> is_bit_field (containee d) = true -> 64 < ebits (containee d) -> n = 0.

Record cv (d : dti) (m : mem) (o s : Z) (es : list celem) : Prop := mk_cv {
  cv_o : 0 <= o;
  cv_s : o + s <= zlen m;
  cv_n : count_ok d (zlen es);
  cv_narrow : narrow d (zlen es);
  cv_count : is_variable_element_count d = true -> dec (slice m (o + offset_of_prefix_count d) (vs d)) = zlen es;
  cv_size : has_size_in_prefix d = true -> dec (slice m o (vs d)) = s mod 256 ^ vs d;
  cv_max : is_variable_sized_ d = true -> s <= max_size d;
  cv_tot : s = FS d (zlen es) + vtot d 0 es;
  cv_el : forall i e, 0 <= i -> nth_error es (Z.to_nat i) = Some e -> elem_ok d m o s (zlen es) i e;
  cv_dis : forall i j ci cj, 0 <= i -> 0 <= j -> i <> j ->
    nth_error es (Z.to_nat i) = Some (CBytes ci) -> nth_error es (Z.to_nat j) = Some (CBytes cj) ->
    is_variable_sized_ (etype d i) = true -> is_variable_sized_ (etype d j) = true ->
    slot d (zlen es) m o i + zlen ci <= slot d (zlen es) m o j \/ slot d (zlen es) m o j + zlen cj <= slot d (zlen es) m o i
}.

Definition container (d : dti) : Prop := wf d /\ is_container_type_info d = true.

Lemma clen_nonneg t e : 0 <= clen t e.
Proof. unfold clen. destruct (is_variable_sized_ t), e; try lia. apply zlen_nonneg. Qed.
Lemma vtot_nonneg d es : forall i, 0 <= vtot d i es.
Proof. induction es as [|e es IH]; intro i; cbn [vtot]; [lia|]. pose proof (clen_nonneg (etype d i) e). specialize (IH (i + 1)). lia. Qed.

(** ** numbers of bytes *)
Lemma eslot_var ms t : wf t -> is_variable_sized_ t = true -> is_bit_field t = false /\ eslot ms t = value_size ms /\ needs_is_valid_bit t = false /\ is_nullable_type_info t = true.
Proof.
  intros W V. pose proof (wf_node t W) as (_ & _ & _ & _ & _ & _ & N).
  assert (B : is_bit_field t = false). { unfold is_bit_field. destruct (type t); try reflexivity. destruct N; congruence. }
  unfold eslot, needs_is_valid_bit, is_nullable_type_info, is_variable_sized_type_info. rewrite B, V. auto.
Qed.
Lemma eslot_fixed ms t : is_bit_field t = false -> is_variable_sized_ t = false -> eslot ms t = size t.
Proof. intros B V. unfold eslot. rewrite B, V. reflexivity. Qed.
Lemma ebits_parts t : wf t -> ebits t = b2n (needs_is_valid_bit t) + (if is_bit_field t then size t else 0)
  /\ 0 <= b2n (needs_is_valid_bit t) <= 1 /\ (is_bit_field t = true -> 1 <= size t <= 64) /\ (needs_is_valid_bit t = true -> 1 <= ebits t).
Proof.
  intros W. pose proof (wf_node t W) as (_ & _ & _ & _ & _ & _ & N).
  assert (S : is_bit_field t = true -> 1 <= size t <= 64).
  { intro B. apply is_bit_field_spec in B. rewrite B in N. tauto. }
  unfold ebits. destruct (needs_is_valid_bit t), (is_bit_field t); cbn [b2n]; repeat split; try discriminate; try lia; intros; specialize (S eq_refl); lia.
Qed.
Lemma size_range_nb t : wf t -> is_bit_field t = false -> 1 <= size t <= max_bytes.
Proof. intros W B. pose proof (wf_node t W) as (_ & _ & _ & _ & S & _). auto. Qed.

Lemma FS_le d n k : container d -> count_ok d n -> 0 <= k <= n -> pbo d + bitmap_size_in_bytes (sb d n) <= so d n k /\ so d n k <= FS d n.
Proof.
  intros [W C] CN K. unfold FS, so. pose proof (ss_nonneg d n k W C CN K). pose proof (ss_mono d n k n W C CN ltac:(lia) ltac:(lia) ltac:(lia)). lia.
Qed.

(** a container whose elements are all of fixed size has no other bytes *)
Lemma elements_fixed d i n : container d -> count_ok d n -> 0 <= i < n -> has_size_in_prefix d = false -> is_variable_sized_ (etype d i) = false.
Proof.
  intros [W C] CN I H. pose proof (wf_node d W) as (_ & _ & _ & _ & _ & _ & N).
  unfold has_size_in_prefix, is_variable_sized_type_info in H. rewrite C in H. cbn [negb] in H. unfold etype.
  destruct (is_container_cases d C) as [T|[NT T]].
  - rewrite T in *. destruct N as (_ & _ & V & _). rewrite (tuple_count d n T CN) in I.
    destruct (is_variable_sized_ d); cbn [negb] in H; [discriminate|].
    destruct (znth_lt (containees d) i I) as [[p t] E]. rewrite E.
    apply nth_error_In in E. symmetry in V. clear - V E. induction (containees d) as [|[q c] cs IH]; [destruct E|].
    cbn in V. apply orb_false_elim in V. destruct V as [V1 V2]. destruct E as [E|E]; [injection E as -> ->; exact V1 | exact (IH V2 E)].
  - destruct (wf_containee d W C NT) as [Wc Ec].
    destruct T as [T|[T|T]]; rewrite T in *.
    + rewrite containee_string by tauto. reflexivity.
    + rewrite containee_string by tauto. reflexivity.
    + destruct N as (c & E & V & _). rewrite E in Ec. injection Ec as ->. rewrite V in H.
      destruct (is_variable_sized_ (containee d)); [|reflexivity]. rewrite orb_true_r in H. discriminate.
Qed.
Lemma elements_var d i n : container d -> count_ok d n -> 0 <= i < n -> is_variable_sized_ (etype d i) = true ->
  has_size_in_prefix d = true /\ is_variable_sized_ d = true.
Proof.
  intros CT CN I V. destruct (has_size_in_prefix d) eqn:H.
  - split; [reflexivity|]. unfold has_size_in_prefix in H. destruct (negb (is_container_type_info d)); [discriminate|].
    unfold is_variable_sized_type_info in H. destruct (is_variable_sized_ d); [reflexivity|discriminate].
  - rewrite (elements_fixed d i n CT CN I H) in V. discriminate.
Qed.
Lemma vtot_fixed d n es : container d -> count_ok d n -> has_size_in_prefix d = false ->
  forall i, 0 <= i -> i + zlen es <= n -> vtot d i es = 0.
Proof.
  intros CT CN H. induction es as [|e es IH]; intros i I L; cbn [vtot]; [reflexivity|].
  rewrite zlen_cons in L. pose proof (zlen_nonneg es). rewrite IH by lia. unfold clen. rewrite (elements_fixed d i n) by (auto; lia). reflexivity.
Qed.

Lemma cv_bounds d m o s es : container d -> cv d m o s es ->
  0 <= pbo d /\ 0 <= bitmap_size_in_bytes (sb d (zlen es)) /\ pbo d + bitmap_size_in_bytes (sb d (zlen es)) <= FS d (zlen es)
  /\ FS d (zlen es) <= s /\ s <= max_bytes.
Proof.
  intros CT V. destruct CT as [W C]. pose proof (cv_n _ _ _ _ _ V) as CN. pose proof (zlen_nonneg es).
  pose proof (pbo_range d) as (P & _).
  pose proof (sb_nonneg d _ (zlen es) W C CN ltac:(lia)) as S1. pose proof (ss_nonneg d _ (zlen es) W C CN ltac:(lia)) as S2.
  pose proof (vtot_nonneg d es 0) as VT. pose proof (cv_tot _ _ _ _ _ V) as T. unfold FS, so in *.
  unfold bitmap_size_in_bytes in *. repeat split; try lia.
  pose proof (wf_node d W) as (_ & _ & MS & _ & SZ & _).
  destruct (is_variable_sized_ d) eqn:Vd.
  - pose proof (cv_max _ _ _ _ _ V Vd). lia.
  - assert (H0 : has_size_in_prefix d = false). { unfold has_size_in_prefix, is_variable_sized_type_info. rewrite C, Vd. reflexivity. }
    rewrite (vtot_fixed d _ es (conj W C) CN H0 0) in T by lia.
    assert (NB : is_bit_field d = false). { unfold is_bit_field. unfold is_container_type_info in C. destruct (type d); try discriminate; reflexivity. }
    specialize (SZ NB). rewrite (min_size_FS d W C) in SZ.
    assert (VC : is_variable_element_count d = false). { unfold is_variable_element_count, is_variable_sized_type_info. rewrite C, Vd. reflexivity. }
    unfold min_count in SZ. rewrite VC in SZ. rewrite <- (proj2 CN VC) in SZ. unfold FS, so, bitmap_size_in_bytes in SZ. lia.
Qed.

Lemma vs_range d : 1 <= vs d <= 4.
Proof. apply value_size_range. Qed.
Lemma vs_enough d : wf d -> 0 <= max_size d <= 256 ^ vs d.
Proof. intro W. pose proof (wf_node d W) as (_ & _ & MS & _). unfold max_bytes in MS. split; [lia|]. apply value_size_enough. lia. Qed.

Lemma cv_get_count d m o s es : container d -> cv d m o s es -> get_element_count d m o = Ok (zlen es).
Proof.
  intros CT V. pose proof (cv_bounds d m o s es CT V) as B. destruct CT as [W C].
  unfold get_element_count. rewrite C. cbn [negb].
  destruct (is_variable_element_count d) eqn:VC; cbn [negb].
  - unfold read_value. pose proof (pbo_range d) as (P1 & P2 & P3 & _). specialize (P3 VC).
    pose proof (cv_o _ _ _ _ _ V). pose proof (cv_s _ _ _ _ _ V). pose proof (vs_range d).
    rewrite rd_ok by lia. cbn [bind]. rewrite (cv_count _ _ _ _ _ V VC). reflexivity.
  - rewrite (proj2 (cv_n _ _ _ _ _ V) VC). reflexivity.
Qed.

Lemma cv_get_size d m o s es : container d -> cv d m o s es -> get_size d m o = Ok s.
Proof.
  intros CT V. pose proof (cv_bounds d m o s es CT V) as B.
  pose proof (cv_get_count d m o s es CT V) as GC.
  pose proof (cv_n _ _ _ _ _ V) as CN. pose proof CT as [W C]. pose proof (zlen_nonneg es).
  pose proof (cv_o _ _ _ _ _ V). pose proof (cv_s _ _ _ _ _ V). pose proof (vs_range d).
  pose proof (pbo_range d) as (P1 & P2 & P3 & P4 & P5 & P6).
  assert (NB : type d <> BIT_FIELD). { unfold is_container_type_info in C. destruct (type d); discriminate. }
  unfold get_size.
  assert (G : forall (x : res Z), match type d with BIT_FIELD => Ok 0 | _ => x end = x) by (intro; destruct (type d); congruence).
  rewrite G. clear G. unfold is_variable_sized_type_info.
  destruct (is_variable_sized_ d) eqn:Vd; cbn [negb].
  - destruct (has_size_in_prefix d) eqn:HS.
    + specialize (P4 eq_refl). unfold read_value. rewrite rd_ok by lia. cbn [bind].
      rewrite (cv_size _ _ _ _ _ V HS). pose proof (cv_max _ _ _ _ _ V Vd) as MX. pose proof (vs_enough d W) as VE.
      destruct (Z.eq_dec s (256 ^ vs d)) as [E|E].
      * rewrite E at 1 2. rewrite Z.mod_same by lia. cbn. f_equal. lia.
      * rewrite Z.mod_small by lia. destruct (s =? 0) eqn:S0; [lia|reflexivity].
    + pose proof (cv_tot _ _ _ _ _ V) as T. rewrite (vtot_fixed d _ es CT CN HS 0) in T by lia.
      specialize (P5 eq_refl).
      assert (VC : is_variable_element_count d = true).
      { pose proof (wf_node d W) as (_ & _ & _ & _ & _ & _ & N). unfold has_size_in_prefix, is_variable_element_count, is_variable_sized_type_info in *.
        rewrite C, Vd in *. cbn [negb] in *. destruct (is_container_cases d C) as [Ty|[NT Ty]]; [rewrite Ty in HS; discriminate|].
        destruct Ty as [Ty|[Ty|Ty]]; rewrite Ty in *; auto. destruct N as (c & E & V' & _).
        destruct (wf_containee d W C ltac:(congruence)) as [_ Ec]. rewrite E in Ec. injection Ec as ->. rewrite HS, orb_false_r in V'. congruence. }
      specialize (P3 VC). unfold get_element_count in GC. rewrite C, VC in GC. cbn [negb] in GC. rewrite GC. cbn [bind].
      assert (NT : type d <> TUPLE). { unfold is_variable_element_count in VC. rewrite C in VC. destruct (is_variable_sized_type_info d); [|discriminate]. cbn in VC. intro A; rewrite A in VC; discriminate. }
      destruct (wf_containee d W C NT) as [Wc _].
      assert (E1 : sb d (zlen es) = zlen es * ebits (containee d)) by (unfold sb; destruct (type d); congruence).
      assert (E2 : ss d (zlen es) = zlen es * eslot (max_size d) (containee d)) by (unfold ss; destruct (type d); congruence).
      assert (Fc : is_variable_sized_ (containee d) = false).
      { unfold has_size_in_prefix, is_variable_sized_type_info in HS. rewrite C, Vd in HS. cbn [negb] in HS.
        destruct (is_container_cases d C) as [Ty|[_ Ty]]; [congruence|]. destruct Ty as [Ty|[Ty|Ty]]; rewrite ?Ty in HS; auto; rewrite containee_string by tauto; reflexivity. }
      unfold FS, so, max_bytes in *. rewrite E1, E2 in *. destruct CN as [CN _].
      pose proof (ebits_range _ Wc) as R. pose proof (mul65 (zlen es) (ebits (containee d)) CN R) as MB.
      pose proof (eslot_range (max_size d) _ Wc) as R'. pose proof (Z.mul_nonneg_nonneg (zlen es) _ ltac:(lia) R') as MS.
      pose proof (wf_node _ Wc) as (_ & _ & _ & _ & _ & _ & K).
      unfold ebits, eslot, is_bit_field in *. rewrite Fc in *.
      destruct (type (containee d)) eqn:Tc; cbn [data_type_eqb] in *;
      (destruct (needs_is_valid_bit (containee d)) eqn:Nv; cbn [b2n] in *; rewrite ?Z.add_0_r, ?Z.add_0_l in *; unwrap; f_equal; rewrite ?u32_id by lia; lia).
  - f_equal. assert (VC : is_variable_element_count d = false). { unfold is_variable_element_count, is_variable_sized_type_info. rewrite C, Vd. reflexivity. }
    assert (HS0 : has_size_in_prefix d = false). { unfold has_size_in_prefix, is_variable_sized_type_info. rewrite C, Vd. reflexivity. }
    pose proof (cv_tot _ _ _ _ _ V) as T. rewrite (vtot_fixed d _ es CT CN HS0 0) in T by lia.
    rewrite (min_size_FS d W C). unfold min_count. rewrite VC, <- (proj2 CN VC). lia.
Qed.

Lemma cv_pos d m o s es i : container d -> cv d m o s es -> 0 <= i < zlen es -> get_pos d m o i = Ok (pos d (zlen es) i).
Proof.
  intros CT V I. apply get_pos_ok; try apply CT; try apply (cv_n _ _ _ _ _ V); auto.
  - eapply cv_get_count; eassumption.
  - pose proof (cv_bounds d m o s es CT V). lia.
Qed.

(** ** the data only depends on the bytes *)
Lemma slice_sub (m : mem) o n (m' : mem) o' a k : slice m o n = slice m' o' n -> 0 <= o -> 0 <= o' -> 0 <= a -> 0 <= k -> a + k <= n ->
  slice m (o + a) k = slice m' (o' + a) k.
Proof. intros E Ho Ho' Ha Hk H. rewrite <- (slice_slice m o n a k), <- (slice_slice m' o' n a k), E by lia. reflexivity. Qed.
Lemma bitat_sub m o n m' o' a i : slice m o n = slice m' o' n -> 0 <= o -> 0 <= o' -> 0 <= a -> 0 <= i -> a + i / 8 < n ->
  bitat m (o + a) i = bitat m' (o' + a) i.
Proof.
  intros E Ho Ho' Ha Hk H. unfold bitat. do 2 f_equal.
  rewrite <- !Z.add_assoc. apply (slice_bat m o n m' o' (a + i / 8)); auto; lia.
Qed.
Lemma bit_in_bitmap d m o s es i k : container d -> cv d m o s es -> 0 <= i < zlen es -> 0 <= k < ebits (etype d i) ->
  0 <= sb d i + k /\ pbo d + (sb d i + k) / 8 < pbo d + bitmap_size_in_bytes (sb d (zlen es)).
Proof.
  intros [W C] V I K. pose proof (cv_n _ _ _ _ _ V) as CN.
  destruct (sb_before d _ i (zlen es) W C CN ltac:(lia) ltac:(lia) ltac:(lia)) as [B1 B2].
  split; [lia|]. pose proof (bitmap_bytes_bound (sb d (zlen es)) (sb d i + k) ltac:(lia)). lia.
Qed.
Lemma slot_in d m o s es i : container d -> cv d m o s es -> 0 <= i < zlen es ->
  pbo d + bitmap_size_in_bytes (sb d (zlen es)) <= so d (zlen es) i /\ so d (zlen es) i + eslot (max_size d) (etype d i) <= FS d (zlen es).
Proof.
  intros [W C] V I. pose proof (cv_n _ _ _ _ _ V) as CN.
  destruct (ss_before d _ i (zlen es) W C CN ltac:(lia) ltac:(lia) ltac:(lia)) as [B1 B2]. unfold FS, so. lia.
Qed.

Lemma cv_etype_wf d m o s es i : container d -> cv d m o s es -> 0 <= i < zlen es -> wf (etype d i).
Proof. intros [W C] V I. exact (etype_wf d _ i W C (cv_n _ _ _ _ _ V) I). Qed.

Theorem cv_local d m o s es m' o' : container d -> cv d m o s es -> 0 <= o' -> o' + s <= zlen m' ->
  slice m' o' s = slice m o s -> cv d m' o' s es.
Proof.
  intros CT V Ho' Hl E. pose proof (cv_bounds d m o s es CT V) as B. pose proof CT as [W C].
  pose proof (cv_o _ _ _ _ _ V) as Ho. pose proof (cv_s _ _ _ _ _ V) as Hs. pose proof (vs_range d) as VS.
  pose proof (pbo_range d) as (P1 & P2 & P3 & P4 & P5 & P6).
  assert (SL : forall i, 0 <= i < zlen es -> is_variable_sized_ (etype d i) = true -> slot d (zlen es) m' o' i = slot d (zlen es) m o i).
  { intros i I Vi. pose proof (slot_in d m o s es i CT V I) as SI. pose proof (cv_etype_wf d m o s es i CT V I) as Wt.
    destruct (eslot_var (max_size d) _ Wt Vi) as (_ & Es & _). unfold slot. f_equal. apply (slice_sub _ _ _ _ _ _ _ E); lia. }
  constructor; auto.
  - exact (cv_n _ _ _ _ _ V).
  - exact (cv_narrow _ _ _ _ _ V).
  - intro VC. rewrite <- (cv_count _ _ _ _ _ V VC). f_equal. specialize (P3 VC). apply (slice_sub _ _ _ _ _ _ _ E); lia.
  - intro HS. rewrite <- (cv_size _ _ _ _ _ V HS). f_equal. specialize (P4 HS).
    rewrite <- (Z.add_0_r o), <- (Z.add_0_r o'). apply (slice_sub _ _ _ _ _ _ _ E); lia.
  - exact (cv_max _ _ _ _ _ V).
  - exact (cv_tot _ _ _ _ _ V).
  - intros i e I En. pose proof (znth_some _ _ _ En) as IL. assert (I' : 0 <= i < zlen es) by lia.
    pose proof (cv_el _ _ _ _ _ V i e I En) as [A1 A2]. pose proof (cv_etype_wf d m o s es i CT V I') as Wt.
    pose proof (ebits_parts _ Wt) as (EP1 & EP2 & EP3 & EP4).
    split.
    + intro Nv. rewrite <- (A1 Nv). specialize (EP4 Nv).
      destruct (bit_in_bitmap d m o s es i 0 CT V I' ltac:(lia)) as [Q1 Q2]. rewrite Z.add_0_r in *.
      apply (bitat_sub _ _ _ _ _ _ _ E); lia.
    + destruct e as [|z|c].
      * destruct A2 as [A2 A3]. split; [exact A2|]. intro Vt. rewrite SL by assumption. auto.
      * destruct A2 as (A2 & A3 & A4). split; [exact A2|]. split; [exact A3|]. intros k K. rewrite <- (A4 k K).
        rewrite A2 in *. specialize (EP3 eq_refl).
        destruct (bit_in_bitmap d m o s es i (b2n (needs_is_valid_bit (etype d i)) + k) CT V I' ltac:(lia)) as [Q1 Q2]. rewrite Z.add_assoc in *.
        apply (bitat_sub _ _ _ _ _ _ _ E); lia.
      * destruct A2 as (A2 & A3 & A4). split; [exact A2|]. pose proof (zlen_nonneg c). split.
        -- intro Vt. specialize (A3 Vt). rewrite SL by assumption. repeat split; try apply A3. destruct A3 as (B1 & B2 & B3 & _).
           rewrite <- B3 at 2. apply (slice_sub _ _ _ _ _ _ _ E); lia.
        -- intro Ft. specialize (A4 Ft). split; [apply A4|]. rewrite <- (proj2 A4). pose proof (slot_in d m o s es i CT V I') as SI.
           rewrite (eslot_fixed (max_size d) _ A2 Ft) in SI. pose proof (size_range_nb _ Wt A2). apply (slice_sub _ _ _ _ _ _ _ E); lia.
  - intros i j ci cj I J IJ Ei Ej Vi Vj. pose proof (znth_some _ _ _ Ei). pose proof (znth_some _ _ _ Ej).
    rewrite !SL by (auto; lia). eapply cv_dis; eassumption.
Qed.

(** ** reading one element *)
Definition addr (d : dti) (n : Z) (m : mem) (o i : Z) : Z :=
  if is_variable_sized_ (etype d i) then o + slot d n m o i else o + so d n i.
Definition ptr_of (d : dti) (n : Z) (m : mem) (o i : Z) (e : celem) : option Z :=
  match e with CNull => None | CBits _ => Some (o + pbo d) | CBytes _ => Some (addr d n m o i) end.

Lemma cv_get_ptr d m o s es i e : container d -> cv d m o s es -> 0 <= i -> nth_error es (Z.to_nat i) = Some e ->
  get_ptr d m o (pos d (zlen es) i) = Ok (ptr_of d (zlen es) m o i e).
Proof.
  intros CT V I En. pose proof (znth_some _ _ _ En) as IL. assert (I' : 0 <= i < zlen es) by lia.
  pose proof (cv_bounds d m o s es CT V) as B. pose proof CT as [W C].
  pose proof (cv_o _ _ _ _ _ V) as Ho. pose proof (cv_s _ _ _ _ _ V) as Hs. pose proof (vs_range d) as VS.
  pose proof (cv_el _ _ _ _ _ V i e I En) as [A1 A2]. pose proof (cv_etype_wf d m o s es i CT V I') as Wt.
  pose proof (ebits_parts _ Wt) as (EP1 & EP2 & EP3 & EP4).
  destruct (pos_spec d (zlen es) i W C (cv_n _ _ _ _ _ V) I') as (Q1 & Q2 & Q3 & Q4).
  unfold get_ptr. rewrite Q1. set (t := etype d i) in *. unfold is_variable_sized_type_info.
  assert (Hb : (if needs_is_valid_bit t then let* b := get_bit m (o + pbo d) (pi_valid (pos d (zlen es) i)) in Ok (negb b) else Ok false)
               = Ok (needs_is_valid_bit t && is_cnull e)).
  { destruct (needs_is_valid_bit t) eqn:Nv; [|reflexivity]. rewrite (Q2 eq_refl). specialize (EP4 eq_refl).
    destruct (bit_in_bitmap d m o s es i 0 CT V I' ltac:(fold t; lia)) as [R1 R2]. rewrite Z.add_0_r in *.
    rewrite get_bit_ok by lia. cbn [bind]. rewrite (A1 eq_refl), negb_involutive. reflexivity. }
  rewrite Hb. cbn [bind]. clear Hb.
  destruct e as [|z|c]; cbn [is_cnull ptr_of].
  - rewrite andb_true_r. destruct (needs_is_valid_bit t) eqn:Nv; [reflexivity|].
    destruct A2 as [A2 A3]. assert (Vt : is_variable_sized_ t = true).
    { unfold needs_is_valid_bit, is_nullable_type_info, is_variable_sized_type_info in *. destruct (is_variable_sized_ t); [reflexivity|]. cbn in *. congruence. }
    destruct (eslot_var (max_size d) t Wt Vt) as (Bt & Es & _). pose proof (slot_in d m o s es i CT V I') as SI. fold t in SI.
    rewrite (Q4 Bt), Vt. cbn [negb]. unfold read_value. rewrite rd_ok by lia. cbn [bind].
    change (dec (slice m (o + so d (zlen es) i) (vs d))) with (slot d (zlen es) m o i). rewrite (A3 Vt).
    unfold is_bit_field in Bt. destruct (type t); try reflexivity; discriminate.
  - rewrite andb_false_r. destruct A2 as (A2 & _). apply is_bit_field_spec in A2. rewrite A2. reflexivity.
  - rewrite andb_false_r. destruct A2 as (A2 & A3 & A4). unfold addr. fold t.
    assert (Bt : type t <> BIT_FIELD). { intro X. apply is_bit_field_spec in X. congruence. }
    assert (G : forall (x y : res (option Z)), match type t with BIT_FIELD => x | _ => y end = y) by (intros; destruct (type t); congruence).
    rewrite G. clear G. destruct (is_variable_sized_ t) eqn:Vt; cbn [negb].
    + destruct (eslot_var (max_size d) t Wt Vt) as (_ & Es & _). pose proof (slot_in d m o s es i CT V I') as SI. fold t in SI.
      rewrite (Q4 A2). unfold read_value. rewrite rd_ok by lia. cbn [bind].
      change (dec (slice m (o + so d (zlen es) i) (vs d))) with (slot d (zlen es) m o i).
      specialize (A3 eq_refl). destruct (slot d (zlen es) m o i =? 0) eqn:Z0; [lia|reflexivity].
    + rewrite (Q4 A2). reflexivity.
Qed.

(** where the bytes of an element are *)
Lemma cv_chunk d m o s es i c : container d -> cv d m o s es -> 0 <= i -> nth_error es (Z.to_nat i) = Some (CBytes c) ->
  let a := addr d (zlen es) m o i in
  o + pbo d + bitmap_size_in_bytes (sb d (zlen es)) <= a /\ a + zlen c <= o + s /\ slice m a (zlen c) = c
  /\ is_bit_field (etype d i) = false /\ get_size (etype d i) c 0 = Ok (zlen c) /\ 1 <= zlen c
  /\ (is_variable_sized_ (etype d i) = true -> zlen c <= max_size (etype d i)).
Proof.
  intros CT V I En a. pose proof (znth_some _ _ _ En) as IL. assert (I' : 0 <= i < zlen es) by lia.
  pose proof (cv_bounds d m o s es CT V) as B. pose proof (cv_etype_wf d m o s es i CT V I') as Wt.
  pose proof (cv_el _ _ _ _ _ V i _ I En) as (_ & A2 & A3 & A4). pose proof (slot_in d m o s es i CT V I') as SI.
  unfold a, addr. destruct (is_variable_sized_ (etype d i)) eqn:Vt.
  - specialize (A3 eq_refl). destruct A3 as (A3 & A5 & A6 & A7 & A8). repeat split; auto; lia.
  - specialize (A4 eq_refl). destruct A4 as [A4 A5]. rewrite (eslot_fixed _ _ A2 Vt) in SI. pose proof (size_range_nb _ Wt A2).
    rewrite A4. repeat split; auto; try lia; try discriminate.
    unfold get_size, is_variable_sized_type_info. rewrite Vt. cbn [negb]. unfold is_bit_field in A2. destruct (type (etype d i)); try discriminate; reflexivity.
Qed.
Lemma get_size_local t c m a : 0 <= a -> a + zlen c <= zlen m -> slice m a (zlen c) = c -> get_size t c 0 = Ok (zlen c) -> get_size t m a = Ok (zlen c).
Proof.
  intros H1 H2 E G. rewrite <- G. unfold get_size.
  assert (R : forall x r, read_value c (0 + x) (max_size t) = Ok r -> 0 <= x -> read_value m (a + x) (max_size t) = Ok r).
  { intros x r Q X. unfold read_value in *. destruct (rd c (0 + x) (vs t)) as [bs|] eqn:Er; [|discriminate].
    apply rd_inv in Er. destruct Er as (E1 & E2 & E3 & ->). rewrite rd_ok by lia. rewrite <- Q. cbn [bind]. do 2 f_equal.
    apply (slice_sub m a (zlen c) c 0); try lia. rewrite E, slice_all; reflexivity. }
  unfold get_size in G.
  destruct (type t); try reflexivity;
  (destruct (negb (is_variable_sized_type_info t)); [reflexivity|]; destruct (has_size_in_prefix t);
   [ destruct (read_value c 0 (max_size t)) as [r|] eqn:Er; [|discriminate];
     rewrite <- (Z.add_0_r a); rewrite (R 0 r Er ltac:(lia)); reflexivity
   | destruct (read_value c (0 + offset_of_prefix_count t) (max_size t)) as [r|] eqn:Er; [|discriminate];
     rewrite (R _ r Er) by (pose proof (pbo_range t); lia); reflexivity ]).
Qed.
