(** * Positions of the elements of a container *)
From Verif Require Export TypeFacts BitFacts Container.
From Coq Require Import ZifyBool ZifyNat ZifyN Zify.
Ltac Zify.zify_post_hook ::= Z.div_mod_to_equations.

Lemma znth_lt {A} (l : list A) i : 0 <= i < zlen l -> exists x, nth_error l (Z.to_nat i) = Some x.
Proof.
  intro H. destruct (nth_error l (Z.to_nat i)) eqn:E; [eauto|].
  apply nth_error_None in E. unfold zlen in H. lia.
Qed.
Lemma znth_some {A} (l : list A) i x : nth_error l i = Some x -> Z.of_nat i < zlen l.
Proof. intro E. assert (nth_error l i <> None) as N by congruence. apply nth_error_Some in N. unfold zlen. lia. Qed.

Lemma mul65 n k : 0 <= n < 4294967296 -> 0 <= k <= 65 -> 0 <= n * k <= 279172874240.
Proof.
  intros. split; [apply Z.mul_nonneg_nonneg; lia|].
  transitivity (4294967296 * 65); [apply Z.mul_le_mono_nonneg; lia|lia].
Qed.

(** type of element [i] *)
Definition etype (d : dti) (i : Z) : dti :=
  match type d with
  | TUPLE => match nth_error (containees d) (Z.to_nat i) with Some (_, t) => t | None => uint8_type end
  | _ => containee d
  end.
(** bits / slot bytes of the first [k] elements *)
Definition sb (d : dti) (k : Z) : Z :=
  match type d with TUPLE => sum_bits (firstn (Z.to_nat k) (containees d)) | _ => k * ebits (containee d) end.
Definition ss (d : dti) (k : Z) : Z :=
  match type d with
  | TUPLE => sum_slots (max_size d) (firstn (Z.to_nat k) (containees d))
  | _ => k * eslot (max_size d) (containee d)
  end.
Notation pbo := offset_of_prefix_bitmap.
(** byte offset of the slot of element [i], and size of the fixed part, of a
    container of [n] elements *)
Definition so (d : dti) (n i : Z) : Z := pbo d + bitmap_size_in_bytes (sb d n) + ss d i.
Definition FS (d : dti) (n : Z) : Z := so d n n.

(** a possible number of elements *)
Definition count_ok (d : dti) (n : Z) : Prop :=
  0 <= n < 4294967296 /\ (is_variable_element_count d = false -> n = element_count d).

Lemma is_container_cases d : is_container_type_info d = true -> type d = TUPLE \/ (type d <> TUPLE /\ (type d = STRING \/ type d = BINARY \/ type d = ARRAY)).
Proof. unfold is_container_type_info. destruct (type d); cbn; intro; try discriminate; auto; right; split; auto; congruence. Qed.

Lemma wf_containee d : wf d -> is_container_type_info d = true -> type d <> TUPLE ->
  wf (containee d) /\ containee_ d = Some (containee d).
Proof.
  intros W C NT. apply wf_unfold in W. destruct W as [(_ & _ & _ & _ & _ & _ & N) W].
  unfold containee, is_container_type_info in *. destruct (type d); try discriminate; try congruence.
  - destruct N as (_ & _ & E & _). rewrite E in *. auto.
  - destruct N as (_ & _ & E & _). rewrite E in *. auto.
  - destruct N as (c & E & _). rewrite E in *. auto.
Qed.
Lemma containee_string d : wf d -> type d = STRING \/ type d = BINARY -> containee d = uint8_type.
Proof.
  intros W C. apply wf_unfold in W. destruct W as [(_ & _ & _ & _ & _ & _ & N) W].
  unfold containee. destruct C as [C|C]; rewrite C in N; destruct N as (_ & _ & E & _); rewrite E; reflexivity.
Qed.
Lemma etype_wf d n i : wf d -> is_container_type_info d = true -> count_ok d n -> 0 <= i < n -> wf (etype d i).
Proof.
  intros W C [CN1 CN2] I. unfold etype. pose proof W as W'. apply wf_unfold in W'. destruct W' as [N W'].
  destruct (is_container_cases d C) as [T|[NT T]].
  - rewrite T in *. unfold is_variable_element_count, element_count in CN2. rewrite T in CN2.
    destruct (negb (is_container_type_info d)); [|destruct (negb (is_variable_sized_type_info d))];
    specialize (CN2 eq_refl); destruct (znth_lt (containees d) i) as [[p t] E]; try lia;
    rewrite E; apply nth_error_In in E; exact (W' p t E).
  - destruct (wf_containee d W C NT) as [Wc _]. destruct (type d); congruence || exact Wc.
Qed.

Lemma firstn_snoc {A} (l : list A) i x : nth_error l i = Some x -> firstn (S i) l = firstn i l ++ [x].
Proof.
  revert l. induction i as [|i IH]; intros [|y l] E; cbn in E; try discriminate.
  - injection E as ->. reflexivity.
  - change (firstn (S (S i)) (y :: l)) with (y :: firstn (S i) l). rewrite (IH l E). reflexivity.
Qed.
Lemma sum_bits_app l r : sum_bits (l ++ r) = sum_bits l + sum_bits r.
Proof. induction l as [|[p t] l IH]; cbn [sum_bits app]; [lia|]. rewrite IH. lia. Qed.
Lemma sum_slots_app ms l r : sum_slots ms (l ++ r) = sum_slots ms l + sum_slots ms r.
Proof. induction l as [|[p t] l IH]; cbn [sum_slots app]; [lia|]. rewrite IH. lia. Qed.

Lemma sb_0 d : sb d 0 = 0.
Proof. unfold sb. destruct (type d); reflexivity. Qed.
Lemma ss_0 d : ss d 0 = 0.
Proof. unfold ss. destruct (type d); reflexivity. Qed.
Lemma tuple_count d n : type d = TUPLE -> count_ok d n -> n = zlen (containees d).
Proof.
  intros T [_ CN]. unfold is_variable_element_count, element_count in CN. rewrite T in CN.
  destruct (negb (is_container_type_info d)); [|destruct (negb (is_variable_sized_type_info d))]; exact (CN eq_refl).
Qed.
Lemma sb_succ d n i : count_ok d n -> 0 <= i < n -> sb d (i + 1) = sb d i + ebits (etype d i).
Proof.
  intros CN I. unfold sb, etype. destruct (type d) eqn:T; try lia.
  rewrite (tuple_count d n T CN) in I. destruct (znth_lt (containees d) i I) as [[p t] E]. rewrite E.
  replace (Z.to_nat (i + 1)) with (S (Z.to_nat i)) by lia. rewrite (firstn_snoc _ _ _ E), sum_bits_app. cbn [sum_bits]. lia.
Qed.
Lemma ss_succ d n i : count_ok d n -> 0 <= i < n -> ss d (i + 1) = ss d i + eslot (max_size d) (etype d i).
Proof.
  intros CN I. unfold ss, etype. destruct (type d) eqn:T; try lia.
  rewrite (tuple_count d n T CN) in I. destruct (znth_lt (containees d) i I) as [[p t] E]. rewrite E.
  replace (Z.to_nat (i + 1)) with (S (Z.to_nat i)) by lia. rewrite (firstn_snoc _ _ _ E), sum_slots_app. cbn [sum_slots]. lia.
Qed.
Lemma sb_mono d n i j : wf d -> is_container_type_info d = true -> count_ok d n -> 0 <= i -> i <= j -> j <= n ->
  sb d i <= sb d j.
Proof.
  intros W C CN I. revert j. apply (Zlt_lower_bound_ind (fun j => j <= n -> sb d i <= sb d j) i).
  intros k IH K N. destruct (Z.eq_dec k i) as [->|D]; [lia|].
  specialize (IH (k - 1) ltac:(lia) ltac:(lia)).
  replace k with (k - 1 + 1) by lia. rewrite (sb_succ d n) by (auto; lia).
  pose proof (ebits_range _ (etype_wf d n (k - 1) W C CN ltac:(lia))). lia.
Qed.
Lemma ss_mono d n i j : wf d -> is_container_type_info d = true -> count_ok d n -> 0 <= i -> i <= j -> j <= n ->
  ss d i <= ss d j.
Proof.
  intros W C CN I. revert j. apply (Zlt_lower_bound_ind (fun j => j <= n -> ss d i <= ss d j) i).
  intros k IH K N. destruct (Z.eq_dec k i) as [->|D]; [lia|].
  specialize (IH (k - 1) ltac:(lia) ltac:(lia)).
  replace k with (k - 1 + 1) by lia. rewrite (ss_succ d n) by (auto; lia).
  pose proof (eslot_range (max_size d) _ (etype_wf d n (k - 1) W C CN ltac:(lia))). lia.
Qed.
(** element [i] lies before element [j], all lie inside *)
Lemma sb_before d n i j : wf d -> is_container_type_info d = true -> count_ok d n -> 0 <= i -> i < j -> j <= n ->
  0 <= sb d i /\ sb d i + ebits (etype d i) <= sb d j.
Proof.
  intros W C CN I J N. split.
  - rewrite <- (sb_0 d). apply (sb_mono d n); auto; lia.
  - rewrite <- (sb_succ d n) by (auto; lia). apply (sb_mono d n); auto; lia.
Qed.
Lemma ss_before d n i j : wf d -> is_container_type_info d = true -> count_ok d n -> 0 <= i -> i < j -> j <= n ->
  0 <= ss d i /\ ss d i + eslot (max_size d) (etype d i) <= ss d j.
Proof.
  intros W C CN I J N. split.
  - rewrite <- (ss_0 d). apply (ss_mono d n); auto; lia.
  - rewrite <- (ss_succ d n) by (auto; lia). apply (ss_mono d n); auto; lia.
Qed.
Lemma sb_nonneg d n k : wf d -> is_container_type_info d = true -> count_ok d n -> 0 <= k <= n -> 0 <= sb d k.
Proof. intros. rewrite <- (sb_0 d). apply (sb_mono d n); auto; lia. Qed.
Lemma ss_nonneg d n k : wf d -> is_container_type_info d = true -> count_ok d n -> 0 <= k <= n -> 0 <= ss d k.
Proof. intros. rewrite <- (ss_0 d). apply (ss_mono d n); auto; lia. Qed.

Lemma pbo_range d : 0 <= pbo d <= 8 /\ 0 <= offset_of_prefix_count d <= 4
  /\ (is_variable_element_count d = true -> offset_of_prefix_count d + value_size (max_size d) = pbo d)
  /\ (has_size_in_prefix d = true -> value_size (max_size d) <= offset_of_prefix_count d)
  /\ (has_size_in_prefix d = false -> offset_of_prefix_count d = 0)
  /\ offset_of_prefix_count d <= pbo d.
Proof.
  unfold offset_of_prefix_bitmap, offset_of_prefix_count, bytes_for_prefix_size, bytes_for_prefix_count, has_element_count_in_prefix.
  pose proof (value_size_range (max_size d)).
  destruct (has_size_in_prefix d), (is_variable_element_count d); cbn [b2n]; repeat split; intros; try discriminate; lia.
Qed.

(** the layout of the elements, without memory *)
Definition pos (d : dti) (n i : Z) : pinfo :=
  match type d with
  | TUPLE => match nth_error (containees d) (Z.to_nat i) with
             | Some (p, t) => mk_pinfo (p_off p) (p_valid p) t
             | None => mk_pinfo 0 0 uint8_type
             end
  | _ =>
    let c := containee d in
    if is_bit_field c
    then mk_pinfo (i * ebits c + b2n (needs_is_valid_bit c)) (if needs_is_valid_bit c then i * ebits c else 0) c
    else mk_pinfo (so d n i) (if needs_is_valid_bit c then i * ebits c else 0) c
  end.

Lemma lay_nth ms cs : forall b o i p t, lay ms cs b o -> nth_error cs i = Some (p, t) ->
  (needs_is_valid_bit t = true -> p_valid p = b + sum_bits (firstn i cs))
  /\ (is_bit_field t = true -> p_off p = b + sum_bits (firstn i cs) + b2n (needs_is_valid_bit t))
  /\ (is_bit_field t = false -> p_off p = o + sum_slots ms (firstn i cs)).
Proof.
  induction cs as [|[q c] cs IH]; intros b o i p t L E; [destruct i; discriminate|].
  destruct L as (L1 & L2 & L3 & L4). destruct i as [|i].
  - injection E as -> ->. cbn [firstn sum_bits sum_slots]. repeat split; intro H; [rewrite (L1 H)|rewrite (L2 H)|rewrite (L3 H)]; lia.
  - specialize (IH _ _ i p t L4 E). cbn [firstn sum_bits sum_slots]. destruct IH as (A & B & D).
    repeat split; intro H; [rewrite (A H)|rewrite (B H)|rewrite (D H)]; lia.
Qed.

Lemma firstn_zlen {A} (l : list A) : firstn (Z.to_nat (zlen l)) l = l.
Proof. apply firstn_all2. unfold zlen. lia. Qed.

Lemma pos_spec d n i : wf d -> is_container_type_info d = true -> count_ok d n -> 0 <= i < n ->
  pi_type (pos d n i) = etype d i
  /\ (needs_is_valid_bit (etype d i) = true -> pi_valid (pos d n i) = sb d i)
  /\ (is_bit_field (etype d i) = true -> pi_off (pos d n i) = sb d i + b2n (needs_is_valid_bit (etype d i)))
  /\ (is_bit_field (etype d i) = false -> pi_off (pos d n i) = so d n i).
Proof.
  intros W C CN I. pose proof (wf_node d W) as (_ & _ & _ & _ & _ & _ & N).
  unfold pos, etype, so, FS. destruct (is_container_cases d C) as [T|[NT T]].
  - unfold sb, ss. rewrite (tuple_count d n T CN) in *. rewrite T in *. destruct (znth_lt (containees d) i I) as [[p t] E]. rewrite E.
    cbn [pi_type pi_off pi_valid].
    destruct N as (_ & _ & _ & _ & _ & L).
    destruct (lay_nth _ _ _ _ _ p t L E) as (A & B & D).
    split; [reflexivity|]. split; [exact A|]. split; [exact B|]. intro H. rewrite (D H).
    rewrite firstn_zlen. f_equal. f_equal.
    unfold offset_of_prefix_bitmap, offset_of_prefix_count, bytes_for_prefix_count, bytes_for_prefix_size, has_element_count_in_prefix, is_variable_element_count, has_size_in_prefix, is_container_type_info.
    rewrite T. cbn [is_container_data_type negb]. unfold is_variable_sized_type_info. destruct (is_variable_sized_ d); cbn [negb b2n]; lia.
  - unfold sb, ss. destruct (type d) eqn:Ty; try congruence; destruct (is_bit_field (containee d)) eqn:B; cbn [pi_type pi_off pi_valid];
    (split; [reflexivity|]; split; [intro H; rewrite H; reflexivity|]; split; intro; congruence || reflexivity).
Qed.

Lemma fixed_tuple_part d n : wf d -> type d = TUPLE -> count_ok d n -> size d = FS d n.
Proof.
  intros W T CN. pose proof (wf_node d W) as (_ & _ & _ & _ & _ & _ & N). rewrite T in N.
  destruct N as (_ & _ & _ & _ & S & _). rewrite S. unfold FS, so, sb, ss. rewrite T, (tuple_count d n T CN), firstn_zlen.
  f_equal. f_equal. unfold offset_of_prefix_bitmap, offset_of_prefix_count, bytes_for_prefix_count, bytes_for_prefix_size, has_element_count_in_prefix, is_variable_element_count, has_size_in_prefix, is_container_type_info.
  rewrite T. cbn [is_container_data_type negb]. unfold is_variable_sized_type_info. destruct (is_variable_sized_ d); cbn [negb b2n]; lia.
Qed.
(** the smallest size is the size of the fixed part for the smallest count *)
Definition min_count (d : dti) : Z := if is_variable_element_count d then 0 else element_count d.
Lemma min_count_ok d : wf d -> is_container_type_info d = true -> count_ok d (min_count d).
Proof.
  intros W C. pose proof (wf_node d W) as (_ & _ & _ & EC & _). unfold count_ok, min_count, element_count.
  pose proof (zlen_nonneg (containees d)). destruct (is_variable_element_count d); split; try lia; try discriminate.
  destruct (type d); lia.
Qed.
Lemma min_size_FS d : wf d -> is_container_type_info d = true -> size d = FS d (min_count d).
Proof.
  intros W C. pose proof (wf_node d W) as (_ & _ & _ & EC & _ & _ & N).
  unfold min_count. destruct (is_container_cases d C) as [T|[NT T]].
  - rewrite T in N. destruct N as (_ & _ & _ & _ & S & _). rewrite S. unfold FS, so, sb, ss, element_count, offset_of_prefix_bitmap, offset_of_prefix_count, bytes_for_prefix_count, bytes_for_prefix_size, has_element_count_in_prefix, is_variable_element_count, has_size_in_prefix, is_container_type_info.
    rewrite T. cbn [is_container_data_type negb]. unfold is_variable_sized_type_info. destruct (is_variable_sized_ d); cbn [negb b2n]; rewrite firstn_zlen; lia.
  - unfold FS, so, sb, ss, element_count, offset_of_prefix_bitmap, offset_of_prefix_count, bytes_for_prefix_count, bytes_for_prefix_size, has_element_count_in_prefix, is_variable_element_count, has_size_in_prefix, is_container_type_info in *.
    unfold is_variable_sized_type_info. pose proof (value_size_range (max_size d)) as V.
    destruct T as [T|[T|T]]; rewrite T in *; cbn [is_container_data_type negb].
    1-2: assert (Cu : containee d = uint8_type) by (apply containee_string; tauto); rewrite Cu;
         destruct N as (A & _ & _ & S & _); rewrite S, A; destruct (has_variable_element_count d); cbn -[value_size]; unfold bitmap_size_in_bytes; lia.
    destruct N as (c & E & A & _ & _ & S). unfold containee. rewrite E.
    rewrite S, A. destruct (has_variable_element_count d), (is_variable_sized_ c); cbn -[value_size]; rewrite ?Z.mul_0_l; cbn; unfold bitmap_size_in_bytes; lia.
Qed.

(** ** [get_pos] computes these positions *)
Lemma prefix_bits_ok d m o n : wf d -> is_container_type_info d = true -> count_ok d n ->
  get_element_count d m o = Ok n -> prefix_bitmap_bits d m o = Ok (sb d n).
Proof.
  intros W C CN G. unfold prefix_bitmap_bits. rewrite C. cbn [negb].
  pose proof (wf_node d W) as (_ & _ & _ & _ & _ & _ & N).
  destruct (is_container_cases d C) as [T|[NT T]].
  - rewrite T in *. destruct N as (_ & _ & _ & P & _). rewrite P. unfold sb. rewrite T, (tuple_count d n T CN), firstn_zlen. reflexivity.
  - destruct (wf_containee d W C NT) as [Wc Ec]. destruct CN as [[CN0 CN1] _].
    pose proof (ebits_range _ Wc) as R. unfold sb.
    destruct T as [T|[T|T]]; rewrite T in *.
    1-2: rewrite containee_string by tauto; cbn; f_equal; lia.
    rewrite G. cbn [bind]. unfold ebits, is_bit_field in *. set (c := containee d) in *.
    pose proof (wf_node _ Wc) as (_ & _ & _ & _ & _ & _ & K).
    destruct (type c) eqn:Tc; cbn [data_type_eqb] in *;
    (destruct (needs_is_valid_bit c); cbn [b2n] in *; unwrap; f_equal; try lia);
    (apply u64_id; match goal with |- 0 <= n * ?k < _ => pose proof (mul65 n k ltac:(lia) ltac:(lia)); lia end).
Qed.

Lemma get_pos_ok d m o n i : wf d -> is_container_type_info d = true -> count_ok d n ->
  get_element_count d m o = Ok n -> 0 <= i < n -> FS d n <= max_bytes ->
  get_pos d m o i = Ok (pos d n i).
Proof.
  intros W C CN G I FM. unfold get_pos, pos.
  destruct (is_container_cases d C) as [T|[NT T]].
  - rewrite T. rewrite (tuple_count d n T CN) in I. destruct (znth_lt (containees d) i I) as [[p t] E]. rewrite E. reflexivity.
  - destruct (wf_containee d W C NT) as [Wc Ec].
    pose proof (pbo_range d) as (PB & _).
    pose proof (sb_nonneg d n n W C CN ltac:(lia)) as SB.
    pose proof (ss_before d n i n W C CN ltac:(lia) ltac:(lia) ltac:(lia)) as [S1 S2].
    pose proof (sb_before d n i n W C CN ltac:(lia) ltac:(lia) ltac:(lia)) as [B1 B2].
    assert (ET : etype d i = containee d) by (unfold etype; destruct (type d); congruence).
    rewrite ET in *.
    unfold FS, so, max_bytes in *.
    assert (SBi : sb d i = i * ebits (containee d)) by (unfold sb; destruct (type d); congruence).
    assert (SSi : ss d i = i * eslot (max_size d) (containee d)) by (unfold ss; destruct (type d); congruence).
    pose proof (wf_node _ Wc) as (_ & _ & _ & _ & _ & _ & K).
    pose proof (ebits_range _ Wc) as R.
    pose proof (eslot_range (max_size d) _ Wc) as R'.
    assert (Cc : match type d with STRING | BINARY => uint8_type | _ => containee d end = containee d).
    { destruct T as [T|[T|T]]; rewrite T; auto; symmetry; apply containee_string; tauto. }
    rewrite (prefix_bits_ok d m o n) by assumption. cbn [bind]. rewrite Cc.
    set (c := containee d) in *.
    assert (BM : 0 <= bitmap_size_in_bytes (sb d n)) by (unfold bitmap_size_in_bytes; lia).
    rewrite (u32_id (pbo d + _)) by lia.
    assert (VB : needs_is_valid_bit c = true -> is_variable_sized_type_info c = false).
    { unfold needs_is_valid_bit. destruct (is_variable_sized_type_info c); [discriminate|reflexivity]. }
    pose proof (mul65 i (ebits c) ltac:(destruct CN; lia) R) as MB.
    unfold ebits, eslot, is_bit_field, is_variable_sized_type_info in *.
    destruct CN as [[_ CN] _].
    assert (Hcase : match type c with BIT_FIELD => True | _ => data_type_eqb (type c) BIT_FIELD = false end) by (destruct (type c); reflexivity || exact Logic.I).
    destruct (type c) eqn:Tc; cbn [data_type_eqb] in *;
    [ destruct (needs_is_valid_bit c); cbn [b2n] in *; rewrite ?(Z.mul_comm _ i); unwrap; destruct T as [T|[T|T]]; rewrite T; f_equal; f_equal; lia
    | .. ];
    (destruct (is_variable_sized_ c) eqn:Vc; cbn [negb];
     [ destruct (needs_is_valid_bit c) eqn:Nc; [specialize (VB eq_refl); discriminate|];
       unwrap; destruct T as [T|[T|T]]; rewrite T; f_equal; f_equal; rewrite SSi; lia
     | destruct (needs_is_valid_bit c) eqn:Nc; cbn [b2n] in *;
       unwrap; destruct T as [T|[T|T]]; rewrite T; f_equal; f_equal; try rewrite SSi; lia ]).
Qed.
