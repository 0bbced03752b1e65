(** * Storing one datum *)
From Verif Require Export DataFacts TupleSpec.
From Coq Require Import ZifyBool ZifyNat ZifyN Zify.
Ltac Zify.zify_post_hook ::= Z.div_mod_to_equations.

(** ** strings *)
Lemma cut0_len l : zlen (cut0 l) <= zlen l.
Proof. induction l as [|b l IH]; cbn [cut0]; [lia|]. destruct (b2z b =? 0); rewrite ?zlen_cons, ?zlen_nil; pose proof (zlen_nonneg l); lia. Qed.
Lemma cut0_prefix l : slice l 0 (zlen (cut0 l)) = cut0 l.
Proof.
  unfold slice. cbn [Z.to_nat skipn]. unfold zlen. rewrite Nat2Z.id.
  induction l as [|b l IH]; [reflexivity|]. cbn [cut0]. destruct (b2z b =? 0); [reflexivity|]. cbn [length firstn]. f_equal. exact IH.
Qed.
Lemma slice_cons (m : mem) o n : 0 <= o -> 0 <= n -> o + (1 + n) <= zlen m -> slice m o (1 + n) = bat m o :: slice m (o + 1) n.
Proof.
  intros. rewrite slice_split by lia. rewrite slice_1 by lia. reflexivity.
Qed.
Lemma strnlen_ok m : forall k o n, n = Z.of_nat k -> 0 <= o -> o + n <= zlen m -> strnlen_from m o k = Ok (zlen (cut0 (slice m o n))).
Proof.
  induction k as [|k IH]; intros o n E Ho Hl; cbn [strnlen_from].
  - subst n. rewrite slice_0. reflexivity.
  - replace n with (1 + Z.of_nat k) by lia. rewrite rd_ok by lia. cbn [bind]. rewrite slice_1 by lia.
    rewrite slice_cons by lia. cbn [dec cut0]. replace (b2z (bat m o) + 256 * 0) with (b2z (bat m o)) by lia.
    destruct (b2z (bat m o) =? 0); [reflexivity|]. rewrite (IH (o + 1) (Z.of_nat k)) by lia. cbn [bind]. rewrite zlen_cons. reflexivity.
Qed.
Lemma strnlen_eq m o n : 0 <= o -> 0 <= n -> o + n <= zlen m -> strnlen m o n = Ok (zlen (cut0 (slice m o n))).
Proof. intros. unfold strnlen. apply strnlen_ok; lia. Qed.
Lemma slice_cut0 m o n : 0 <= o -> 0 <= n -> o + n <= zlen m -> slice m o (zlen (cut0 (slice m o n))) = cut0 (slice m o n).
Proof.
  intros Ho Hn Hl. rewrite <- (cut0_prefix (slice m o n)) at 2. pose proof (cut0_len (slice m o n)) as L. rewrite zlen_slice in L by lia.
  pose proof (zlen_nonneg (cut0 (slice m o n))). rewrite slice_slice by lia. f_equal. lia.
Qed.

(** well formed strings *)
Definition string_type (d : dti) : Prop := type d = STRING \/ type d = BINARY.
Lemma string_container d : string_type d -> is_container_type_info d = true.
Proof. unfold is_container_type_info. intros [T|T]; rewrite T; reflexivity. Qed.
Lemma string_layout d : wf d -> string_type d ->
  has_size_in_prefix d = false /\ offset_of_prefix_count d = 0
  /\ is_variable_element_count d = is_variable_sized_ d
  /\ (is_variable_sized_ d = true -> pbo d = vs d /\ size d = vs d) /\ (is_variable_sized_ d = false -> pbo d = 0 /\ size d = element_count d)
  /\ (forall i, etype d i = uint8_type) /\ (forall k, sb d k = 0) /\ (forall k, ss d k = k).
Proof.
  intros W T. pose proof (string_container d T) as C. pose proof (containee_string d W T) as Ec.
  pose proof (wf_node d W) as (_ & _ & _ & _ & _ & _ & N).
  assert (NT : type d <> TUPLE) by (destruct T; congruence).
  assert (HS : has_size_in_prefix d = false).
  { unfold has_size_in_prefix, is_variable_sized_type_info. rewrite C. destruct T as [T|T]; rewrite T; destruct (is_variable_sized_ d); reflexivity. }
  assert (VC : is_variable_element_count d = is_variable_sized_ d).
  { unfold is_variable_element_count, is_variable_sized_type_info. rewrite C. destruct T as [T|T]; rewrite T in *; destruct N as (N & _); destruct (is_variable_sized_ d); auto. }
  assert (VH : is_variable_sized_ d = has_variable_element_count d) by (destruct T as [T|T]; rewrite T in N; apply N).
  assert (SZ : size d = (if has_variable_element_count d then vs d else element_count_ d)) by (destruct T as [T|T]; rewrite T in N; apply N).
  assert (EC : element_count d = element_count_ d) by (unfold element_count; destruct T as [T|T]; rewrite T; reflexivity).
  pose proof (pbo_range d) as (P1 & P2 & P3 & P4 & P5 & P6). specialize (P5 HS).
  split; [exact HS|]. split; [exact P5|]. split; [exact VC|]. split; [|split].
  - intro Vd. rewrite VC, Vd in P3. specialize (P3 eq_refl). rewrite <- VH, Vd in SZ. lia.
  - intro Fd. rewrite <- VH, Fd in SZ. split; [|lia].
    unfold offset_of_prefix_bitmap, bytes_for_prefix_count, has_element_count_in_prefix. rewrite P5, VC, Fd. cbn [b2n]. lia.
  - repeat split; intros.
    + unfold etype. destruct (type d); congruence.
    + unfold sb. destruct (type d); try congruence; rewrite Ec; change (ebits uint8_type) with 0; lia.
    + unfold ss. destruct (type d); try congruence; rewrite Ec; unfold eslot; cbn [is_bit_field data_type_eqb type uint8_type is_variable_sized_ size]; cbn; lia.
Qed.
Definition string_elems (bs : list byte) : list celem := map (fun b => CBytes [b]) bs.
Lemma nth_bat (l : list byte) i b : nth_error l i = Some b -> bat l (Z.of_nat i) = b.
Proof. intro E. unfold bat. rewrite Nat2Z.id. apply nth_error_nth. exact E. Qed.
Theorem string_good d bs n : wf d -> string_type d -> 0 <= n -> zlen bs = pbo d + n -> n < 4294967296 ->
  (is_variable_sized_ d = true -> dec (slice bs 0 (vs d)) = n /\ zlen bs <= max_size d) ->
  (is_variable_sized_ d = false -> n = element_count d) ->
  good d bs.
Proof.
  intros W T Hn L Hn' HV HF. pose proof (string_container d T) as C.
  destruct (string_layout d W T) as (HS & OC & VC & LV & LF & ET & SB & SS).
  pose proof (pbo_range d) as (P1 & P2 & P3 & P4 & P5 & P6).
  assert (ZL : zlen (string_elems (slice bs (pbo d) n)) = n) by (unfold string_elems; rewrite zlen_map, zlen_slice; lia).
  assert (SO : forall k, so d n k = pbo d + k) by (intro k; unfold so; rewrite SB, SS; unfold bitmap_size_in_bytes; cbn; lia).
  apply (good_con d bs (string_elems (slice bs (pbo d) n))).
  - split; auto.
  - constructor; rewrite ?ZL.
    + lia.
    + lia.
    + split; [lia|]. rewrite VC. exact HF.
    + intros _ Bc _. rewrite (containee_string d W) in Bc by tauto. discriminate.
    + rewrite VC, OC. intro Vd. apply HV. exact Vd.
    + congruence.
    + intro Vd. apply HV. exact Vd.
    + unfold FS. rewrite SO, L. assert (forall es i, (forall k, etype d k = uint8_type) -> vtot d i es = 0) as VT.
      { induction es as [|e es IH]; intros i U; cbn [vtot]; [reflexivity|]. rewrite IH by exact U. rewrite U. reflexivity. }
      rewrite VT by exact ET. lia.
    + intros i e I E. unfold string_elems in E. rewrite nth_error_map in E.
      destruct (nth_error (slice bs (pbo d) n) (Z.to_nat i)) as [b|] eqn:Eb; [|discriminate]. injection E as <-.
      pose proof (znth_some _ _ _ Eb) as IL. rewrite zlen_slice in IL by lia.
      unfold elem_ok. rewrite ET. split; [discriminate|]. split; [reflexivity|]. split; [discriminate|]. intros _. split; [reflexivity|].
      change (size uint8_type) with 1. rewrite SO. cbn [Z.add]. rewrite slice_1 by lia. f_equal.
      apply nth_bat in Eb. rewrite <- Eb. rewrite bat_slice by lia. f_equal. lia.
    + intros i j ci cj I J IJ Ei Ej Vi Vj. rewrite ET in Vi. discriminate.
  - intros i c I E. unfold string_elems in E. rewrite nth_error_map in E. destruct (nth_error (slice bs (pbo d) n) (Z.to_nat i)) as [b|]; [|discriminate].
    injection E as <-. rewrite ET. apply good_leaf; try reflexivity. apply uint8_wf.
Qed.

(** ** the bytes that represent a datum *)
Definition sbytes (t : dti) (v : datum) (old : list byte) : list byte :=
  match type t with
  | STRING => if is_variable_sized_ t then enc (Z.to_nat (vs t)) (zlen (cut0 (str_of v))) ++ cut0 (str_of v)
              else let b := firstn (Z.to_nat (size t)) (cut0 (str_of v)) in b ++ zeros (size t - zlen b)
  | BINARY => if is_variable_sized_ t then enc (Z.to_nat (vs t)) (zlen (str_of v)) ++ str_of v
              else let b := firstn (Z.to_nat (size t)) (str_of v) in b ++ slice old (zlen b) (size t - zlen b)
  | TUPLE | ARRAY =>
      match v with
      | DPtr vm vo => match get_size t vm vo with Ok s => slice vm vo s | UB => [] end
      | _ => min_data t
      end
  | _ => enc (Z.to_nat (size t)) (num_of v)
  end.
(** the data that a datum points to is well formed *)
Definition points_good (t : dti) (v : datum) : Prop :=
  match v with
  | DPtr vm vo => exists s, 0 <= vo /\ vo + s <= zlen vm /\ get_size t vm vo = Ok s /\ good t (slice vm vo s) /\ zlen (slice vm vo s) = s
  | _ => True
  end.

Lemma wr_upd m a b : 0 <= a -> a + zlen b <= zlen m -> wr m a b = Ok (upd m a b).
Proof. apply wr_ok. Qed.
Lemma upd_app (m : mem) a (b c : mem) : 0 <= a -> a + zlen b + zlen c <= zlen m -> upd (upd m a b) (a + zlen b) c = upd m a (b ++ c).
Proof.
  intros. apply (list_eq_nth _ _).
  - pose proof (zlen_nonneg b). pose proof (zlen_nonneg c). rewrite !zlen_upd; rewrite ?zlen_app, ?zlen_upd; lia.
  - intros x k K. pose proof (zlen_nonneg b). pose proof (zlen_nonneg c).
    rewrite !nth_upd by (rewrite ?zlen_app, ?zlen_upd by lia; try lia).
    rewrite zlen_app.
    destruct ((a + zlen b <=? k) && (k <? a + zlen b + zlen c)) eqn:E1.
    + replace ((a <=? k) && (k <? a + (zlen b + zlen c))) with true by lia.
      rewrite app_nth2 by (unfold zlen in *; lia). f_equal. unfold zlen in *. lia.
    + destruct ((a <=? k) && (k <? a + zlen b)) eqn:E2.
      * replace ((a <=? k) && (k <? a + (zlen b + zlen c))) with true by lia. rewrite app_nth1 by (unfold zlen in *; lia). reflexivity.
      * replace ((a <=? k) && (k <? a + (zlen b + zlen c))) with false by lia. reflexivity.
Qed.
Lemma upd_nil (m : mem) a : 0 <= a -> a <= zlen m -> upd m a [] = m.
Proof. intros. rewrite <- (slice_0 m a). apply upd_slice_id; lia. Qed.

Ltac kill_types := repeat match goal with
  | H : _ \/ _ |- _ => destruct H
  | H : _ /\ _ |- _ => destruct H
  end; try congruence; try discriminate.

Lemma firstn_slice (l : list byte) k : firstn (Z.to_nat k) l = slice l 0 k.
Proof. reflexivity. Qed.
Lemma zlen_firstn (l : list byte) k : 0 <= k -> zlen (firstn (Z.to_nat k) l) = Z.min (zlen l) k.
Proof. intro. unfold zlen. rewrite firstn_length. lia. Qed.
Lemma firstn_min (l : list byte) k : 0 <= k -> slice l 0 (Z.min (zlen l) k) = firstn (Z.to_nat k) l.
Proof.
  intro. unfold slice. cbn [Z.to_nat skipn]. destruct (Z_le_gt_dec (zlen l) k).
  - rewrite Z.min_l by lia. unfold zlen in *. rewrite Nat2Z.id, firstn_all, firstn_all2 by lia. reflexivity.
  - rewrite Z.min_r by lia. reflexivity.
Qed.

(** storing into an element of fixed size *)
Theorem set_datum_fixed t m a valid inc v : wf t -> is_bit_field t = false -> is_variable_sized_ t = false ->
  is_datum_NULL v = false -> fits t v -> points_good t v -> 0 <= a -> a + size t <= zlen m ->
  let c := sbytes t v (slice m a (size t)) in
  set_datum t m a valid inc v = Ok (true, upd m a c) /\ zlen c = size t /\ good t c.
Proof.
  intros W B F NN FT PG Ha Hl c. pose proof (size_range_nb t W B) as SR. pose proof (wf_node t W) as (_ & _ & _ & _ & _ & _ & N).
  assert (LE : forall z, zlen (enc (Z.to_nat (size t)) z) = size t) by (intro; rewrite zlen_enc; lia).
  unfold set_datum. rewrite NN. unfold is_variable_sized_type_info. rewrite F. cbn [negb].
  assert (LEAF : is_container_type_info t = false -> zlen c = size t /\ good t c).
  { intro C. assert (zlen c = size t). { unfold c, sbytes. unfold is_container_type_info in C. destruct (type t); try discriminate; apply LE. }
    split; [assumption|]. apply good_leaf; auto. }
  destruct (type t) eqn:T; try (unfold is_bit_field in B; rewrite T in B; discriminate).
  - (* UINT *)
    split; [|apply LEAF; unfold is_container_type_info; rewrite T; reflexivity].
    assert (E : uint_value v = Ok (num_of v)) by (destruct v; try discriminate; try reflexivity; cbn in FT; kill_types).
    rewrite E. cbn [bind]. rewrite wr_ok by (rewrite ?LE; lia). cbn [bind]. unfold c, sbytes. rewrite T. reflexivity.
  - split; [|apply LEAF; unfold is_container_type_info; rewrite T; reflexivity].
    assert (E : int_value v = Ok (num_of v)) by (destruct v; try discriminate; try reflexivity; cbn in FT; kill_types).
    rewrite E. cbn [bind]. rewrite wr_ok by (rewrite ?LE; lia). cbn [bind]. unfold c, sbytes. rewrite T. reflexivity.
  - split; [|apply LEAF; unfold is_container_type_info; rewrite T; reflexivity].
    assert (E : (if size t =? 4 then float_value v else double_value v) = Ok (num_of v)).
    { destruct v; try discriminate; try (cbn in FT; kill_types; fail).
      - destruct (size t =? 4); reflexivity.
      - destruct FT as [_ ->]. reflexivity.
      - destruct FT as [_ ->]. reflexivity. }
    rewrite E. cbn [bind]. rewrite wr_ok by (rewrite ?LE; lia). cbn [bind]. unfold c, sbytes. rewrite T. reflexivity.
  - split; [|apply LEAF; unfold is_container_type_info; rewrite T; reflexivity].
    assert (E : large_uint_value v = Ok (num_of v)) by (destruct v; try discriminate; try reflexivity; cbn in FT; kill_types).
    rewrite E. cbn [bind]. rewrite wr_ok by (rewrite ?LE; lia). cbn [bind]. unfold c, sbytes. rewrite T. reflexivity.
  - split; [|apply LEAF; unfold is_container_type_info; rewrite T; reflexivity].
    assert (E : large_int_value v = Ok (num_of v)) by (destruct v; try discriminate; try reflexivity; cbn in FT; kill_types).
    rewrite E. cbn [bind]. rewrite wr_ok by (rewrite ?LE; lia). cbn [bind]. unfold c, sbytes. rewrite T. reflexivity.
  - (* STRING *)
    assert (ST : string_type t) by (left; exact T).
    destruct (string_layout t W ST) as (HS & OC & VC & LV & LF & ET & SB & SS). destruct (LF F) as [PB EC].
    assert (E : exists sm so sn, string_value v = Ok (sm, so, sn) /\ str_of v = slice sm so sn /\ 0 <= so /\ 0 <= sn /\ so + sn <= zlen sm).
    { destruct v; try discriminate; try (cbn in FT; kill_types; fail).
      - exists [], 0, 0. repeat split; try lia. cbn; lia.
      - destruct FT as (_ & F1 & F2 & F3). exists m0, o, n. repeat split; auto; lia. }
    destruct E as (sm & so & sn & E & Es & E1 & E2 & E3). rewrite E. cbn [bind]. rewrite strnlen_eq by lia. cbn [bind].
    rewrite <- Es. set (str := cut0 (str_of v)) in *. set (k := Z.min (zlen str) (size t)).
    pose proof (zlen_nonneg str). assert (CL : zlen str <= sn) by (unfold str; pose proof (cut0_len (str_of v)) as CL; rewrite Es in CL at 2; rewrite zlen_slice in CL by lia; exact CL).
    assert (SK : slice sm so k = firstn (Z.to_nat (size t)) str).
    { rewrite <- firstn_min by lia. fold k. pose proof (slice_cut0 sm so sn E1 E2 E3) as SC. rewrite <- Es in SC. fold str in SC. rewrite <- SC at 1. rewrite slice_slice by lia. f_equal. lia. }
    assert (LK : zlen (firstn (Z.to_nat (size t)) str) = k) by (rewrite zlen_firstn; lia).
    assert (CE : c = firstn (Z.to_nat (size t)) str ++ zeros (size t - k)) by (unfold c, sbytes; rewrite T, F; fold str; rewrite LK; reflexivity).
    assert (LC : zlen c = size t) by (rewrite CE, zlen_app, LK, zlen_zeros; lia).
    split; [|split; [exact LC|apply (string_good t c (size t)); auto; try lia; unfold max_bytes in *; try lia; congruence]].
    rewrite memcopy_ok by lia. cbn [bind]. rewrite SK.
    destruct (k <? size t) eqn:KS.
    + rewrite memset_ok by (rewrite ?zlen_upd; lia). cbn [bind]. do 2 f_equal. rewrite CE, <- LK.
      rewrite upd_app by (rewrite ?zlen_repeat; lia). rewrite LK. reflexivity.
    + cbn [bind]. rewrite CE. replace (size t - k) with 0 by lia. change (zeros 0) with (@nil byte). rewrite app_nil_r. reflexivity.
  - (* BINARY *)
    assert (ST : string_type t) by (right; exact T).
    destruct (string_layout t W ST) as (HS & OC & VC & LV & LF & ET & SB & SS). destruct (LF F) as [PB EC].
    assert (E : exists sm so sn, string_value v = Ok (sm, so, sn) /\ str_of v = slice sm so sn /\ 0 <= so /\ 0 <= sn /\ so + sn <= zlen sm).
    { destruct v; try discriminate; try (cbn in FT; kill_types; fail).
      - exists [], 0, 0. repeat split; try lia. cbn; lia.
      - destruct FT as (_ & F1 & F2 & F3). exists m0, o, n. repeat split; auto; lia. }
    destruct E as (sm & so & sn & E & Es & E1 & E2 & E3). rewrite E. cbn [bind].
    set (str := str_of v) in *. assert (LS : zlen str = sn) by (rewrite Es; apply zlen_slice; lia).
    set (k := Z.min sn (size t)).
    assert (SK : slice sm so k = firstn (Z.to_nat (size t)) str).
    { rewrite <- firstn_min by lia. rewrite LS. fold k. rewrite Es. rewrite slice_slice by lia. f_equal. lia. }
    assert (LK : zlen (firstn (Z.to_nat (size t)) str) = k) by (rewrite zlen_firstn; lia).
    assert (CE : c = firstn (Z.to_nat (size t)) str ++ slice m (a + k) (size t - k)).
    { unfold c, sbytes. rewrite T, F. fold str. rewrite LK. f_equal. rewrite slice_slice by lia. reflexivity. }
    assert (LC : zlen c = size t) by (rewrite CE, zlen_app, LK, zlen_slice; lia).
    split; [|split; [exact LC|apply (string_good t c (size t)); auto; try lia; unfold max_bytes in *; try lia; congruence]].
    rewrite memcopy_ok by lia. cbn [bind]. do 2 f_equal. rewrite SK, CE, <- LK.
    rewrite <- upd_app by (rewrite ?zlen_slice; lia). rewrite LK.
    rewrite <- (slice_upd_dis m a (firstn (Z.to_nat (size t)) str) (a + k)) by lia.
    rewrite upd_slice_id by (rewrite ?zlen_upd; lia). reflexivity.
  - (* TUPLE *)
    destruct (is_EMPTY_DATUM v) eqn:EE.
    + destruct v; try discriminate. rewrite init_minimal_ok by auto. cbn [bind]. unfold c, sbytes. rewrite T.
      split; [reflexivity|]. split; [apply zlen_min_data; auto|apply good_min; auto].
    + destruct v; try discriminate; cbn in FT; kill_types. destruct PG as (s & G1 & G2 & G3 & G4 & G5).
      rewrite get_size_fixed in G3 by auto. injection G3 as <-. cbn [tuple_value bind]. rewrite memcopy_ok by lia. cbn [bind].
      unfold c, sbytes. rewrite T, get_size_fixed by auto. auto.
  - (* ARRAY *)
    destruct (is_EMPTY_DATUM v) eqn:EE.
    + destruct v; try discriminate. rewrite init_minimal_ok by auto. cbn [bind]. unfold c, sbytes. rewrite T.
      split; [reflexivity|]. split; [apply zlen_min_data; auto|apply good_min; auto].
    + destruct v; try discriminate; cbn in FT; kill_types. destruct PG as (s & G1 & G2 & G3 & G4 & G5).
      rewrite get_size_fixed in G3 by auto. injection G3 as <-. cbn [tuple_value bind]. rewrite memcopy_ok by lia. cbn [bind].
      unfold c, sbytes. rewrite T, get_size_fixed by auto. auto.
Qed.

(** storing into an element of variable size; [old] is its size before *)
Theorem set_datum_var t m a valid inc v old : wf t -> is_variable_sized_ t = true ->
  is_datum_NULL v = false -> fits t v -> points_good t v -> 0 <= a ->
  (if valid : bool then get_size t m a = Ok old else old = 0) ->
  let c := sbytes t v [] in
  let acc := size_acceptable t old (zlen c) inc in
  (acc = true -> a + zlen c <= zlen m) ->
  set_datum t m a valid inc v = Ok (acc, if acc then upd m a c else m)
  /\ can_set_datum t m a valid inc v = Ok acc
  /\ (acc = true -> good t c) /\ 0 <= zlen c < 4294967296.
Proof.
  intros W V NN FT PG Ha HO c acc Hl. pose proof (wf_node t W) as (_ & _ & MS & _ & _ & _ & N). pose proof (vs_range t) as VS.
  assert (OLD : (if valid then get_size t m a else Ok 0) = Ok old) by (destruct valid; congruence).
  unfold set_datum, can_set_datum. rewrite NN. unfold is_variable_sized_type_info. rewrite V. cbn [negb].
  assert (STR : string_type t -> exists sm so sn, string_value v = Ok (sm, so, sn) /\ str_of v = slice sm so sn /\ 0 <= so /\ 0 <= sn <= max_bytes /\ so + sn <= zlen sm).
  { intros ST. destruct v; try discriminate; try (cbn in FT; destruct ST; kill_types; fail).
    - exists [], 0, 0. unfold max_bytes. repeat split; try lia. cbn; lia.
    - destruct FT as (_ & F1 & F2 & F3). exists m0, o, n. repeat split; auto; lia. }
  assert (SG : forall b, string_type t -> zlen b <= max_bytes -> let c0 := enc (Z.to_nat (vs t)) (zlen b) ++ b in zlen c0 <= max_size t -> good t c0).
  { intros b ST LB c0 L0. destruct (string_layout t W ST) as (_ & _ & _ & LV & _). destruct (LV V) as [PB _].
    pose proof (zlen_nonneg b). assert (zlen c0 = vs t + zlen b) by (unfold c0; rewrite zlen_app, zlen_enc_vs; lia).
    apply (string_good t c0 (zlen b)); auto; unfold max_bytes in *; try lia; try congruence.
    intros _. split; [|lia]. unfold c0. rewrite slice_app_l by (rewrite ?zlen_enc_vs; lia). rewrite slice_all by (rewrite zlen_enc_vs; lia).
    apply dec_enc_vs. pose proof (vs_enough t W). lia. }
  assert (AM : acc = true -> zlen c <= max_size t) by (unfold acc, size_acceptable; lia).
  destruct (type t) eqn:T; try (destruct N; congruence).
  - (* STRING *)
    destruct (STR (or_introl T)) as (sm & so & sn & E & Es & E1 & E2 & E3). rewrite E. cbn [bind]. rewrite strnlen_eq by lia. cbn [bind].
    rewrite OLD. cbn [bind]. rewrite <- Es. set (str := cut0 (str_of v)) in *.
    assert (CL : 0 <= zlen str <= sn) by (split; [apply zlen_nonneg|]; unfold str; pose proof (cut0_len (str_of v)) as CL; rewrite Es in CL at 2; rewrite zlen_slice in CL by lia; exact CL).
    assert (CE : c = enc (Z.to_nat (vs t)) (zlen str) ++ str) by (unfold c, sbytes; rewrite T, V; reflexivity).
    assert (LC : zlen c = vs t + zlen str) by (rewrite CE, zlen_app, zlen_enc_vs; reflexivity).
    unfold max_bytes in *. rewrite u32_id by lia. rewrite <- LC. fold acc.
    split; [|split; [reflexivity|split; [intro A; rewrite CE; apply SG; [left; exact T|unfold max_bytes; lia|rewrite <- CE; auto]|lia]]].
    destruct acc; cbn [negb]; [|reflexivity]. specialize (Hl eq_refl).
    rewrite write_value_ok by lia. cbn [bind].
    pose proof (slice_cut0 sm so sn E1 ltac:(lia) E3) as SC. rewrite <- Es in SC. fold str in SC.
    rewrite memcopy_ok by (rewrite ?zlen_upd; rewrite ?zlen_enc_vs; lia). cbn [bind]. rewrite SC, CE.
    rewrite <- (zlen_enc_vs t (zlen str)) at 2. rewrite upd_app by (rewrite ?zlen_enc_vs; lia). reflexivity.
  - (* BINARY *)
    destruct (STR (or_intror T)) as (sm & so & sn & E & Es & E1 & E2 & E3). rewrite E. cbn [bind].
    rewrite OLD. cbn [bind]. set (str := str_of v) in *.
    assert (CL : zlen str = sn) by (rewrite Es; apply zlen_slice; lia).
    assert (CE : c = enc (Z.to_nat (vs t)) (zlen str) ++ str) by (unfold c, sbytes; rewrite T, V; reflexivity).
    assert (LC : zlen c = vs t + zlen str) by (rewrite CE, zlen_app, zlen_enc_vs; reflexivity).
    unfold max_bytes in *. rewrite u32_id by lia. rewrite <- CL. rewrite <- LC. fold acc.
    split; [|split; [reflexivity|split; [intro A; rewrite CE; apply SG; [right; exact T|unfold max_bytes; lia|rewrite <- CE; auto]|lia]]].
    destruct acc; cbn [negb]; [|reflexivity]. specialize (Hl eq_refl).
    rewrite write_value_ok by lia. cbn [bind].
    rewrite memcopy_ok by (rewrite ?zlen_upd; rewrite ?zlen_enc_vs; lia). cbn [bind]. rewrite CL at 2. rewrite <- Es, CE.
    rewrite <- (zlen_enc_vs t (zlen str)) at 2. rewrite upd_app by (rewrite ?zlen_enc_vs; lia). reflexivity.
  - (* TUPLE *)
    rewrite OLD. cbn [bind]. assert (B : is_bit_field t = false) by (unfold is_bit_field; rewrite T; reflexivity).
    destruct (is_EMPTY_DATUM v) eqn:EE.
    + destruct v; try discriminate. cbn [bind]. assert (CE : c = min_data t) by (unfold c, sbytes; rewrite T; reflexivity).
      assert (LC : zlen c = size t) by (rewrite CE; apply zlen_min_data; auto). pose proof (size_range_nb t W B). unfold max_bytes in *.
      rewrite <- LC. fold acc. split; [|split; [reflexivity|split; [intros _; rewrite CE; apply good_min; auto|lia]]].
      destruct acc; cbn [negb]; [|reflexivity]. specialize (Hl eq_refl). rewrite init_minimal_ok by (auto; lia). cbn [bind]. rewrite CE. reflexivity.
    + destruct v; try discriminate; cbn in FT; kill_types. destruct PG as (s & G1 & G2 & G3 & G4 & G5). cbn [tuple_value bind].
      assert (CE : c = slice m0 o s) by (unfold c, sbytes; rewrite T, G3; reflexivity). rewrite G3. cbn [bind].
      assert (LC : zlen c = s) by congruence. destruct (good_size _ _ G4) as (_ & _ & _ & GS & _). rewrite G5 in GS. unfold max_bytes in *.
      rewrite <- LC at 1 2. fold acc. split; [|split; [reflexivity|split; [intros _; rewrite CE; exact G4|lia]]].
      destruct acc; cbn [negb]; [|reflexivity]. specialize (Hl eq_refl). rewrite memcopy_ok by lia. cbn [bind]. rewrite CE. reflexivity.
  - (* ARRAY *)
    rewrite OLD. cbn [bind]. assert (B : is_bit_field t = false) by (unfold is_bit_field; rewrite T; reflexivity).
    destruct (is_EMPTY_DATUM v) eqn:EE.
    + destruct v; try discriminate. cbn [bind]. assert (CE : c = min_data t) by (unfold c, sbytes; rewrite T; reflexivity).
      assert (LC : zlen c = size t) by (rewrite CE; apply zlen_min_data; auto). pose proof (size_range_nb t W B). unfold max_bytes in *.
      rewrite <- LC. fold acc. split; [|split; [reflexivity|split; [intros _; rewrite CE; apply good_min; auto|lia]]].
      destruct acc; cbn [negb]; [|reflexivity]. specialize (Hl eq_refl). rewrite init_minimal_ok by (auto; lia). cbn [bind]. rewrite CE. reflexivity.
    + destruct v; try discriminate; cbn in FT; kill_types. destruct PG as (s & G1 & G2 & G3 & G4 & G5). cbn [tuple_value bind].
      assert (CE : c = slice m0 o s) by (unfold c, sbytes; rewrite T, G3; reflexivity). rewrite G3. cbn [bind].
      assert (LC : zlen c = s) by congruence. destruct (good_size _ _ G4) as (_ & _ & _ & GS & _). rewrite G5 in GS. unfold max_bytes in *.
      rewrite <- LC at 1 2. fold acc. split; [|split; [reflexivity|split; [intros _; rewrite CE; exact G4|lia]]].
      destruct acc; cbn [negb]; [|reflexivity]. specialize (Hl eq_refl). rewrite memcopy_ok by lia. cbn [bind]. rewrite CE. reflexivity.
Qed.
