(** * Well formed data, minimal data and storing one datum *)
From Verif Require Export ContainerMove.
From Coq Require Import ZifyBool ZifyNat ZifyN Zify.
Ltac Zify.zify_post_hook ::= Z.div_mod_to_equations.

(** well formed data of a type that is not a bit field, at every level *)
Inductive good : dti -> list byte -> Prop :=
| good_leaf d bs : wf d -> is_container_type_info d = false -> is_bit_field d = false -> zlen bs = size d -> good d bs
| good_con d bs es : container d -> cv d bs 0 (zlen bs) es ->
    (forall i c, 0 <= i -> nth_error es (Z.to_nat i) = Some (CBytes c) -> good (etype d i) c) -> good d bs.

Lemma container_nb d : is_container_type_info d = true -> is_bit_field d = false.
Proof. unfold is_container_type_info, is_bit_field. destruct (type d); try discriminate; reflexivity. Qed.
Lemma leaf_fixed d : wf d -> is_container_type_info d = false -> is_variable_sized_ d = false.
Proof.
  intros W C. pose proof (wf_node d W) as (_ & _ & _ & _ & _ & _ & N).
  unfold is_container_type_info in C. destruct (type d); try discriminate; apply N.
Qed.
Lemma get_size_fixed t m a : is_bit_field t = false -> is_variable_sized_ t = false -> get_size t m a = Ok (size t).
Proof.
  intros B F. unfold get_size, is_variable_sized_type_info. rewrite F. cbn [negb].
  unfold is_bit_field in B. destruct (type t); try discriminate; reflexivity.
Qed.
Lemma FS_pos d m o s es : container d -> cv d m o s es -> 1 <= FS d (zlen es).
Proof.
  intros CT V. pose proof CT as [W C]. pose proof (cv_n _ _ _ _ _ V) as CN. pose proof (cv_bounds _ _ _ _ _ CT V) as B.
  pose proof (size_range_nb d W (container_nb d C)) as SR. rewrite (min_size_FS d W C) in SR.
  pose proof (pbo_range d) as (P1 & P2 & P3 & P4 & P5 & P6). pose proof (vs_range d).
  unfold min_count in SR. destruct (is_variable_element_count d) eqn:VC.
  - specialize (P3 eq_refl). lia.
  - rewrite <- (proj2 CN VC) in SR. lia.
Qed.
Lemma fixed_FS d n : container d -> count_ok d n -> is_variable_sized_ d = false -> FS d n = size d.
Proof.
  intros [W C] CN Vd. assert (VC : is_variable_element_count d = false) by (unfold is_variable_element_count, is_variable_sized_type_info; rewrite C, Vd; reflexivity).
  rewrite (min_size_FS d W C). unfold min_count. rewrite VC, <- (proj2 CN VC). reflexivity.
Qed.
Lemma no_size_prefix d : is_container_type_info d = true -> is_variable_sized_ d = false -> has_size_in_prefix d = false.
Proof. intros C Vd. unfold has_size_in_prefix, is_variable_sized_type_info. rewrite C, Vd. reflexivity. Qed.
Lemma good_size d bs : good d bs -> wf d /\ is_bit_field d = false /\ get_size d bs 0 = Ok (zlen bs)
  /\ 1 <= zlen bs <= max_bytes /\ (is_variable_sized_ d = true -> zlen bs <= max_size d)
  /\ (is_variable_sized_ d = false -> zlen bs = size d).
Proof.
  intros [d' bs' W C B L | d' bs' es CT V _].
  - pose proof (leaf_fixed d' W C) as F. pose proof (size_range_nb d' W B). rewrite L. split; [exact W|]. split; [exact B|].
    split; [apply get_size_fixed; auto|]. split; [lia|]. split; congruence.
  - pose proof CT as [W C]. pose proof (container_nb _ C) as B. pose proof (cv_bounds _ _ _ _ _ CT V) as BB. pose proof (FS_pos _ _ _ _ _ CT V).
    split; [exact W|]. split; [exact B|]. split; [eapply cv_get_size; eassumption|]. split; [lia|]. split; [apply (cv_max _ _ _ _ _ V)|].
    intro F. pose proof (cv_tot _ _ _ _ _ V) as T. pose proof (cv_n _ _ _ _ _ V) as CN.
    pose proof (zlen_nonneg es).
    rewrite (vtot_fixed d' _ es CT CN (no_size_prefix _ C F) 0) in T by lia. rewrite (fixed_FS _ _ CT CN F) in T. lia.
Qed.

(** ** minimal data *)
Definition zeros (n : Z) : list byte := repeat Byte.x00 (Z.to_nat n).
Lemma zlen_zeros n : 0 <= n -> zlen (zeros n) = n.
Proof. intro. unfold zeros. rewrite zlen_repeat. lia. Qed.
Lemma slice_zeros n a k : 0 <= a -> 0 <= k -> a + k <= n -> slice (zeros n) a k = zeros k.
Proof. intros. unfold zeros. apply slice_repeat; lia. Qed.
Lemma bat_zeros n x : bat (zeros n) x = Byte.x00.
Proof. unfold bat, zeros. generalize (Z.to_nat x) as k. induction (Z.to_nat n) as [|j IH]; intros [|k]; cbn; auto. Qed.
Lemma dec_zeros n : dec (zeros n) = 0.
Proof. apply dec_repeat_0. Qed.

(** an element all of whose bits and bytes are zero *)
Definition zelem (t : dti) : celem :=
  if is_nullable_type_info t then CNull else if is_bit_field t then CBits 0 else CBytes (zeros (size t)).
Definition zes (d : dti) (n : Z) : list celem := map (fun k => zelem (etype d (Z.of_nat k))) (seq 0 (Z.to_nat n)).
Lemma zlen_zes d n : 0 <= n -> zlen (zes d n) = n.
Proof. intro. unfold zes, zlen. rewrite map_length, seq_length. lia. Qed.
Lemma nth_seq_map {A} (f : nat -> A) n i : (i < n)%nat -> nth_error (map f (seq 0 n)) i = Some (f i).
Proof.
  intro H. rewrite nth_error_map. assert (E : nth_error (seq 0 n) i = Some i).
  { rewrite (nth_error_nth' _ O) by (rewrite seq_length; lia). rewrite seq_nth by lia. reflexivity. }
  rewrite E. reflexivity.
Qed.
Lemma zes_nth d n i e : 0 <= i -> nth_error (zes d n) (Z.to_nat i) = Some e -> 0 <= i < n /\ e = zelem (etype d i).
Proof.
  intros I E. pose proof (znth_some _ _ _ E) as L. assert (0 <= n) by (destruct n; try lia; unfold zes in L; cbn in L; lia).
  rewrite zlen_zes in L by lia. unfold zes in E. rewrite nth_seq_map in E by lia. rewrite Z2Nat.id in E by lia. split; [lia|congruence].
Qed.
Lemma clen_zelem t : clen t (zelem t) = 0.
Proof.
  unfold clen, zelem. destruct (is_variable_sized_ t) eqn:V; [|reflexivity].
  unfold is_nullable_type_info, is_variable_sized_type_info. rewrite V. reflexivity.
Qed.
Lemma vtot_all_zero d es : (forall i e, nth_error es i = Some e -> forall t, clen t e = 0) -> forall b, vtot d b es = 0.
Proof.
  induction es as [|e es IH]; intros H b; cbn [vtot]; [reflexivity|].
  rewrite (H O e eq_refl), IH; [reflexivity|]. intros i x E. exact (H (S i) x E).
Qed.
Lemma vtot_zero d : forall es b, (forall i e, nth_error es i = Some e -> e = zelem (etype d (b + Z.of_nat i))) -> vtot d b es = 0.
Proof.
  induction es as [|e es IH]; intros b H; cbn [vtot]; [reflexivity|].
  rewrite (H O e eq_refl) at 1. rewrite Z.add_0_r, clen_zelem, IH; [reflexivity|].
  intros i x E. rewrite (H (S i) x E). do 2 f_equal. lia.
Qed.

Definition min_data (d : dti) : list byte :=
  if is_variable_sized_ d && has_size_in_prefix d then enc (Z.to_nat (vs d)) (size d) ++ zeros (size d - vs d)
  else zeros (size d).

Lemma size_ge_vs d : container d -> has_size_in_prefix d = true -> vs d <= size d.
Proof.
  intros [W C] HS. pose proof (pbo_range d) as (P1 & P2 & P3 & P4 & P5 & P6). specialize (P4 HS).
  rewrite (min_size_FS d W C). pose proof (min_count_ok d W C) as MC. pose proof MC as [R _].
  pose proof (sb_nonneg d _ (min_count d) W C MC ltac:(lia)). pose proof (ss_nonneg d _ (min_count d) W C MC ltac:(lia)).
  unfold FS, so, bitmap_size_in_bytes. lia.
Qed.
Lemma has_size_container d : has_size_in_prefix d = true -> is_container_type_info d = true /\ is_variable_sized_ d = true.
Proof.
  unfold has_size_in_prefix, is_variable_sized_type_info. destruct (is_container_type_info d); cbn [negb]; [|discriminate].
  destruct (is_variable_sized_ d); cbn [negb]; [auto|discriminate].
Qed.
Lemma zlen_min_data d : wf d -> is_bit_field d = false -> zlen (min_data d) = size d.
Proof.
  intros W B. pose proof (size_range_nb d W B). unfold min_data.
  destruct (has_size_in_prefix d) eqn:HS; [|rewrite andb_false_r; apply zlen_zeros; lia].
  destruct (has_size_container d HS) as [C Vd]. rewrite Vd. cbn [andb].
  pose proof (size_ge_vs d (conj W C) HS). rewrite zlen_app, zlen_enc_vs, zlen_zeros by lia. lia.
Qed.
Lemma init_minimal_ok d m o : wf d -> is_bit_field d = false -> 0 <= o -> o + size d <= zlen m ->
  init_minimal d m o = Ok (size d, upd m o (min_data d)).
Proof.
  intros W B Ho Hl. pose proof (size_range_nb d W B) as SR.
  assert (G : init_minimal d m o = if negb (is_variable_sized_ d) then
      let* m1 := memset m o Byte.x00 (size d) in Ok (size d, m1)
    else
      let* m1 := memset m o Byte.x00 (size d) in
      let* m2 := if has_size_in_prefix d then write_value m1 (o + 0) (max_size d) (size d) else Ok m1 in
      Ok (size d, m2)).
  { unfold init_minimal, is_variable_sized_type_info. unfold is_bit_field in B. destruct (type d); try discriminate; reflexivity. }
  rewrite G. clear G. rewrite memset_ok by lia. cbn [bind]. change (repeat Byte.x00 (Z.to_nat (size d))) with (zeros (size d)).
  unfold min_data. destruct (is_variable_sized_ d) eqn:Vd; cbn [negb andb]; [|reflexivity].
  destruct (has_size_in_prefix d) eqn:HS; cbn [bind]; [|reflexivity].
  destruct (has_size_container d HS) as [C _]. pose proof (size_ge_vs d (conj W C) HS) as GE. pose proof (vs_range d).
  assert (LZ : zlen (zeros (size d)) = size d) by (apply zlen_zeros; lia).
  rewrite Z.add_0_r, write_value_ok by (rewrite ?zlen_upd; lia). cbn [bind]. do 2 f_equal.
  assert (LE : zlen (enc (Z.to_nat (vs d)) (size d) ++ zeros (size d - vs d)) = size d) by (rewrite zlen_app, zlen_enc_vs, zlen_zeros; lia).
  rewrite (upd_split (upd m o (zeros (size d)))) by (rewrite ?zlen_upd, ?zlen_enc_vs; lia).
  rewrite (upd_split m o (enc _ _ ++ _)) by lia. rewrite !zlen_upd, zlen_enc_vs, LE by lia.
  rewrite slice_upd_dis by lia. f_equal. rewrite <- app_assoc. f_equal.
  replace (zlen m - (o + vs d)) with (size d - vs d + (zlen m - (o + size d))) by lia.
  rewrite (slice_split _ (o + vs d) (size d - vs d) (zlen m - (o + size d))) by lia.
  rewrite slice_upd_in by lia. replace (o + vs d - o) with (vs d) by lia. rewrite slice_zeros by lia. f_equal.
  replace (o + vs d + (size d - vs d)) with (o + size d) by lia. rewrite slice_upd_dis by lia. reflexivity.
Qed.

(** all bytes of the minimal data behind the size are zero *)
Definition hs (d : dti) : Z := if has_size_in_prefix d then vs d else 0.
Lemma min_data_zero d x : wf d -> is_bit_field d = false -> hs d <= x < size d -> bat (min_data d) x = Byte.x00.
Proof.
  intros W B X. unfold min_data, hs in *. destruct (has_size_in_prefix d) eqn:HS.
  - destruct (has_size_container d HS) as [_ Vd]. rewrite Vd. cbn [andb]. pose proof (vs_range d).
    unfold bat. rewrite app_nth2; rewrite enc_length; [|lia]. replace (Z.to_nat x - Z.to_nat (vs d))%nat with (Z.to_nat (x - vs d)) by lia. apply bat_zeros.
  - rewrite andb_false_r. apply bat_zeros.
Qed.
Lemma min_data_slice d a k : wf d -> is_bit_field d = false -> hs d <= a -> 0 <= k -> a + k <= size d -> slice (min_data d) a k = zeros k.
Proof.
  intros W B A K L. pose proof (zlen_min_data d W B) as ZL. assert (0 <= hs d) by (unfold hs; pose proof (vs_range d); destruct (has_size_in_prefix d); lia).
  rewrite <- (slice_zeros (size d) a k) by lia. apply bat_ext; try lia; rewrite ?zlen_zeros; try lia.
  intros x X. rewrite bat_zeros. apply min_data_zero; auto; lia.
Qed.
Lemma hs_pbo d : 0 <= hs d <= offset_of_prefix_count d.
Proof.
  pose proof (pbo_range d) as (P1 & P2 & P3 & P4 & P5 & P6). pose proof (vs_range d). unfold hs.
  destruct (has_size_in_prefix d); [specialize (P4 eq_refl)|]; lia.
Qed.

Lemma zelem_ok d m o s n i : container d -> count_ok d n -> 0 <= i < n -> wf (etype d i) ->
  (forall b, sb d i <= b < sb d i + ebits (etype d i) -> bitat m (o + pbo d) b = false) ->
  (slice m (o + so d n i) (eslot (max_size d) (etype d i)) = zeros (eslot (max_size d) (etype d i))) ->
  elem_ok d m o s n i (zelem (etype d i)).
Proof.
  intros CT CN I Wt HB HS. pose proof (ebits_parts _ Wt) as (EP1 & EP2 & EP3 & EP4). set (t := etype d i) in *.
  unfold elem_ok. fold t. unfold zelem.
  assert (NN : needs_is_valid_bit t = true -> is_nullable_type_info t = true).
  { unfold needs_is_valid_bit, is_nullable_type_info. destruct (is_variable_sized_type_info t), (is_nullable t); cbn; auto. }
  destruct (is_nullable_type_info t) eqn:Nl.
  - split; [intro Nv; specialize (EP4 Nv); cbn; apply HB; lia|]. split; [reflexivity|]. intro Vt.
    destruct (eslot_var (max_size d) t Wt Vt) as (Bt & Es & _). unfold slot. rewrite Es in HS. rewrite HS. apply dec_zeros.
  - destruct (needs_is_valid_bit t) eqn:Nv; [specialize (NN eq_refl); discriminate|]. cbn [b2n] in *.
    split; [discriminate|]. destruct (is_bit_field t) eqn:Bt.
    + specialize (EP3 eq_refl). split; [reflexivity|]. split; [split; [lia|apply Z.pow_pos_nonneg; lia]|].
      intros k K. rewrite Z.testbit_0_l. apply HB. lia.
    + assert (Ft : is_variable_sized_ t = false) by (unfold is_nullable_type_info, is_variable_sized_type_info in Nl; destruct (is_variable_sized_ t); [discriminate|reflexivity]).
      rewrite (eslot_fixed _ _ Bt Ft) in HS. pose proof (size_range_nb t Wt Bt).
      split; [reflexivity|]. split; [congruence|]. intros _. rewrite zlen_zeros by lia. auto.
Qed.
Lemma zelem_var t c : is_variable_sized_ t = true -> zelem t <> CBytes c.
Proof. intro V. unfold zelem, is_nullable_type_info, is_variable_sized_type_info. rewrite V. discriminate. Qed.

Lemma cv_min d : container d -> cv d (min_data d) 0 (size d) (zes d (min_count d)).
Proof.
  intros CT. pose proof CT as [W C]. pose proof (container_nb d C) as B. pose proof (size_range_nb d W B) as SR.
  pose proof (zlen_min_data d W B) as ZL. pose proof (min_count_ok d W C) as MC. pose proof MC as [MR MF].
  pose proof (zlen_zes d (min_count d) ltac:(lia)) as ZN.
  pose proof (pbo_range d) as (P1 & P2 & P3 & P4 & P5 & P6). pose proof (vs_range d) as VS. pose proof (hs_pbo d) as HP.
  pose proof (min_size_FS d W C) as MF'.
  constructor; rewrite ?ZN.
  - lia.
  - lia.
  - exact MC.
  - intros VC _ _. unfold min_count. rewrite VC. reflexivity.
  - intro VC. specialize (P3 VC). unfold min_count in *. rewrite VC in *.
    assert (FS d 0 = pbo d) as F0 by (unfold FS, so; rewrite sb_0, ss_0; unfold bitmap_size_in_bytes; cbn; lia).
    rewrite min_data_slice by (auto; lia). apply dec_zeros.
  - intro HS. destruct (has_size_container d HS) as [_ Vd]. unfold min_data. rewrite HS, Vd. cbn [andb].
    pose proof (size_ge_vs d CT HS). rewrite slice_app_l by (rewrite ?zlen_enc_vs; lia). rewrite slice_all by (rewrite zlen_enc_vs; lia).
    rewrite dec_enc. rewrite Z2Nat.id by lia. reflexivity.
  - intro Vd. pose proof (wf_node d W) as (_ & _ & _ & _ & _ & M & _). auto.
  - rewrite vtot_zero; [lia|]. intros i e E. destruct (zes_nth d (min_count d) (Z.of_nat i) e) as [_ ->]; [lia|rewrite Nat2Z.id; exact E|]. reflexivity.
  - intros i e I E. apply zes_nth in E; [|exact I]. destruct E as [I' ->].
    pose proof (etype_wf d _ i W C MC I') as Wt.
    pose proof (sb_before d _ i (min_count d) W C MC ltac:(lia) ltac:(lia) ltac:(lia)) as SB.
    pose proof (ss_before d _ i (min_count d) W C MC ltac:(lia) ltac:(lia) ltac:(lia)) as SS.
    pose proof (sb_nonneg d _ i W C MC ltac:(lia)). pose proof (ss_nonneg d _ i W C MC ltac:(lia)). pose proof (eslot_range (max_size d) _ Wt). pose proof (ebits_range _ Wt).
    assert (SO : so d (min_count d) i + eslot (max_size d) (etype d i) <= size d) by (rewrite MF'; unfold FS, so; lia).
    pose proof (ss_nonneg d _ (min_count d) W C MC ltac:(lia)).
    apply zelem_ok; auto.
    + intros b Hb. unfold bitat. pose proof (bitmap_bytes_bound (sb d (min_count d)) b ltac:(lia)).
      rewrite min_data_zero; auto; [apply Z.testbit_0_l|]. unfold FS, so in MF'. unfold bitmap_size_in_bytes in *. lia.
    + apply min_data_slice; auto; try lia. unfold so, bitmap_size_in_bytes. lia.
  - intros i j ci cj I J IJ Ei Ej Vi Vj. apply zes_nth in Ei; [|exact I]. destruct Ei as [_ Ei]. destruct (zelem_var _ ci Vi (eq_sym Ei)).
Qed.

Lemma min_data_fixed d : is_variable_sized_ d = false -> min_data d = zeros (size d).
Proof. intro F. unfold min_data. rewrite F. reflexivity. Qed.

Theorem good_min d : wf d -> is_bit_field d = false -> good d (min_data d).
Proof.
  induction d as [d IHc IHs] using dti_induction. intros W B.
  pose proof (zlen_min_data d W B) as ZL.
  destruct (is_container_type_info d) eqn:C; [|apply good_leaf; auto].
  apply (good_con d _ (zes d (min_count d))); [split; auto|rewrite ZL; apply cv_min; split; auto|].
  intros i c I E. apply zes_nth in E; [|exact I]. destruct E as [I' E].
  pose proof (etype_wf d _ i W C (min_count_ok d W C) I') as Wt.
  unfold zelem in E. destruct (is_nullable_type_info (etype d i)) eqn:Nl; [discriminate|]. destruct (is_bit_field (etype d i)) eqn:Bt; [discriminate|].
  injection E as ->.
  assert (Ft : is_variable_sized_ (etype d i) = false) by (unfold is_nullable_type_info, is_variable_sized_type_info in Nl; destruct (is_variable_sized_ (etype d i)); [discriminate|reflexivity]).
  rewrite <- (min_data_fixed _ Ft).
  destruct (is_container_cases d C) as [T|[NT T]].
  - unfold etype in *. rewrite T in *. pose proof (min_count_ok d W C) as MC. rewrite (tuple_count d _ T MC) in I'.
    destruct (znth_lt (containees d) i I') as [[p t] En]. rewrite En in *. apply (IHs p t); auto. eapply nth_error_In; eassumption.
  - destruct (wf_containee d W C NT) as [_ Ec]. assert (ET : etype d i = containee d) by (unfold etype; destruct (type d); congruence).
    rewrite ET in *. apply IHc; auto.
Qed.
