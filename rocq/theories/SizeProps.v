(** * Properties of tuple size definitions: C27 to C29 *)
From Verif Require Import TypeFacts.
From Coq Require Import ZifyBool ZifyNat ZifyN Zify.
Ltac Zify.zify_post_hook ::= Z.div_mod_to_equations.

(** two size definitions that no function of the API can tell apart *)
Definition same_size_def (a b : size_def) : Prop :=
  (forall m o, tuple_size b m o = tuple_size a m o)
  /\ (forall prefix, tuple_size2 b prefix = tuple_size2 a prefix)
  /\ min_tuple_size b = min_tuple_size a /\ max_tuple_size b = max_tuple_size a
  /\ is_variable_sized b = is_variable_sized a
  /\ (forall m o, init_minimal_tuple_sd b m o = init_minimal_tuple_sd a m o).

(** what a size definition made from a type looks like *)
Lemma size_def_of_type d0 t d sd : type_built t -> finalize t = (true, d) -> initialize_size_def d0 t = Some sd ->
  wf d /\ type d <> BIT_FIELD /\ sd_variable sd = is_variable_sized_ d /\ sd_size sd = size d
  /\ (is_variable_sized_ d = true -> sd_max_size sd = max_size d /\ sd_has_size sd = has_size_in_prefix d
      /\ sd_has_count sd = has_element_count_in_prefix d)
  /\ (is_variable_sized_ d = true -> has_size_in_prefix d = false ->
      has_element_count_in_prefix d = true /\ sd_containee_valid_bit sd = needs_is_valid_bit (containee d)
      /\ sd_containee_bit_field sd = is_bit_field (containee d) /\ sd_containee_size sd = size (containee d)).
Proof.
  intros B F E. destruct (built_finalized t d B F) as [W (T & _)]. split; [exact W|].
  unfold initialize_size_def in E. rewrite F in E.
  assert (N : type t <> BIT_FIELD) by (intro A; rewrite A in E; discriminate).
  split; [congruence|].
  unfold is_variable_sized_type_info in E.
  destruct (type t); try congruence;
  (destruct (is_variable_sized_ d); cbn [negb] in E;
   [ destruct (has_size_in_prefix d), (has_element_count_in_prefix d); cbn in E; try discriminate; injection E as <-; cbn; repeat split; congruence
   | destruct (size d =? 0); [discriminate|]; injection E as <-; cbn; repeat split; congruence ]).
Qed.
Lemma containee_size_range d : wf d -> is_container_type_info d = true -> type d <> TUPLE -> wf (containee d) /\ 0 <= size (containee d) <= max_bytes.
Proof.
  intros W C NT. pose proof W as W'. apply wf_unfold in W'. destruct W' as [N W'].
  destruct N as (_ & _ & _ & _ & _ & _ & N).
  assert (Wc : wf (containee d)).
  { unfold containee. unfold is_container_type_info in C. destruct (type d); try discriminate; try congruence;
    destruct (containee_ d) eqn:E; auto using uint8_wf. }
  split; [exact Wc|]. apply wf_node in Wc. destruct Wc as (_ & S0 & _ & _ & SZ & _ & K).
  unfold is_bit_field in SZ. unfold max_bytes in *. destruct (type (containee d)); cbn in SZ; try specialize (SZ eq_refl); lia.
Qed.
Lemma has_count_container d : has_element_count_in_prefix d = true -> is_container_type_info d = true /\ type d <> TUPLE.
Proof.
  unfold has_element_count_in_prefix, is_variable_element_count.
  destruct (is_container_type_info d); [|discriminate]. cbn.
  destruct (is_variable_sized_type_info d); [|discriminate]. cbn. intro A. split; [reflexivity|]. intro B. rewrite B in A. discriminate.
Qed.

(** C27: the serialized form has at most 13 bytes; read back from those bytes
    (with anything behind them) into any struct, it gives a size definition
    that behaves the same *)
Theorem C27_size_def_serialization d0 t d sd : type_built t -> finalize t = (true, d) -> initialize_size_def d0 t = Some sd ->
  let bytes := serialize_size_def sd in
  zlen bytes <= 13
  /\ forall any rest n, zlen bytes <= n <= zlen (bytes ++ rest) ->
     exists sd', deserialize_size_def any (bytes ++ rest) n = Ok (Some sd') /\ same_size_def sd sd'.
Proof.
  intros B F E bytes.
  destruct (size_def_of_type d0 t d sd B F E) as (W & NB & V & S & M & C).
  pose proof (wf_node d W) as (_ & S0 & MS & _ & SZ & _ & _).
  assert (SZ' : 0 <= size d < 4294967296).
  { assert (is_bit_field d = false) as Q by (unfold is_bit_field; destruct (type d); try reflexivity; congruence).
    specialize (SZ Q). unfold max_bytes in SZ. lia. }
  assert (C' : is_variable_sized_ d = true -> has_size_in_prefix d = false -> 0 <= size (containee d) < 4294967296).
  { intros A A'. destruct (C A A') as (H & _). apply has_count_container in H.
    destruct (containee_size_range d W) as [_ R]; try tauto. unfold max_bytes in R. lia. }
  unfold max_bytes in MS. clear SZ.
  assert (D4 : forall v, 0 <= v < 4294967296 -> dec (enc 4 v) = v) by (intros; apply dec_enc_id; change (256 ^ Z.of_nat 4) with 4294967296; lia).
  assert (R : forall (l1 l2 l3 : list byte) o n, zlen l1 = o -> zlen l2 = n -> rd (l1 ++ l2 ++ l3) o n = Ok l2).
  { intros l1 l2 l3 o n <- <-. rewrite rd_ok; rewrite ?zlen_app; pose proof (zlen_nonneg l1); pose proof (zlen_nonneg l2); pose proof (zlen_nonneg l3); try lia.
    f_equal. rewrite slice_app_r by lia. rewrite Z.sub_diag. rewrite slice_app_l by lia. apply slice_all. reflexivity. }
  assert (Rb : forall b l, rd (b :: l) 0 1 = Ok [b]) by (intros b l; exact (R [] [b] l 0 1 eq_refl eq_refl)).
  assert (Rc : forall b (l2 l3 : list byte) n, zlen l2 = n -> rd (b :: l2 ++ l3) 1 n = Ok l2) by (intros b l2 l3 n; exact (R [b] l2 l3 1 n eq_refl)).
  destruct sd as [v sz ms hs hc cv cb cs]. cbn [sd_variable sd_size sd_max_size sd_has_size sd_has_count sd_containee_valid_bit sd_containee_bit_field sd_containee_size] in *.
  subst v sz. unfold bytes; clear bytes.
  unfold serialize_size_def. cbn [sd_variable sd_size sd_max_size sd_has_size sd_has_count sd_containee_valid_bit sd_containee_bit_field sd_containee_size].
  destruct (is_variable_sized_ d) eqn:Vd; cbn [negb].
  2: { split. { rewrite zlen_cons, zlen_enc. lia. }
    intros any rest n Hn. rewrite zlen_app, !zlen_cons, !zlen_enc in Hn. pose proof (zlen_nonneg rest).
    unfold deserialize_size_def. destruct (n =? 0) eqn:N0; [lia|].
    cbn [app]. rewrite Rb. cbn [bind].
    change (Z.testbit (dec [z2b 0]) 0) with false. cbn [negb].
    destruct (n <? 1 + 4) eqn:N1; [lia|].
    rewrite Rc by reflexivity. cbn [bind]. rewrite D4 by lia.
    eexists. split; [reflexivity|]. repeat split; intros; unfold tuple_size, tuple_size2, init_minimal_tuple_sd; reflexivity. }
  destruct (M eq_refl) as (-> & -> & ->). clear M.
  destruct (has_size_in_prefix d) eqn:HS.
  - split. { rewrite zlen_cons, zlen_app, !zlen_enc. lia. }
    intros any rest n Hn. rewrite zlen_app, !zlen_cons, zlen_app, !zlen_enc in Hn. pose proof (zlen_nonneg rest).
    unfold deserialize_size_def. destruct (n =? 0) eqn:N0; [lia|].
    cbn [app]. rewrite <- !app_assoc.
    set (b0 := z2b _). rewrite Rb. cbn [bind].
    assert (F0 : Z.testbit (dec [b0]) 0 = true /\ Z.testbit (dec [b0]) 1 = true /\ Z.testbit (dec [b0]) 2 = has_element_count_in_prefix d).
    { subst b0. destruct (has_element_count_in_prefix d); repeat split. }
    destruct F0 as (-> & -> & ->). cbn [negb].
    destruct (n <? 1 + 8) eqn:N1; [lia|].
    rewrite Rc by reflexivity. cbn [bind].
    change (b0 :: enc 4 (size d) ++ enc 4 (max_size d) ++ rest) with ((b0 :: enc 4 (size d)) ++ enc 4 (max_size d) ++ rest).
    rewrite (R (b0 :: enc 4 (size d)) (enc 4 (max_size d)) _ 5 4) by reflexivity. cbn [bind].
    rewrite !D4 by lia.
    eexists. split; [reflexivity|]. repeat split; intros; unfold tuple_size, tuple_size2, init_minimal_tuple_sd; reflexivity.
  - destruct (C eq_refl eq_refl) as (HC & -> & -> & ->). specialize (C' eq_refl eq_refl).
    split. { rewrite zlen_cons, !zlen_app, !zlen_enc. lia. }
    intros any rest n Hn. rewrite zlen_app, !zlen_cons, !zlen_app, !zlen_enc in Hn. pose proof (zlen_nonneg rest).
    unfold deserialize_size_def. destruct (n =? 0) eqn:N0; [lia|].
    cbn [app]. rewrite <- !app_assoc.
    set (b0 := z2b _). rewrite Rb. cbn [bind].
    assert (F0 : Z.testbit (dec [b0]) 0 = true /\ Z.testbit (dec [b0]) 1 = false /\ Z.testbit (dec [b0]) 2 = true
                 /\ Z.testbit (dec [b0]) 3 = needs_is_valid_bit (containee d) /\ Z.testbit (dec [b0]) 4 = is_bit_field (containee d)).
    { subst b0. rewrite HC. destruct (needs_is_valid_bit (containee d)), (is_bit_field (containee d)); repeat split. }
    destruct F0 as (-> & -> & -> & -> & ->). cbn [negb].
    destruct (n <? 1 + 8) eqn:N1; [lia|]. destruct (n <? 9 + 4) eqn:N2; [lia|].
    rewrite Rc by reflexivity. cbn [bind].
    change (b0 :: enc 4 (size d) ++ enc 4 (max_size d) ++ enc 4 (size (containee d)) ++ rest)
      with ((b0 :: enc 4 (size d)) ++ enc 4 (max_size d) ++ enc 4 (size (containee d)) ++ rest).
    rewrite (R (b0 :: enc 4 (size d)) (enc 4 (max_size d)) _ 5 4) by reflexivity. cbn [bind].
    rewrite app_assoc. rewrite (R ((b0 :: enc 4 (size d)) ++ enc 4 (max_size d)) (enc 4 (size (containee d))) _ 9 4) by reflexivity. cbn [bind].
    rewrite !D4 by lia. rewrite HC.
    eexists. split; [reflexivity|]. repeat split; intros; unfold tuple_size, tuple_size2, init_minimal_tuple_sd; reflexivity.
Qed.
Print Assumptions C27_size_def_serialization.

(** C28: reading a size definition from [n] bytes never reads another byte:
    whatever the bytes are it ends with success or failure, and bytes after
    the first [n] do not influence the result *)
Theorem C28_size_def_deserialization_in_bounds any m n : 0 <= n <= zlen m ->
  (exists r, deserialize_size_def any m n = Ok r)
  /\ (forall m', n <= zlen m' -> slice m' 0 n = slice m 0 n -> deserialize_size_def any m' n = deserialize_size_def any m n).
Proof.
  intros Hn. unfold deserialize_size_def. destruct (n =? 0) eqn:N0; [split; [eauto|reflexivity]|].
  assert (R : forall m0 o k, n <= zlen m0 -> 0 <= o -> 0 <= k -> o + k <= n -> rd m0 o k = Ok (slice (slice m0 0 n) o k)).
  { intros. rewrite rd_ok by lia. rewrite slice_slice by lia. reflexivity. }
  split.
  - rewrite !(R m) by lia. cbn [bind].
    destruct (Z.testbit _ 0); cbn [negb].
    + destruct (n <? 1 + 8) eqn:N1; [eauto|]. rewrite !(R m) by lia. cbn [bind].
      destruct (Z.testbit _ 1); [eauto|]. destruct (n <? 9 + 4) eqn:N2; [eauto|]. rewrite !(R m) by lia. cbn [bind]. eauto.
    + destruct (n <? 1 + 4) eqn:N1; [eauto|]. rewrite !(R m) by lia. cbn [bind]. eauto.
  - intros m' Hm' E. rewrite !(R m 0), !(R m' 0), E by lia. cbn [bind].
    destruct (Z.testbit _ 0); cbn [negb].
    + destruct (n <? 1 + 8) eqn:N1; [reflexivity|]. rewrite !(R m 1), !(R m 5), !(R m' 1), !(R m' 5), E by lia. cbn [bind].
      destruct (Z.testbit _ 1); [reflexivity|]. destruct (n <? 9 + 4) eqn:N2; [reflexivity|]. rewrite !(R m 9), !(R m' 9), E by lia. reflexivity.
    + destruct (n <? 1 + 4) eqn:N1; [reflexivity|]. rewrite !(R m 1), !(R m' 1), E by lia. reflexivity.
Qed.
Print Assumptions C28_size_def_deserialization_in_bounds.

(** C29: for a tuple at offset [o] of any buffer, the size definition and the
    type compute the same size *)
Theorem C29_same_size d0 t d sd : type_built t -> finalize t = (true, d) -> initialize_size_def d0 t = Some sd ->
  forall m o, tuple_size sd m o = get_size d m o.
Proof.
  intros B F E m o. destruct (size_def_of_type d0 t d sd B F E) as (W & NB & V & S & M & C).
  unfold tuple_size, get_size. rewrite V, S. unfold is_variable_sized_type_info.
  destruct (is_variable_sized_ d); cbn [negb]; [|destruct (type d); congruence].
  destruct (M eq_refl) as (-> & -> & HC).
  destruct (has_size_in_prefix d) eqn:HS; [destruct (type d); congruence|].
  destruct (C eq_refl eq_refl) as (HC' & -> & -> & ->).
  assert (offset_of_prefix_count d = 0) as ->. { unfold offset_of_prefix_count, bytes_for_prefix_size. rewrite HS. cbn. lia. }
  rewrite Z.add_0_r.
  unfold is_bit_field. destruct (type d); try congruence; destruct (type (containee d)); reflexivity.
Qed.
Print Assumptions C29_same_size.

(** C29: the size is determined by the first 4 bytes at most: any two buffers
    that agree there give the same size; a fixed size type reads nothing *)
Theorem C29_size_prefix_only d0 t sd : type_built t -> initialize_size_def d0 t = Some sd ->
  let k := if is_variable_sized sd then value_size (max_tuple_size sd) else 0 in
  0 <= k <= 4
  /\ forall m o m' o', 0 <= o -> o + k <= zlen m -> 0 <= o' -> o' + k <= zlen m' -> slice m o k = slice m' o' k ->
     exists s, tuple_size sd m o = Ok s /\ tuple_size sd m' o' = Ok s.
Proof.
  intros B E k. subst k. unfold is_variable_sized, max_tuple_size.
  pose proof (value_size_range (sd_max_size sd)) as R.
  destruct (sd_variable sd) eqn:V; cbn [negb].
  2: { split; [lia|]. intros. unfold tuple_size. rewrite V. cbn. eauto. }
  split; [lia|]. intros m o m' o' H1 H2 H3 H4 HE.
  unfold tuple_size. rewrite V. cbn [negb]. unfold read_value. rewrite !rd_ok by lia. rewrite HE. cbn [bind].
  destruct (sd_has_size sd); [eauto|]. destruct (sd_containee_bit_field sd); eauto.
Qed.
Print Assumptions C29_size_prefix_only.

(** C29, streaming: the callback can deliver the first [avail] bytes of the
    tuple at [o]: enough bytes give the size, too few give 0, the answer that
    no tuple has *)
Theorem C29_streaming d0 t d sd m o avail : type_built t -> finalize t = (true, d) -> initialize_size_def d0 t = Some sd ->
  0 <= o -> 0 <= avail -> o + avail <= zlen m ->
  let k := if is_variable_sized sd then value_size (max_tuple_size sd) else 0 in
  (k <= avail -> exists s, tuple_size2 sd (fun n => slice m o (Z.min n avail)) = Ok s /\ get_size d m o = Ok s)
  /\ (avail < k -> tuple_size2 sd (fun n => slice m o (Z.min n avail)) = Ok 0).
Proof.
  intros B F E Ho Ha Hm k. rewrite <- (C29_same_size d0 t d sd B F E). subst k.
  unfold is_variable_sized, max_tuple_size. pose proof (value_size_range (sd_max_size sd)) as R.
  unfold tuple_size2, tuple_size. destruct (sd_variable sd) eqn:V; cbn [negb].
  2: { split; [eauto|lia]. }
  set (k := value_size (sd_max_size sd)) in *.
  assert (L : zlen (slice m o (Z.min k avail)) = Z.min k avail) by (apply zlen_slice; lia).
  assert (Q : firstn (Z.to_nat k) (slice m o (Z.min k avail)) = slice m o (Z.min k avail)).
  { apply firstn_all2. unfold zlen in L. lia. }
  rewrite Q, L. rewrite wr_ok by (rewrite ?L; change (zlen (repeat Byte.x00 4)) with 4; lia). cbn [bind].
  split; intro H.
  - destruct (Z.min k avail <? k) eqn:H1; [lia|].
    assert (Z.min k avail = k) as -> by lia.
    assert (RV : read_value (upd (repeat Byte.x00 4) 0 (slice m o k)) 0 (sd_max_size sd) = read_value m o (sd_max_size sd)).
    { unfold read_value. fold k.
      assert (L4 : zlen (repeat Byte.x00 4) = 4) by reflexivity.
      assert (Lk : zlen (slice m o k) = k) by (apply zlen_slice; lia).
      assert (Lu : zlen (upd (repeat Byte.x00 4) 0 (slice m o k)) = 4) by (rewrite zlen_upd; lia).
      rewrite !rd_ok by lia. rewrite slice_upd_same' by lia. reflexivity. }
    rewrite RV. unfold read_value. rewrite rd_ok by (fold k; lia). cbn [bind].
    destruct (sd_has_size sd); [eauto|]. destruct (sd_containee_bit_field sd); eauto.
  - destruct (Z.min k avail <? k) eqn:H1; [reflexivity|lia].
Qed.
Print Assumptions C29_streaming.

(** ** the hypotheses are met: a nullable 3 bit field, a variable length string
    and an array of 5 byte integers inside a tuple; a string; a fixed tuple *)
Definition num (ty : data_type) (nullable : bool) (sz : Z) : dti := mk_dti false [] ty nullable false sz 0 false 0 0 None [].
Definition var_string (ms : Z) : dti := mk_dti false [] STRING false false 0 ms true 0 0 None [].
Definition var_array (ms : Z) (c : dti) : dti := mk_dti false [] ARRAY false false 0 ms true 0 0 (Some c) [].
Definition tup (ms : Z) (cs : list dti) : dti := mk_dti false [] TUPLE false false 0 ms false 0 0 None (map (fun c => (mk_position [] 0 0, c)) cs).
Definition ex_tuple : dti := tup 1000 [num BIT_FIELD true 3; var_string 300; num INT true 4; var_array 200 (num UINT true 5)].
Ltac build := repeat first
  [ apply tb_new; [reflexivity | cbn; unfold max_bytes; repeat split; intros; try discriminate; try lia; vm_compute; try discriminate
    | discriminate | intros ? ? ?; discriminate || (match goal with H : _ = Some _ |- _ => injection H as <- end)
    | intros ? ? ? I; try discriminate; cbn in I; repeat (destruct I as [I|I]; [injection I as <- <- | ]); try contradiction ]
  | intros ? ? ?; congruence ].
Example ex_built : type_built ex_tuple.
Proof. unfold ex_tuple, tup, num, var_string, var_array. cbn [map]. build; congruence. Qed.
Definition sd0 : size_def := mk_size_def false 0 0 false false false false 0.
Example ex_finalizes : fst (finalize ex_tuple) = true.
Proof. vm_compute. reflexivity. Qed.
Example ex_size_def : initialize_size_def sd0 ex_tuple = Some (mk_size_def true 11 1000 true false false false 0).
Proof. vm_compute. reflexivity. Qed.
Example ex_size_def_bytes :
  serialize_size_def (mk_size_def true 11 1000 true false false false 0) = map z2b [3; 11; 0; 0; 0; 232; 3; 0; 0].
Proof. vm_compute. reflexivity. Qed.
