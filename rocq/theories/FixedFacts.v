(** * Fixed array pages: representation and one-step lemmas *)
From Coq Require Import ZifyBool ZifyNat ZifyN Zify.
From Verif Require Import BytesFacts SpecFacts.
From Verif Require Export FixedArray SlottedOps3.
Ltac Zify.zify_post_hook ::= Z.div_mod_to_equations.

(** the number of slots of a fixed array page *)
Definition fcap (ps h s : Z) : Z := (ps - (3 * value_size ps + h)) * 8 / (s * 8 + 1).
(** the offset of the first slot *)
Definition ftup (ps h s : Z) : Z := 3 * value_size ps + h + bitmap_size_in_bytes (fcap ps h s).

Section Page.
Variable ps : Z.
Variable d : size_def.
Hypothesis Hps : 128 <= ps <= max_bytes.
Hypothesis Hdef : def_ok d.
Hypothesis Hfix : sd_variable d = false.
Notation vs := (value_size ps).
Notation vsn := (Z.to_nat (value_size ps)).
Notation s := (sd_size d).
Notation cap hb := (fcap ps (zlen hb) (sd_size d)).
Notation V hb := (3 * value_size ps + zlen hb).
Notation T hb := (ftup ps (zlen hb) (sd_size d)).

Lemma vs_r : 1 <= vs <= 4. Proof. apply value_size_range. Qed.
Lemma s_r : 1 <= s <= max_bytes.
Proof. destruct Hdef as [H1 H2]. unfold max_tuple_size in *. rewrite Hfix in *. cbn in *. lia. Qed.

Lemma fcap_facts h : 0 <= h -> 3 * vs + h <= ps ->
  0 <= fcap ps h s /\ ftup ps h s + fcap ps h s * s <= ps /\ fcap ps h s < ps /\ 3 * vs + h <= ftup ps h s.
Proof.
  intros Hh Hb. pose proof s_r. pose proof vs_r. unfold ftup, fcap, bitmap_size_in_bytes.
  set (a := ps - (3 * vs + h)). assert (Ha : 0 <= a) by (unfold a; lia).
  assert (H1 : 0 <= a * 8 / (s * 8 + 1)) by (apply Z.div_pos; lia).
  pose proof (Z.mul_div_le (a * 8) (s * 8 + 1) ltac:(lia)) as H2.
  set (c := a * 8 / (s * 8 + 1)) in *.
  assert (H3 : 8 * (c * s) + c <= 8 * a) by (ring_simplify in H2; ring_simplify; lia).
  assert (H4 : (c + 7) / 8 <= a - c * s) by lia.
  assert (0 <= c * s) by (apply Z.mul_nonneg_nonneg; lia).
  assert (c <= c * s) by nia.
  unfold a in *. lia.
Qed.

Lemma mul_s i j : i <= j -> i * s <= j * s.
Proof. intro. pose proof s_r. apply Z.mul_le_mono_nonneg_r; lia. Qed.

Record fraw (p : mem) (hb : list byte) (tc ts : Z) (B : Z -> bool) (D : Z -> list byte) : Prop := {
  f_len : zlen p = ps;
  f_bound : V hb <= ps;
  f_hsize : slice p 0 vs = enc vsn (zlen hb);
  f_hdr : slice p vs (zlen hb) = hb;
  f_tc : slice p (vs + zlen hb) vs = enc vsn tc;
  f_ts : slice p (2 * vs + zlen hb) vs = enc vsn ts;
  f_bits : forall i, 0 <= i < cap hb -> bitat p (V hb) i = B i;
  f_dat : forall i, 0 <= i < cap hb -> slice p (T hb + i * s) s = D i
}.

Section Raw.
Variables (p : mem) (hb : list byte) (tc ts : Z) (B : Z -> bool) (D : Z -> list byte).
Hypothesis R : fraw p hb tc ts B D.

Local Ltac rr := pose proof (f_len _ _ _ _ _ _ R); pose proof (f_bound _ _ _ _ _ _ R);
  pose proof (zlen_nonneg hb); pose proof vs_r; pose proof s_r; pose proof (ps_lt ps Hps);
  pose proof (fcap_facts (zlen hb) ltac:(lia) ltac:(lia)) as (?C0 & ?C1 & ?C2 & ?C3);
  pose proof (eq_refl : max_bytes = 2147483520).

(** room of slot [i] *)
Lemma slot_in i : 0 <= i < cap hb -> T hb <= T hb + i * s /\ T hb + i * s + s <= ps /\
  V hb + i / 8 < T hb.
Proof.
  intro Hi. rr. pose proof (mul_s 0 i ltac:(lia)). pose proof (mul_s (i + 1) (cap hb) ltac:(lia)).
  pose proof (bitmap_bytes_bound _ _ Hi). unfold ftup in *. lia.
Qed.

Lemma f_header_size : get_page_header_size p ps = Ok (zlen hb).
Proof. rr. unfold get_page_header_size. apply (rv_ok ps Hps); try lia. apply R. Qed.
Lemma f_off1 : fa_off_tuple_count p ps = Ok (vs + zlen hb).
Proof. rr. unfold fa_off_tuple_count, offset_end_of_header. rewrite f_header_size. cbn [bind]. rewrite u32_id by lia. reflexivity. Qed.
Lemma f_off2 : fa_off_tomb_stone_count p ps = Ok (2 * vs + zlen hb).
Proof. rr. unfold fa_off_tomb_stone_count. rewrite f_off1. cbn [bind]. rewrite u32_id by lia. f_equal. lia. Qed.
Lemma f_off3 : fa_off_is_valid p ps = Ok (V hb).
Proof. rr. unfold fa_off_is_valid. rewrite f_off2. cbn [bind]. rewrite u32_id by lia. f_equal. lia. Qed.
Lemma f_cap : fa_capacity p ps d = Ok (cap hb).
Proof.
  rr. unfold fa_capacity. rewrite f_off3. cbn [bind]. rewrite u32_id by lia. unfold capacity_of.
  rewrite !u64_id by lia. unfold fcap in *. rewrite u32_id by lia. reflexivity.
Qed.
Lemma f_off4 : fa_off_tuples p ps d = Ok (T hb).
Proof.
  rr. unfold fa_off_tuples. rewrite f_off3. cbn [bind]. rewrite f_cap. cbn [bind]. unfold ftup in *.
  pose proof (mul_s 0 (cap hb) ltac:(lia)).
  rewrite u32_id by lia. reflexivity.
Qed.
Lemma f_off_ith i : 0 <= i <= cap hb -> fa_off_ith p ps d i = Ok (T hb + i * s).
Proof.
  intro Hi. rr. unfold fa_off_ith. rewrite f_off4. cbn [bind].
  pose proof (mul_s 0 i ltac:(lia)). pose proof (mul_s i (cap hb) ltac:(lia)).
  rewrite u32_id by lia. reflexivity.
Qed.
Lemma f_read_tc : 0 <= tc < ps -> read_value p (vs + zlen hb) ps = Ok tc.
Proof. intro. rr. apply (rv_ok ps Hps); try lia. apply R. Qed.
Lemma f_read_ts : 0 <= ts < ps -> read_value p (2 * vs + zlen hb) ps = Ok ts.
Proof. intro. rr. apply (rv_ok ps Hps); try lia. apply R. Qed.
Lemma f_tuple_count : 0 <= tc < ps -> fa_tuple_count p ps = Ok tc.
Proof. intro. unfold fa_tuple_count. rewrite f_off1. cbn [bind]. apply f_read_tc; assumption. Qed.
Lemma f_tomb_stone_count : 0 <= ts < ps -> fa_tomb_stone_count p ps = Ok ts.
Proof. intro. unfold fa_tomb_stone_count. rewrite f_off2. cbn [bind]. apply f_read_ts; assumption. Qed.
Lemma f_get_bit i : 0 <= i < cap hb -> get_bit p (V hb) i = Ok (B i).
Proof.
  intro Hi. rr. pose proof (slot_in i Hi). rewrite get_bit_ok by lia. f_equal. apply R. exact Hi.
Qed.

(** stores *)
Lemma f_wr_tc v : exists p', write_value p (vs + zlen hb) ps v = Ok p' /\ fraw p' hb v ts B D.
Proof.
  rr. eexists. split; [apply (wv_ok ps); lia|].
  constructor; rewrite ?zlen_upd; rewrite ?(zlen_encv ps); try lia.
  all: try (rewrite slice_upd_dis by (rewrite ?(zlen_encv ps); lia); apply R).
  - apply slice_upd_same'; rewrite ?(zlen_encv ps); lia.
  - intros i Hi. pose proof (slot_in i Hi). rewrite bitat_upd_dis by (rewrite ?(zlen_encv ps); lia). apply R; lia.
  - intros i Hi. pose proof (slot_in i Hi). rewrite slice_upd_dis by (rewrite ?(zlen_encv ps); lia). apply R; lia.
Qed.
Lemma f_wr_ts v : exists p', write_value p (2 * vs + zlen hb) ps v = Ok p' /\ fraw p' hb tc v B D.
Proof.
  rr. eexists. split; [apply (wv_ok ps); lia|].
  constructor; rewrite ?zlen_upd; rewrite ?(zlen_encv ps); try lia.
  all: try (rewrite slice_upd_dis by (rewrite ?(zlen_encv ps); lia); apply R).
  - apply slice_upd_same'; rewrite ?(zlen_encv ps); lia.
  - intros i Hi. pose proof (slot_in i Hi). rewrite bitat_upd_dis by (rewrite ?(zlen_encv ps); lia). apply R; lia.
  - intros i Hi. pose proof (slot_in i Hi). rewrite slice_upd_dis by (rewrite ?(zlen_encv ps); lia). apply R; lia.
Qed.
Lemma f_bump_ts dl : 0 <= ts < ps -> 0 <= ts + dl < 4294967296 ->
  exists p', bump p (2 * vs + zlen hb) ps dl = Ok p' /\ fraw p' hb tc (ts + dl) B D.
Proof.
  intros H1 H2. unfold bump. rewrite f_read_ts by assumption. cbn [bind]. rewrite u32_id by lia. apply f_wr_ts.
Qed.
Lemma f_put_bit i b : 0 <= i < cap hb ->
  exists p', put_bit p (V hb) i b = Ok p' /\ fraw p' hb tc ts (fun j => if j =? i then b else B j) D.
Proof.
  intro Hi. rr. pose proof (slot_in i Hi). eexists. split; [apply put_bit_ok; lia|].
  constructor; rewrite ?zlen_put_bit; try lia.
  all: try (rewrite slice_put_bit_dis by lia; apply R).
  - intros j Hj. pose proof (slot_in j Hj). rewrite bitat_put by lia. destruct (j =? i); [reflexivity|]. apply R; lia.
  - intros j Hj. pose proof (slot_in j Hj). rewrite slice_put_bit_dis by lia. apply R; lia.
Qed.

(** a store of whole slots [a, a + k): the slots become [D'] there *)
Lemma f_wr_slots a k bs D' : 0 <= a -> 0 <= k -> a + k <= cap hb -> zlen bs = k * s ->
  (forall j, 0 <= j < k -> slice bs (j * s) s = D' (a + j)) ->
  (forall j, 0 <= j < cap hb -> (j < a \/ a + k <= j) -> D' j = D j) ->
  fraw (upd p (T hb + a * s) bs) hb tc ts B D'.
Proof.
  intros Ha Hk Hc Hl Hin Hout. rr.
  pose proof (mul_s 0 a ltac:(lia)). pose proof (mul_s (a + k) (cap hb) ltac:(lia)).
  constructor; rewrite ?zlen_upd; try lia.
  all: try (rewrite slice_upd_dis by lia; apply R).
  - intros j Hj. pose proof (slot_in j Hj). rewrite bitat_upd_dis by lia. apply R; lia.
  - intros j Hj. pose proof (slot_in j Hj).
    destruct (Z.lt_ge_cases j a); [|destruct (Z.lt_ge_cases j (a + k))].
    + pose proof (mul_s (j + 1) a ltac:(lia)). rewrite slice_upd_dis by lia. rewrite Hout by lia. apply R; lia.
    + pose proof (mul_s a j ltac:(lia)). pose proof (mul_s (j + 1) (a + k) ltac:(lia)).
      rewrite slice_upd_in by lia. replace (T hb + j * s - (T hb + a * s)) with ((j - a) * s) by lia.
      rewrite Hin by lia. f_equal. lia.
    + pose proof (mul_s (a + k) j ltac:(lia)). rewrite slice_upd_dis by lia. rewrite Hout by lia. apply R; lia.
Qed.

Lemma f_copy i t : 0 <= i < cap hb -> zlen t = s ->
  exists p', memcopy p (T hb + i * s) t 0 s = Ok p' /\ fraw p' hb tc ts B (fun j => if j =? i then t else D j).
Proof.
  intros Hi Hl. rr. pose proof (slot_in i Hi). rewrite memcopy_ok by lia. eexists. split; [reflexivity|].
  rewrite slice_all by lia. apply f_wr_slots with (k := 1); try lia.
  - intros j Hj. replace j with 0 by lia. rewrite Z.add_0_r, Z.eqb_refl, Z.mul_0_l. apply slice_all. lia.
  - intros j Hj Hne. destruct (Z.eqb_spec j i); [lia|reflexivity].
Qed.
Lemma f_move i k : 0 <= i < cap hb -> 0 <= k < cap hb ->
  exists p', memmove p (T hb + i * s) (T hb + k * s) s = Ok p' /\ fraw p' hb tc ts B (fun j => if j =? i then D k else D j).
Proof.
  intros Hi Hk. rr. pose proof (slot_in i Hi). pose proof (slot_in k Hk). rewrite memmove_ok by lia. eexists. split; [reflexivity|].
  assert (zlen (slice p (T hb + k * s) s) = s) by (apply zlen_slice; lia).
  apply f_wr_slots with (k := 1); try lia.
  - intros j Hj. replace j with 0 by lia. rewrite Z.add_0_r, Z.eqb_refl, Z.mul_0_l. rewrite slice_all by lia. apply R; lia.
  - intros j Hj Hne. destruct (Z.eqb_spec j i); [lia|reflexivity].
Qed.
End Raw.

Arguments f_len {p hb tc ts B D} _.
Arguments f_bound {p hb tc ts B D} _.
Arguments f_dat {p hb tc ts B D} _.
Arguments f_bits {p hb tc ts B D} _.

Ltac rr R := pose proof (f_len R); pose proof (f_bound R);
  match type of R with fraw _ ?hb _ _ _ _ =>
  pose proof (zlen_nonneg hb); pose proof vs_r; pose proof s_r; pose proof (ps_lt ps Hps);
  pose proof (fcap_facts (zlen hb) ltac:(lia) ltac:(lia)) as (?C0 & ?C1 & ?C2 & ?C3) end;
  pose proof (eq_refl : max_bytes = 2147483520).

Lemma fraw_ext p hb tc ts B D tc' ts' B' D' : fraw p hb tc ts B D -> tc = tc' -> ts = ts' ->
  (forall i, 0 <= i < cap hb -> B i = B' i) -> (forall i, 0 <= i < cap hb -> D i = D' i) ->
  fraw p hb tc' ts' B' D'.
Proof.
  intros R -> -> HB HD. constructor; try apply R.
  - intros i Hi. rewrite (f_bits R) by lia. auto.
  - intros i Hi. rewrite (f_dat R) by lia. auto.
Qed.

Lemma f_swap p hb tc ts B D i k : fraw p hb tc ts B D -> 0 <= i < cap hb -> 0 <= k < cap hb -> i <> k ->
  exists p', mem_swap p (T hb + i * s) (T hb + k * s) s = Ok p' /\
    fraw p' hb tc ts B (fun j => if j =? i then D k else if j =? k then D i else D j).
Proof.
  intros R Hi Hk Hne. rr R. pose proof (slot_in _ _ _ _ _ _ R i Hi). pose proof (slot_in _ _ _ _ _ _ R k Hk).
  unfold mem_swap. rewrite !rd_ok by lia. cbn [bind].
  rewrite (f_dat R) by lia. rewrite (f_dat R) by lia.
  assert (L1 : zlen (D i) = s) by (rewrite <- (f_dat R) by lia; apply zlen_slice; lia).
  assert (L2 : zlen (D k) = s) by (rewrite <- (f_dat R) by lia; apply zlen_slice; lia).
  rewrite wr_ok by lia. cbn [bind].
  assert (R1 : fraw (upd p (T hb + i * s) (D k)) hb tc ts B (fun j => if j =? i then D k else D j)).
  { apply (f_wr_slots _ _ _ _ _ _ R i 1); try lia.
    - intros j Hj. replace j with 0 by lia. rewrite Z.add_0_r, Z.eqb_refl, Z.mul_0_l. apply slice_all. lia.
    - intros j Hj Hn. destruct (Z.eqb_spec j i); [lia|reflexivity]. }
  rewrite wr_ok by (rewrite ?(f_len R1); lia). eexists. split; [reflexivity|].
  apply (f_wr_slots _ _ _ _ _ _ R1 k 1); try lia.
  - intros j Hj. replace j with 0 by lia. rewrite Z.add_0_r, Z.eqb_refl, Z.mul_0_l.
    destruct (Z.eqb_spec k i); [lia|]. apply slice_all. lia.
  - intros j Hj Hn. destruct (Z.eqb_spec j i); [reflexivity|]. destruct (Z.eqb_spec j k); [lia|reflexivity].
Qed.

(** right rotation by one slot of the slots [i, n) *)
Lemma f_rotate p hb tc ts B D i n : fraw p hb tc ts B D -> 0 <= i < n -> n <= cap hb ->
  exists p', mem_right_rotate p (T hb + i * s) ((n - i) * s) s = Ok p' /\
    fraw p' hb tc ts B (fun j => if j =? i then D (n - 1) else if (i <? j) && (j <? n) then D (j - 1) else D j).
Proof.
  intros R Hi Hn. rr R. pose proof (slot_in _ _ _ _ _ _ R i ltac:(lia)).
  pose proof (mul_s 1 (n - i) ltac:(lia)). pose proof (mul_s n (cap hb) ltac:(lia)).
  unfold mem_right_rotate. replace ((0 <=? s) && (s <=? (n - i) * s)) with true by lia.
  rewrite rd_ok by lia. cbn [bind].
  set (o := T hb + i * s). set (z := (n - i) * s) in *.
  assert (Lz : zlen (slice p o z) = z) by (apply zlen_slice; unfold o; lia).
  rewrite (slice_slice p o z (z - s) s) by (unfold o; lia).
  rewrite (slice_slice p o z 0 (z - s)) by (unfold o; lia). rewrite Z.add_0_r.
  assert (L1 : zlen (slice p (o + (z - s)) s) = s) by (apply zlen_slice; unfold o; lia).
  assert (L2 : zlen (slice p o (z - s)) = z - s) by (apply zlen_slice; unfold o; lia).
  rewrite wr_ok by (rewrite ?zlen_app, ?L1, ?L2; unfold o; lia). eexists. split; [reflexivity|].
  unfold o at 1. apply (f_wr_slots _ _ _ _ _ _ R i (n - i)); try lia.
  - rewrite zlen_app. lia.
  - intros j Hj. destruct (Z.eqb_spec (i + j) i).
    + replace j with 0 by lia. rewrite Z.mul_0_l. rewrite slice_app_l by lia. rewrite slice_all by lia.
      rewrite <- (f_dat R) by lia. f_equal. unfold o, z. ring.
    + replace ((i <? i + j) && (i + j <? n)) with true by lia.
      pose proof (mul_s 1 j ltac:(lia)). pose proof (mul_s (j + 1) (n - i) ltac:(lia)).
      rewrite slice_app_r by lia. rewrite L1. rewrite slice_slice by (unfold o; lia).
      rewrite <- (f_dat R) by lia. f_equal. unfold o. ring.
  - intros j Hj Hne. destruct (Z.eqb_spec j i); [lia|].
    replace ((i <? j) && (j <? n)) with false by lia. reflexivity.
Qed.

(** ** the page as a list of entries *)
Definition cells (n : Z) (B : Z -> bool) (D : Z -> list byte) (c : content) : Prop :=
  zlen c = n /\ forall i, 0 <= i < n -> nth (Z.to_nat i) c None = if B i then Some (D i) else None.
Definition frep (p : mem) (hb : list byte) (c : content) : Prop :=
  zlen c <= cap hb /\ exists B D, fraw p hb (zlen c) (tomb_stones c) B D /\ cells (zlen c) B D c.

Lemma fixed_tuple_len t : tuple_ok d t -> zlen t = s.
Proof. intros [H _]. unfold tuple_size in H. rewrite Hfix in H. cbn in H. inversion H. reflexivity. Qed.
End Page.
