(** * Fixed array pages: what every operation does to the abstract page *)
From Coq Require Import ZifyBool ZifyNat ZifyN Zify.
From Verif Require Import BytesFacts SpecFacts.
From Verif Require Export FixedFacts.
Ltac Zify.zify_post_hook ::= Z.div_mod_to_equations.

Section Page.
Variable ps : Z.
Variable d : size_def.
Hypothesis Hps : 128 <= ps <= max_bytes.
Hypothesis Hdef : def_ok d.
Hypothesis Hfix : sd_variable d = false.
Notation vs := (value_size ps).
Notation vsn := (Z.to_nat (value_size ps)).
Notation s := (sd_size d).
Notation cap hb := (fcap ps (zlen hb) (sd_size d)).
Notation V hb := (3 * value_size ps + zlen hb).
Notation T hb := (ftup ps (zlen hb) (sd_size d)).
Notation fraw := (fraw ps d).
Notation frep := (frep ps d).

Arguments f_len {ps d p hb tc ts B D} _.
Arguments f_bound {ps d p hb tc ts B D} _.
Arguments f_dat {ps d p hb tc ts B D} _.
Arguments f_bits {ps d p hb tc ts B D} _.

Lemma vs_r : 1 <= vs <= 4. Proof. apply value_size_range. Qed.
Lemma s_r : 1 <= s <= max_bytes. Proof. apply FixedFacts.s_r; assumption. Qed.

Ltac rr R := pose proof (f_len R); pose proof (f_bound R);
  match type of R with FixedFacts.fraw _ _ _ ?hb _ _ _ _ =>
  pose proof (zlen_nonneg hb); pose proof vs_r; pose proof s_r; pose proof (ps_lt ps Hps);
  pose proof (fcap_facts ps d Hps Hdef Hfix (zlen hb) ltac:(lia) ltac:(lia)) as (?C0 & ?C1 & ?C2 & ?C3) end;
  pose proof (eq_refl : max_bytes = 2147483520).
Ltac muls i j := pose proof (mul_s d Hdef Hfix i j ltac:(lia)).

(** instances of the one-step lemmas *)
Definition q_off1 {p hb tc ts B D} (R : fraw p hb tc ts B D) := f_off1 ps d Hps Hdef Hfix _ _ _ _ _ _ R.
Definition q_off2 {p hb tc ts B D} (R : fraw p hb tc ts B D) := f_off2 ps d Hps Hdef Hfix _ _ _ _ _ _ R.
Definition q_off3 {p hb tc ts B D} (R : fraw p hb tc ts B D) := f_off3 ps d Hps Hdef Hfix _ _ _ _ _ _ R.
Definition q_off4 {p hb tc ts B D} (R : fraw p hb tc ts B D) := f_off4 ps d Hps Hdef Hfix _ _ _ _ _ _ R.
Definition q_cap {p hb tc ts B D} (R : fraw p hb tc ts B D) := f_cap ps d Hps Hdef Hfix _ _ _ _ _ _ R.
Definition q_ith {p hb tc ts B D} (R : fraw p hb tc ts B D) := f_off_ith ps d Hps Hdef Hfix _ _ _ _ _ _ R.
Definition q_rtc {p hb tc ts B D} (R : fraw p hb tc ts B D) := f_read_tc ps d Hps Hdef Hfix _ _ _ _ _ _ R.
Definition q_rts {p hb tc ts B D} (R : fraw p hb tc ts B D) := f_read_ts ps d Hps Hdef Hfix _ _ _ _ _ _ R.
Definition q_tc {p hb tc ts B D} (R : fraw p hb tc ts B D) := f_tuple_count ps d Hps Hdef Hfix _ _ _ _ _ _ R.
Definition q_ts {p hb tc ts B D} (R : fraw p hb tc ts B D) := f_tomb_stone_count ps d Hps Hdef Hfix _ _ _ _ _ _ R.
Definition q_bit {p hb tc ts B D} (R : fraw p hb tc ts B D) := f_get_bit ps d Hps Hdef Hfix _ _ _ _ _ _ R.
Definition q_wtc {p hb tc ts B D} (R : fraw p hb tc ts B D) := f_wr_tc ps d Hps Hdef Hfix _ _ _ _ _ _ R.
Definition q_wts {p hb tc ts B D} (R : fraw p hb tc ts B D) := f_wr_ts ps d Hps Hdef Hfix _ _ _ _ _ _ R.
Definition q_bts {p hb tc ts B D} (R : fraw p hb tc ts B D) := f_bump_ts ps d Hps Hdef Hfix _ _ _ _ _ _ R.
Definition q_put {p hb tc ts B D} (R : fraw p hb tc ts B D) := f_put_bit ps d Hps Hdef Hfix _ _ _ _ _ _ R.
Definition q_copy {p hb tc ts B D} (R : fraw p hb tc ts B D) := f_copy ps d Hps Hdef Hfix _ _ _ _ _ _ R.
Definition q_move {p hb tc ts B D} (R : fraw p hb tc ts B D) := f_move ps d Hps Hdef Hfix _ _ _ _ _ _ R.
Definition q_slot {p hb tc ts B D} (R : fraw p hb tc ts B D) := slot_in ps d Hps Hdef Hfix _ _ _ _ _ _ R.

(** ** queries *)
Lemma fr_count p hb c : frep p hb c -> fa_tuple_count p ps = Ok (zlen c).
Proof. intros [Hc (B & D & R & _)]. rr R. apply (q_tc R). pose proof (zlen_nonneg c). lia. Qed.
Lemma fr_tombs p hb c : frep p hb c -> fa_tomb_stone_count p ps = Ok (tomb_stones c).
Proof. intros [Hc (B & D & R & _)]. rr R. apply (q_ts R). pose proof (ts_range c). lia. Qed.
Lemma fr_header p hb c : frep p hb c -> get_page_header_size p ps = Ok (zlen hb).
Proof. intros [Hc (B & D & R & _)]. apply (f_header_size ps d Hps Hdef Hfix _ _ _ _ _ _ R). Qed.
Lemma fr_header_bytes p hb c : frep p hb c -> slice p vs (zlen hb) = hb.
Proof. intros [Hc (B & D & R & _)]. apply R. Qed.
Lemma fr_len p hb c : frep p hb c -> zlen p = ps.
Proof. intros [Hc (B & D & R & _)]. apply R. Qed.

Lemma fr_exists p hb c i : frep p hb c -> 0 <= i ->
  fa_exists p ps i = Ok (if i <? zlen c then negb (is_tomb_stone (nth (Z.to_nat i) c None)) else false).
Proof.
  intros F Hi. unfold fa_exists. rewrite (fr_count _ _ _ F). cbn [bind].
  destruct F as [Hc (B & D & R & [_ Hn])].
  destruct (Z.leb_spec (zlen c) i); destruct (Z.ltb_spec i (zlen c)); try lia; [reflexivity|].
  rewrite (q_off3 R). cbn [bind]. rewrite (q_bit R) by lia. rewrite Hn by lia. destruct (B i); reflexivity.
Qed.

Lemma fr_get_nth p hb c i : frep p hb c -> 0 <= i ->
  fa_get_nth p ps d i =
    Ok (if i <? zlen c then match nth (Z.to_nat i) c None with Some _ => Some (T hb + i * s) | None => None end else None)
  /\ (forall t, i < zlen c -> nth (Z.to_nat i) c None = Some t ->
        slice p (T hb + i * s) s = t /\ zlen t = s /\ 0 < T hb + i * s /\ T hb + i * s + s <= ps).
Proof.
  intros F Hi. unfold fa_get_nth. rewrite (fr_count _ _ _ F). cbn [bind].
  destruct F as [Hc (B & D & R & [_ Hn])]. rr R. split.
  - destruct (Z.leb_spec (zlen c) i); destruct (Z.ltb_spec i (zlen c)); try lia; [reflexivity|].
    rewrite (q_off3 R). cbn [bind]. rewrite (q_bit R) by lia. cbn [bind]. rewrite Hn by lia.
    destruct (B i); cbn [negb]; [|reflexivity]. rewrite (q_ith R) by lia. reflexivity.
  - intros t Hl Ht. rewrite Hn in Ht by lia. destruct (B i); [|discriminate]. inversion Ht.
    pose proof (q_slot R i ltac:(lia)). rewrite <- (f_dat R) by lia. split; [reflexivity|].
    rewrite zlen_slice by lia. lia.
Qed.

(** ** init *)
Lemma fraw_any p hb : zlen p = ps -> V hb <= ps -> slice p 0 vs = enc vsn (zlen hb) -> slice p vs (zlen hb) = hb ->
  exists tc ts B D, fraw p hb tc ts B D.
Proof.
  intros Hl Hb H1 H2. pose proof vs_r. pose proof (zlen_nonneg hb).
  assert (E : forall o, 0 <= o -> o + vs <= ps -> slice p o vs = enc vsn (dec (slice p o vs))).
  { intros o Ho Hv. symmetry. replace vsn with (length (slice p o vs)); [apply enc_dec|].
    assert (zlen (slice p o vs) = vs) by (apply zlen_slice; lia). unfold zlen in *; lia. }
  exists (dec (slice p (vs + zlen hb) vs)), (dec (slice p (2 * vs + zlen hb) vs)),
    (fun i => bitat p (V hb) i), (fun i => slice p (T hb + i * s) s).
  constructor; try assumption; try reflexivity; apply E; lia.
Qed.

Lemma fa_init_spec p h : zlen p = ps -> 0 <= h <= ps - 32 ->
  exists p', fa_init p ps h d = Ok (fa_min_page_size h d 1 <=? ps, p') /\
    if fa_min_page_size h d 1 <=? ps then frep p' (repeat Byte.x00 (Z.to_nat h)) [] else p' = p.
Proof.
  intros Hl Hh. unfold fa_init. pose proof vs_r.
  destruct (Z.ltb_spec ps (fa_min_page_size h d 1)); destruct (Z.leb_spec (fa_min_page_size h d 1) ps); try lia.
  - exists p. split; reflexivity.
  - destruct (init_header_ok ps Hps p h) as (p1 & E & L1 & S1 & S2 & _); [lia|lia|lia|].
    rewrite E. cbn [bind negb]. set (hb := repeat Byte.x00 (Z.to_nat h)).
    assert (Lh : zlen hb = h) by (unfold hb; rewrite zlen_repeat; lia).
    destruct (fraw_any p1 hb) as (tc & ts & B & D & R); rewrite ?Lh; try assumption; try lia.
    rr R.
    rewrite (q_off1 R). cbn [bind]. destruct (q_wtc R 0) as (p2 & E2 & R2). rewrite E2. cbn [bind].
    rewrite (q_off2 R2). cbn [bind]. destruct (q_wts R2 0) as (p3 & E3 & R3). rewrite E3. cbn [bind].
    rewrite (q_off3 R3). cbn [bind]. rewrite (q_cap R3). cbn [bind].
    unfold reset_all_bits. pose proof (f_len R3).
    muls 0 (cap hb). assert (ET : T hb = V hb + bitmap_size_in_bytes (cap hb)) by reflexivity.
    rewrite memset_ok by lia. cbn [bind]. eexists. split; [reflexivity|].
    set (bs := repeat Byte.x00 (Z.to_nat (bitmap_size_in_bytes (cap hb)))).
    assert (Lb : zlen bs = bitmap_size_in_bytes (cap hb)) by (unfold bs; rewrite zlen_repeat; lia).
    split; [rewrite zlen_nil; lia|].
    exists (fun i => bitat (upd p3 (V hb) bs) (V hb) i), D. split; [|split; [reflexivity|rewrite zlen_nil; lia]].
    rewrite zlen_nil, ts_nil.
    constructor; rewrite ?zlen_upd; try lia; try reflexivity.
    all: try (rewrite slice_upd_dis by lia; apply R3).
    intros i Hi. pose proof (q_slot R i Hi) as Q. rewrite slice_upd_dis by lia.
    apply R3. lia.
Qed.

(** ** append *)
Lemma fa_can_append_spec p hb c : frep p hb c -> fa_can_append p ps d = Ok (zlen c <? cap hb).
Proof.
  intro F. unfold fa_can_append. rewrite (fr_count _ _ _ F). cbn [bind]. destruct F as [Hc (B & D & R & _)].
  rewrite (q_cap R). reflexivity.
Qed.

Lemma fa_append_spec p hb c x : frep p hb c -> ext_ok d x ->
  exists p', fa_append p ps d x = Ok (zlen c <? cap hb, p') /\
    if zlen c <? cap hb then frep p' hb (c ++ [x]) else p' = p.
Proof.
  intros F Hx. unfold fa_append. rewrite (fa_can_append_spec _ _ _ F). cbn [bind].
  destruct F as [Hc (B & D & R & [_ Hn])]. rr R. pose proof (zlen_nonneg c). pose proof (ts_range c).
  destruct (Z.ltb_spec (zlen c) (cap hb)) as [Hlt|]; cbn [negb]; [|exists p; auto].
  rewrite (q_off1 R). cbn [bind]. rewrite (q_rtc R) by lia. cbn [bind].
  rewrite !u32_id by (rewrite ?u32_id; lia). replace (zlen c + 1 - 1) with (zlen c) by lia.
  destruct (q_wtc R (zlen c + 1)) as (p1 & E1 & R1). rewrite E1. cbn [bind].
  assert (G : forall p' ts' B' D', fraw p' hb (zlen c + 1) ts' B' D' -> ts' = tomb_stones c + t1 x ->
     (forall i, 0 <= i < zlen c -> B' i = B i /\ D' i = D i) -> x = (if B' (zlen c) then Some (D' (zlen c)) else None) ->
     frep p' hb (c ++ [x])).
  { intros p' ts' B' D' R' Et Hold Hnew. split; [rewrite zlen_snoc; lia|]. exists B', D'.
    rewrite zlen_snoc, ts_app, ts_cons, ts_nil, Z.add_0_r, <- Et. split; [exact R'|]. split; [apply zlen_snoc|].
    intros i Hi. destruct (Z.eq_dec i (zlen c)) as [->|].
    - rewrite app_nth2 by (unfold zlen; lia). replace (Z.to_nat (zlen c) - length c)%nat with 0%nat by (unfold zlen; lia). exact Hnew.
    - rewrite app_nth1 by (unfold zlen in *; lia). destruct (Hold i) as [-> ->]; [lia|]. apply Hn. lia. }
  destruct x as [t|].
  - cbn [ext_ok] in Hx. pose proof (fixed_tuple_len d Hfix t Hx) as Lt.
    rewrite (q_off3 R1). cbn [bind]. unfold set_bit.
    destruct (q_put R1 (zlen c) true) as (p2 & E2 & R2); [lia|]. rewrite E2. cbn [bind].
    rewrite (q_ith R2) by lia. cbn [bind].
    destruct (q_copy R2 (zlen c) t) as (p3 & E3 & R3); [lia|lia|]. rewrite E3. cbn [bind].
    eexists. split; [reflexivity|]. eapply G; [exact R3|unfold t1; cbn; lia| |].
    + intros i Hi. cbn beta. destruct (Z.eqb_spec i (zlen c)); [lia|]. split; reflexivity.
    + cbn beta. rewrite Z.eqb_refl. reflexivity.
  - rewrite (q_off3 R1). cbn [bind]. unfold reset_bit.
    destruct (q_put R1 (zlen c) false) as (p2 & E2 & R2); [lia|]. rewrite E2. cbn [bind].
    rewrite (q_off2 R2). cbn [bind].
    destruct (q_bts R2 1) as (p3 & E3 & R3); [lia|lia|]. rewrite E3. cbn [bind].
    eexists. split; [reflexivity|]. eapply G; [exact R3|unfold t1; cbn; lia| |].
    + intros i Hi. cbn beta. destruct (Z.eqb_spec i (zlen c)); [lia|]. split; reflexivity.
    + cbn beta. rewrite Z.eqb_refl. reflexivity.
Qed.

(** ** insert *)
Lemma shift_bits_ok hb tc ts D : forall k p B i, fraw p hb tc ts B D -> Z.of_nat k <= i -> i < cap hb ->
  exists p', fa_shift_bits_up p (V hb) k i = Ok p' /\
    fraw p' hb tc ts (fun j => if (i - Z.of_nat k <? j) && (j <=? i) then B (j - 1) else B j) D.
Proof.
  induction k as [|k IH]; intros p B i R Hk Hi.
  - exists p. split; [reflexivity|]. eapply fraw_ext; [exact R|reflexivity|reflexivity| |reflexivity].
    intros j Hj. replace ((i - Z.of_nat 0 <? j) && (j <=? i)) with false by lia. reflexivity.
  - cbn [fa_shift_bits_up]. rewrite (q_bit R) by lia. cbn [bind].
    destruct (q_put R i (B (i - 1))) as (p1 & E1 & R1); [lia|]. rewrite E1. cbn [bind].
    destruct (IH _ _ (i - 1) R1) as (p2 & E2 & R2); [lia|lia|]. exists p2. split; [exact E2|].
    eapply fraw_ext; [exact R2|reflexivity|reflexivity| |reflexivity].
    intros j Hj. cbn beta. destruct (Z.eqb_spec j i) as [->|].
    + replace ((i - 1 - Z.of_nat k <? i) && (i <=? i - 1)) with false by lia.
      replace ((i - Z.of_nat (S k) <? i) && (i <=? i)) with true by lia. reflexivity.
    + destruct ((i - 1 - Z.of_nat k <? j) && (j <=? i - 1)) eqn:C.
      * replace ((i - Z.of_nat (S k) <? j) && (j <=? i)) with true by lia. destruct (Z.eqb_spec (j - 1) i); [lia|reflexivity].
      * replace ((i - Z.of_nat (S k) <? j) && (j <=? i)) with false by lia. reflexivity.
Qed.

Lemma fa_insert_spec p hb c i x : frep p hb c -> ext_ok d x -> 0 <= i ->
  exists p', fa_insert p ps d i x = Ok ((i <=? zlen c) && (zlen c <? cap hb), p') /\
    if (i <=? zlen c) && (zlen c <? cap hb) then frep p' hb (insert_at i x c) else p' = p.
Proof.
  intros F Hx Hi. unfold fa_insert. rewrite (fr_count _ _ _ F). cbn [bind].
  destruct (Z.ltb_spec (zlen c) i); destruct (Z.leb_spec i (zlen c)); try lia; cbn [andb]; [exists p; auto|].
  destruct (fa_append_spec _ _ _ _ F Hx) as (p1 & E1 & F1). rewrite E1. cbn [bind].
  destruct (Z.ltb_spec (zlen c) (cap hb)); cbn [negb]; [|subst p1; exists p; auto].
  rewrite (fr_count _ _ _ F1). cbn [bind]. rewrite zlen_snoc. pose proof (zlen_nonneg c).
  destruct F1 as [Hc1 (B & D & R & [_ Hn])]. rewrite zlen_snoc in *. rr R.
  rewrite !u32_id by (rewrite ?u32_id; lia). replace (zlen c + 1 - 1) with (zlen c) by lia.
  destruct (Z.eqb_spec i (zlen c)) as [->|Hne].
  - exists p1. split; [reflexivity|]. replace (insert_at (zlen c) x c) with (c ++ [x]).
    + split; [rewrite zlen_snoc; lia|]. exists B, D. rewrite zlen_snoc. split; [exact R|]. split; [apply zlen_snoc|exact Hn].
    + unfold insert_at, zlen. rewrite Nat2Z.id, firstn_all, skipn_all. reflexivity.
  - rewrite (q_off3 R). cbn [bind]. rewrite (q_bit R) by lia. cbn [bind].
    destruct (shift_bits_ok hb _ _ _ (Z.to_nat (zlen c - i)) _ _ (zlen c) R) as (p2 & E2 & R2); [lia|lia|].
    rewrite E2. cbn [bind].
    destruct (q_put R2 i (B (zlen c))) as (p3 & E3 & R3); [lia|]. rewrite E3. cbn [bind].
    rewrite (q_ith R3) by lia. cbn [bind].
    muls 0 (zlen c + 1 - i). muls (zlen c + 1 - i) (cap hb).
    rewrite u32_id by lia.
    destruct (f_rotate ps d Hps Hdef Hfix _ _ _ _ _ _ i (zlen c + 1) R3) as (p4 & E4 & R4); [lia|lia|].
    rewrite E4. cbn [bind]. exists p4. split; [reflexivity|].
    assert (Zi : zlen (insert_at i x c) = zlen c + 1) by (apply zlen_insert_at; lia).
    split; [lia|]. do 2 eexists. rewrite Zi. split; [|split; [exact Zi|]].
    + eapply fraw_ext; [exact R4|reflexivity| |reflexivity|reflexivity].
      rewrite ts_app, ts_cons, ts_nil, ts_insert. lia.
    + intros j Hj. rewrite nth_insert_at by lia. cbn beta.
      assert (Hold : forall j, 0 <= j < zlen c -> nth (Z.to_nat j) c None = if B j then Some (D j) else None).
      { intros k Hk. rewrite <- Hn by lia. rewrite app_nth1 by (unfold zlen in *; lia). reflexivity. }
      assert (Hnew : x = if B (zlen c) then Some (D (zlen c)) else None).
      { rewrite <- Hn by lia. rewrite app_nth2 by (unfold zlen; lia).
        replace (Z.to_nat (zlen c) - length c)%nat with 0%nat by (unfold zlen; lia). reflexivity. }
      rewrite Z2Nat.id by lia.
      destruct (Z.eqb_spec j i) as [->|].
      * destruct (Z.ltb_spec i i); [lia|]. replace (zlen c + 1 - 1) with (zlen c) by lia. exact Hnew.
      * destruct (Z.ltb_spec j i).
        -- replace ((zlen c - (zlen c - i) <? j) && (j <=? zlen c)) with false by lia.
           replace ((i <? j) && (j <? zlen c + 1)) with false by lia. apply Hold. lia.
        -- replace ((zlen c - (zlen c - i) <? j) && (j <=? zlen c)) with true by lia.
           replace ((i <? j) && (j <? zlen c + 1)) with true by lia. apply Hold. lia.
Qed.

(** ** update *)
Lemma fa_can_update_spec p hb c i : frep p hb c -> fa_can_update p ps i = Ok (i <? zlen c).
Proof. intro F. unfold fa_can_update. rewrite (fr_count _ _ _ F). reflexivity. Qed.

Lemma fa_update_spec p hb c i x : frep p hb c -> ext_ok d x -> 0 <= i ->
  exists p', fa_update p ps d i x = Ok (i <? zlen c, p') /\
    if i <? zlen c then frep p' hb (replace_at i x c) else p' = p.
Proof.
  intros F Hx Hi. unfold fa_update. rewrite (fa_can_update_spec _ _ _ _ F). cbn [bind].
  destruct (Z.ltb_spec i (zlen c)); cbn [negb]; [|exists p; auto].
  destruct F as [Hc (B & D & R & [_ Hn])]. rr R. pose proof (ts_range c).
  rewrite (q_off3 R). cbn [bind]. rewrite (q_off2 R). cbn [bind]. rewrite (q_bit R) by lia. cbn [bind].
  pose proof (ts_range (replace_at i None c)) as Tr. rewrite ts_replace in Tr by lia. rewrite zlen_replace_at in Tr by lia.
  assert (Hdis : exists p2 B2, (if B i then let* p1 := reset_bit p (V hb) i in bump p1 (2 * vs + zlen hb) ps 1 else Ok p) = Ok p2 /\
     fraw p2 hb (zlen c) (tomb_stones c - t1 (nth (Z.to_nat i) c None) + 1) B2 D /\ B2 i = false /\
     (forall j, j <> i -> B2 j = B j)).
  { rewrite (Hn i) in * by lia. destruct (B i) eqn:Bi; unfold t1 in *; cbn [is_tomb_stone] in *.
    - unfold reset_bit. destruct (q_put R i false) as (p1 & E1 & R1); [lia|]. rewrite E1. cbn [bind].
      destruct (q_bts R1 1) as (p2 & E2 & R2); [lia|lia|]. rewrite E2. do 2 eexists. split; [reflexivity|].
      split; [eapply fraw_ext; [exact R2|reflexivity|lia|reflexivity|reflexivity]|].
      cbn beta. rewrite Z.eqb_refl. split; [reflexivity|]. intros j Hj. destruct (Z.eqb_spec j i); [lia|reflexivity].
    - exists p, B. split; [reflexivity|]. split; [eapply fraw_ext; [exact R|reflexivity|lia|reflexivity|reflexivity]|]. auto. }
  destruct Hdis as (p2 & B2 & E2 & R2 & B2i & B2j). rewrite E2. cbn [bind].
  assert (Zr : zlen (replace_at i x c) = zlen c) by (apply zlen_replace_at; lia).
  assert (Tt : 0 <= t1 (nth (Z.to_nat i) c None) <= 1) by (unfold t1; destruct (is_tomb_stone _); lia).
  destruct x as [t|].
  - cbn [ext_ok] in Hx. pose proof (fixed_tuple_len d Hfix t Hx) as Lt. unfold set_bit.
    destruct (q_put R2 i true) as (p3 & E3 & R3); [lia|]. rewrite E3. cbn [bind].
    change (t1 None) with 1 in Tr.
    pose proof (ts_range (remove_at i c)) as Trm. rewrite ts_remove in Trm by lia.
    destruct (q_bts R3 (-1)) as (p4 & E4 & R4); [lia|lia|]. rewrite E4. cbn [bind].
    rewrite (q_ith R4) by lia. cbn [bind].
    destruct (q_copy R4 i t) as (p5 & E5 & R5); [lia|lia|]. rewrite E5. cbn [bind].
    eexists. split; [reflexivity|]. split; [lia|]. do 2 eexists. rewrite Zr. split; [|split; [exact Zr|]].
    + eapply fraw_ext; [exact R5|reflexivity| |reflexivity|reflexivity]. rewrite ts_replace by lia.
      change (t1 (Some t)) with 0. lia.
    + intros j Hj. rewrite nth_replace_at by lia. cbn beta. destruct (Z.eqb_spec j i) as [->|]; [reflexivity|].
      rewrite B2j by assumption. apply Hn. lia.
  - exists p2. split; [reflexivity|]. split; [lia|]. exists B2, D. rewrite Zr. split; [|split; [exact Zr|]].
    + eapply fraw_ext; [exact R2|reflexivity| |reflexivity|reflexivity]. rewrite ts_replace by lia.
      change (t1 None) with 1. lia.
    + intros j Hj. rewrite nth_replace_at by lia. destruct (Z.eqb_spec j i) as [->|]; [rewrite B2i; reflexivity|].
      rewrite B2j by assumption. apply Hn. lia.
Qed.

(** ** discard *)
Lemma discard_loop_ok hb tc ts : forall k p B D i, fraw p hb tc ts B D -> 1 <= i -> i + Z.of_nat k <= cap hb ->
  exists p', fa_discard_loop p ps d (V hb) k i = Ok p' /\
    fraw p' hb tc ts (fun j => if (i - 1 <=? j) && (j <? i - 1 + Z.of_nat k) then B (j + 1) else B j)
      (fun j => if ((i - 1 <=? j) && (j <? i - 1 + Z.of_nat k)) && B (j + 1) then D (j + 1) else D j).
Proof.
  induction k as [|k IH]; intros p B D i R Hi Hk.
  - exists p. split; [reflexivity|]. eapply fraw_ext; [exact R|reflexivity|reflexivity| |].
    + intros j Hj. replace ((i - 1 <=? j) && (j <? i - 1 + Z.of_nat 0)) with false by lia. reflexivity.
    + intros j Hj. replace ((i - 1 <=? j) && (j <? i - 1 + Z.of_nat 0)) with false by lia. reflexivity.
  - cbn [fa_discard_loop]. rewrite (q_bit R) by lia. cbn [bind].
    assert (Hs : exists p2, (if B i then let* p1 := set_bit p (V hb) (i - 1) in
             let* o1 := fa_off_ith p1 ps d (i - 1) in let* o2 := fa_off_ith p1 ps d i in memmove p1 o1 o2 s
           else reset_bit p (V hb) (i - 1)) = Ok p2 /\
        fraw p2 hb tc ts (fun j => if j =? i - 1 then B i else B j) (fun j => if (j =? i - 1) && B i then D i else D j)).
    { unfold set_bit, reset_bit. destruct (B i) eqn:Bi.
      - destruct (q_put R (i - 1) true) as (p1 & E1 & R1); [lia|]. rewrite E1. cbn [bind].
        rewrite !(q_ith R1) by lia. cbn [bind].
        destruct (q_move R1 (i - 1) i) as (p2 & E2 & R2); [lia|lia|]. rewrite E2. exists p2. split; [reflexivity|].
        eapply fraw_ext; [exact R2|reflexivity|reflexivity|reflexivity|]. intros j Hj. rewrite andb_true_r. reflexivity.
      - destruct (q_put R (i - 1) false) as (p1 & E1 & R1); [lia|]. rewrite E1. exists p1. split; [reflexivity|].
        eapply fraw_ext; [exact R1|reflexivity|reflexivity|reflexivity|]. intros j Hj. rewrite andb_false_r. reflexivity. }
    destruct Hs as (p2 & E2 & R2). rewrite E2. cbn [bind].
    destruct (IH _ _ _ (i + 1) R2) as (p' & E' & R'); [lia|lia|]. exists p'. split; [exact E'|].
    eapply fraw_ext; [exact R'|reflexivity|reflexivity| |].
    + intros j Hj. cbn beta. destruct (Z.eqb_spec j (i - 1)) as [->|].
      * replace ((i + 1 - 1 <=? i - 1) && (i - 1 <? i + 1 - 1 + Z.of_nat k)) with false by lia.
        replace ((i - 1 <=? i - 1) && (i - 1 <? i - 1 + Z.of_nat (S k))) with true by lia. f_equal. lia.
      * destruct (Z.eqb_spec (j + 1) (i - 1)).
        -- replace ((i + 1 - 1 <=? j) && (j <? i + 1 - 1 + Z.of_nat k)) with false by lia.
           replace ((i - 1 <=? j) && (j <? i - 1 + Z.of_nat (S k))) with false by lia. reflexivity.
        -- replace ((i - 1 <=? j) && (j <? i - 1 + Z.of_nat (S k))) with ((i + 1 - 1 <=? j) && (j <? i + 1 - 1 + Z.of_nat k)) by lia.
           reflexivity.
    + intros j Hj. cbn beta. destruct (Z.eqb_spec j (i - 1)) as [->|].
      * replace ((i + 1 - 1 <=? i - 1) && (i - 1 <? i + 1 - 1 + Z.of_nat k)) with false by lia.
        replace ((i - 1 <=? i - 1) && (i - 1 <? i - 1 + Z.of_nat (S k))) with true by lia.
        replace (i - 1 + 1) with i by lia. cbn [andb]. reflexivity.
      * destruct (Z.eqb_spec (j + 1) (i - 1)).
        -- replace ((i + 1 - 1 <=? j) && (j <? i + 1 - 1 + Z.of_nat k)) with false by lia.
           replace ((i - 1 <=? j) && (j <? i - 1 + Z.of_nat (S k))) with false by lia. reflexivity.
        -- replace ((i - 1 <=? j) && (j <? i - 1 + Z.of_nat (S k))) with ((i + 1 - 1 <=? j) && (j <? i + 1 - 1 + Z.of_nat k)) by lia.
           reflexivity.
Qed.

Lemma fa_discard_spec p hb c i : frep p hb c -> 0 <= i ->
  exists p', fa_discard p ps d i = Ok (i <? zlen c, p') /\
    if i <? zlen c then frep p' hb (remove_at i c) else p' = p.
Proof.
  intros F Hi. unfold fa_discard. rewrite (fr_count _ _ _ F). cbn [bind].
  destruct (Z.leb_spec (zlen c) i); destruct (Z.ltb_spec i (zlen c)); try lia; [exists p; auto|].
  destruct F as [Hc (B & D & R & [_ Hn])]. rr R. pose proof (ts_range c).
  rewrite (q_off1 R). cbn [bind]. rewrite (q_rtc R) by lia. cbn [bind]. rewrite (q_off3 R). cbn [bind].
  rewrite (q_bit R) by lia. cbn [bind].
  destruct (discard_loop_ok hb _ _ (Z.to_nat (zlen c - (i + 1))) _ _ _ (i + 1) R) as (p1 & E1 & R1); [lia|lia|].
  rewrite E1. cbn [bind]. rewrite u32_id by lia.
  destruct (q_wtc R1 (zlen c - 1)) as (p2 & E2 & R2). rewrite E2. cbn [bind].
  assert (Zr : zlen (remove_at i c) = zlen c - 1) by (apply zlen_remove_at; lia).
  pose proof (ts_remove i c ltac:(lia)) as Tr. pose proof (ts_range (remove_at i c)).
  assert (Hfin : exists p3, (if B i then Ok p2 else let* ots := fa_off_tomb_stone_count p2 ps in bump p2 ots ps (-1)) = Ok p3 /\
     fraw p3 hb (zlen c - 1) (tomb_stones (remove_at i c))
       (fun j => if (i + 1 - 1 <=? j) && (j <? i + 1 - 1 + Z.of_nat (Z.to_nat (zlen c - (i + 1)))) then B (j + 1) else B j)
       (fun j => if ((i + 1 - 1 <=? j) && (j <? i + 1 - 1 + Z.of_nat (Z.to_nat (zlen c - (i + 1))))) && B (j + 1) then D (j + 1) else D j)).
  { rewrite (Hn i) in Tr by lia. destruct (B i); unfold t1 in Tr; cbn [is_tomb_stone] in Tr.
    - exists p2. split; [reflexivity|]. eapply fraw_ext; [exact R2|reflexivity|lia|reflexivity|reflexivity].
    - rewrite (q_off2 R2). cbn [bind]. destruct (q_bts R2 (-1)) as (p3 & E3 & R3); [lia|lia|]. exists p3. split; [exact E3|].
      eapply fraw_ext; [exact R3|reflexivity|lia|reflexivity|reflexivity]. }
  destruct Hfin as (p3 & E3 & R3). rewrite E3. cbn [bind]. exists p3. split; [reflexivity|].
  split; [lia|]. do 2 eexists. rewrite Zr. split; [exact R3|]. split; [exact Zr|].
  intros j Hj. rewrite nth_remove_at by lia. cbn beta.
  destruct (Z.ltb_spec j i).
  - replace ((i + 1 - 1 <=? j) && (j <? i + 1 - 1 + Z.of_nat (Z.to_nat (zlen c - (i + 1))))) with false by lia.
    cbn [andb]. apply Hn. lia.
  - replace ((i + 1 - 1 <=? j) && (j <? i + 1 - 1 + Z.of_nat (Z.to_nat (zlen c - (i + 1))))) with true by lia.
    cbn [andb]. rewrite Hn by lia. destruct (B (j + 1)); reflexivity.
Qed.

(** ** discard all *)
Lemma fa_discard_all_spec p hb c : frep p hb c -> exists p', fa_discard_all p ps = Ok p' /\ frep p' hb [].
Proof.
  intros [Hc (B & D & R & _)]. rr R. unfold fa_discard_all.
  rewrite (q_off1 R). cbn [bind]. destruct (q_wtc R 0) as (p1 & E1 & R1). rewrite E1. cbn [bind].
  rewrite (q_off2 R1). cbn [bind]. destruct (q_wts R1 0) as (p2 & E2 & R2). rewrite E2.
  exists p2. split; [reflexivity|]. split; [rewrite zlen_nil; lia|]. exists B, D. split; [exact R2|].
  split; [reflexivity|]. intros i Hi. rewrite zlen_nil in Hi. lia.
Qed.

(** ** discard trailing tomb stones *)
Lemma fa_trailing_loop_ok p hb tc ts0 B D c : fraw p hb tc ts0 B D -> zlen c <= cap hb -> cells (zlen c) B D c ->
  forall cur rest, c = cur ++ rest -> forall k r, (length cur <= k)%nat -> 0 <= r -> r + zlen cur < ps ->
  fa_trailing_loop p (V hb) k (zlen cur) (tomb_stones cur) r =
    Ok (zlen (strip cur), tomb_stones (strip cur), r + (zlen cur - zlen (strip cur))).
Proof.
  intros R Hc [_ Hn]. rr R. induction cur as [|e cur IH] using rev_ind; intros rest E k r Hk Hr Hrn.
  - rewrite strip_nil. change (zlen (@nil (option (list byte)))) with 0. rewrite ts_nil.
    destruct k as [|k]; cbn [fa_trailing_loop]; [|cbn [Z.ltb Z.compare]]; repeat f_equal; lia.
  - rewrite app_length in Hk. cbn [length] in Hk. destruct k as [|k]; [lia|]. cbn [fa_trailing_loop].
    rewrite zlen_snoc in *. pose proof (zlen_nonneg cur).
    destruct (Z.ltb_spec 0 (zlen cur + 1)); [|lia].
    assert (Zes : zlen c = zlen cur + 1 + zlen rest) by (rewrite E, zlen_app, zlen_snoc; reflexivity).
    pose proof (zlen_nonneg rest).
    rewrite u32_id by lia. replace (zlen cur + 1 - 1) with (zlen cur) by lia.
    rewrite (q_bit R) by lia. cbn [bind].
    assert (Hnn : nth (Z.to_nat (zlen cur)) c None = e).
    { rewrite E. rewrite <- app_assoc. unfold zlen. rewrite Nat2Z.id. rewrite app_nth2 by lia. rewrite Nat.sub_diag. reflexivity. }
    rewrite Hn in Hnn by lia. destruct (B (zlen cur)); subst e; cbn [negb].
    + rewrite strip_Some, zlen_snoc. repeat f_equal; lia.
    + rewrite strip_None. rewrite ts_app, ts_cons, ts_nil. change (t1 None) with 1. pose proof (ts_range cur).
      rewrite !u32_id by lia. replace (tomb_stones cur + (1 + 0) - 1) with (tomb_stones cur) by lia.
      rewrite (IH (None :: rest)) by (try (rewrite E, <- app_assoc; reflexivity); lia).
      f_equal. f_equal. lia.
Qed.

Lemma fa_discard_trailing_spec p hb c : frep p hb c ->
  exists p', fa_discard_trailing p ps = Ok (zlen c - zlen (strip c), p') /\ frep p' hb (strip c).
Proof.
  intros [Hc (B & D & R & Hcl)]. rr R. pose proof (ts_range c). unfold fa_discard_trailing.
  rewrite (q_off1 R). cbn [bind]. rewrite (q_off2 R). cbn [bind]. rewrite (q_rtc R) by lia. cbn [bind].
  rewrite (q_rts R) by lia. cbn [bind]. rewrite (q_off3 R). cbn [bind].
  rewrite (fa_trailing_loop_ok _ _ _ _ _ _ c R Hc Hcl c []) by (rewrite ?app_nil_r; unfold zlen in *; try reflexivity; lia).
  cbn [bind]. destruct (q_wtc R (zlen (strip c))) as (p1 & E1 & R1). rewrite E1. cbn [bind].
  destruct (q_wts R1 (tomb_stones (strip c))) as (p2 & E2 & R2). rewrite E2. cbn [bind].
  exists p2. split; [reflexivity|]. destruct (strip_split c) as [k Ek].
  assert (Hle : zlen (strip c) <= zlen c).
  { rewrite Ek at 2. rewrite zlen_app. pose proof (zlen_nonneg (repeat (@None (list byte)) k)). lia. }
  split; [lia|]. exists B, D. split; [exact R2|]. split; [reflexivity|].
  intros i Hi. destruct Hcl as [_ Hn]. rewrite <- Hn by lia. rewrite Ek at 2.
  rewrite app_nth1 by (unfold zlen in *; lia). reflexivity.
Qed.

(** ** swap *)
Lemma fa_swap_spec p hb c i j : frep p hb c -> 0 <= i -> 0 <= j ->
  exists p', fa_swap p ps d i j = Ok ((i <? zlen c) && (j <? zlen c), p') /\
    if (i <? zlen c) && (j <? zlen c) then frep p' hb (swap_at i j c) else p' = p.
Proof.
  intros F Hi Hj. pose proof F as F0. unfold fa_swap. rewrite (fr_count _ _ _ F). cbn [bind].
  destruct (Z.leb_spec (zlen c) i); destruct (Z.ltb_spec i (zlen c)); try lia; cbn [orb andb]; [exists p; auto|].
  destruct (Z.leb_spec (zlen c) j); destruct (Z.ltb_spec j (zlen c)); try lia; [exists p; auto|].
  assert (Zs : zlen (swap_at i j c) = zlen c) by (apply zlen_swap_at; lia).
  destruct (Z.eqb_spec i j) as [->|Hne].
  { exists p. split; [reflexivity|]. replace (swap_at j j c) with c; [exact F0|].
    apply (list_ext_z _ _ None); [congruence|]. intros k Hk. rewrite nth_swap_at by lia.
    destruct (Z.eqb_spec k j) as [->|]; reflexivity. }
  destruct F as [Hc (B & D & R & [_ Hn])]. rr R.
  rewrite (q_off3 R). cbn [bind]. rewrite !(q_bit R) by lia. cbn [bind].
  destruct (negb (B i) && negb (B j)) eqn:Eb.
  { exists p. split; [reflexivity|]. replace (swap_at i j c) with c; [exact F0|].
    apply (list_ext_z _ _ None); [congruence|]. intros k Hk. rewrite nth_swap_at by lia.
    apply andb_prop in Eb as [Ei Ej]. apply negb_true_iff in Ei, Ej.
    destruct (Z.eqb_spec k i) as [->|]; [|destruct (Z.eqb_spec k j) as [->|]; [|reflexivity]]; rewrite !Hn, Ei, Ej by lia; reflexivity. }
  destruct (q_put R j (B i)) as (p1 & E1 & R1); [lia|]. rewrite E1. cbn [bind].
  destruct (q_put R1 i (B j)) as (p2 & E2 & R2); [lia|]. rewrite E2. cbn [bind].
  rewrite !(q_ith R2) by lia. cbn [bind].
  destruct (f_swap ps d Hps Hdef Hfix _ _ _ _ _ _ i j R2) as (p3 & E3 & R3); [lia|lia|lia|]. rewrite E3. cbn [bind].
  exists p3. split; [reflexivity|]. split; [lia|]. do 2 eexists. rewrite Zs. split; [|split; [exact Zs|]].
  - eapply fraw_ext; [exact R3|reflexivity| |reflexivity|reflexivity]. rewrite ts_swap by lia. reflexivity.
  - intros k Hk. rewrite nth_swap_at by lia. cbn beta.
    destruct (Z.eqb_spec k i) as [->|]; [apply Hn; lia|]. destruct (Z.eqb_spec k j) as [->|]; apply Hn; lia.
Qed.

(** ** space *)
Lemma fr_free p hb c : frep p hb c -> fa_free_space p ps d = Ok (ps - (T hb + zlen c * s)) /\
  fa_start_of_free_space p ps d = Ok (T hb + zlen c * s) /\ 0 <= zlen c * s /\ T hb + zlen c * s <= ps /\ 0 < T hb.
Proof.
  intro F. pose proof (zlen_nonneg c).
  assert (G : fa_start_of_free_space p ps d = Ok (T hb + zlen c * s) /\ 0 <= zlen c * s /\ T hb + zlen c * s <= ps /\ 0 < T hb).
  { unfold fa_start_of_free_space. rewrite (fr_count _ _ _ F). cbn [bind]. destruct F as [Hc (B & D & R & _)]. rr R.
    muls 0 (zlen c). muls (zlen c) (cap hb). rewrite (q_ith R) by lia. split; [reflexivity|]. lia. }
  destruct G as (G1 & G2 & G3 & G4). repeat split; try assumption.
  unfold fa_free_space. rewrite G1. cbn [bind]. pose proof (eq_refl : max_bytes = 2147483520). rewrite u32_id by lia. reflexivity.
Qed.

Lemma fr_all p hb c : frep p hb c -> fa_space_occupied_all p ps d = Ok (zlen c * s).
Proof.
  intro F. destruct (fr_free _ _ _ F) as (_ & _ & ? & ? & ?). unfold fa_space_occupied_all. rewrite (fr_count _ _ _ F). cbn [bind].
  pose proof (eq_refl : max_bytes = 2147483520). rewrite u32_id by lia. reflexivity.
Qed.
Lemma fr_tomb_space p hb c : frep p hb c -> fa_space_occupied_tomb_stones p ps d = Ok (tomb_stones c * s).
Proof.
  intro F. destruct (fr_free _ _ _ F) as (_ & _ & ? & ? & ?). unfold fa_space_occupied_tomb_stones. rewrite (fr_tombs _ _ _ F). cbn [bind].
  pose proof (eq_refl : max_bytes = 2147483520). pose proof (ts_range c). muls 0 (tomb_stones c). muls (tomb_stones c) (zlen c).
  rewrite u32_id by lia. reflexivity.
Qed.
Lemma fr_allotted p hb c : frep p hb c -> fa_space_allotted p ps d = Ok (ps - T hb).
Proof.
  intro F. destruct (fr_free _ _ _ F) as (_ & _ & ? & ? & ?). unfold fa_space_allotted. destruct F as [Hc (B & D & R & _)].
  rewrite (q_off4 R). cbn [bind]. pose proof (eq_refl : max_bytes = 2147483520). rewrite u32_id by lia. reflexivity.
Qed.
Lemma fr_range p hb c a b : frep p hb c -> 0 <= a <= b -> b < zlen c -> fa_space_occupied_range d a b = (b - a + 1) * s.
Proof.
  intros F Ha Hb. destruct (fr_free _ _ _ F) as (_ & _ & ? & ? & ?). unfold fa_space_occupied_range.
  pose proof (eq_refl : max_bytes = 2147483520). muls 0 (b - a + 1). muls (b - a + 1) (zlen c). rewrite u32_id by lia. reflexivity.
Qed.
Lemma fr_to_be_allotted h : 0 <= h -> 3 * vs + h <= ps ->
  fa_space_to_be_allotted h ps d = ps - ftup ps h s /\ fa_max_tuple_count h ps d = fcap ps h s.
Proof.
  intros Hh Hb. destruct (fcap_facts ps d Hps Hdef Hfix h Hh Hb) as (C0 & C1 & C2 & C3).
  pose proof vs_r. pose proof s_r. pose proof (eq_refl : max_bytes = 2147483520).
  unfold fa_space_to_be_allotted, fa_max_tuple_count, fa_space_with_bitmap.
  rewrite (u32_id (ps - (vs + h + vs * 2))) by lia.
  unfold capacity_of. rewrite !u64_id by lia.
  replace (ps - (vs + h + vs * 2)) with (ps - (3 * vs + h)) by lia. fold (fcap ps h s).
  rewrite (u32_id (fcap ps h s)) by lia. split; [|reflexivity].
  muls 0 (fcap ps h s). unfold ftup in *. rewrite u32_id; unfold bitmap_size_in_bytes in *; lia.
Qed.

(** ** zero out *)
Lemma fa_zero_out_spec p hb c : frep p hb c ->
  let st := T hb + zlen c * s in
  exists p', fa_zero_out p ps d = Ok (negb (ps - st =? 0), p') /\ frep p' hb c /\
    (forall o n, 0 <= o -> 0 <= n -> o + n <= st -> slice p' o n = slice p o n) /\
    slice p' st (ps - st) = repeat Byte.x00 (Z.to_nat (ps - st)).
Proof.
  intros F st. destruct (fr_free _ _ _ F) as (E1 & E2 & ? & ? & ?). fold st in E1, E2.
  pose proof (eq_refl : max_bytes = 2147483520). pose proof (fr_len _ _ _ F).
  unfold fa_zero_out. rewrite E1. cbn [bind].
  destruct (Z.eqb_spec (ps - st) 0) as [E|E]; cbn [negb].
  - exists p. split; [reflexivity|]. split; [exact F|]. split; [reflexivity|]. rewrite E. apply slice_0.
  - rewrite E2. cbn [bind]. rewrite u32_id by lia. rewrite memset_ok by lia. cbn [bind].
    eexists. split; [reflexivity|]. set (z := repeat Byte.x00 (Z.to_nat (ps - st))).
    assert (L : zlen z = ps - st) by (unfold z; rewrite zlen_repeat; lia).
    split; [|split].
    + destruct F as [Hc (B & D & R & [Hz Hn])]. rr R. split; [exact Hc|].
      exists B, (fun i => slice (upd p st z) (T hb + i * s) s).
      assert (V hb <= T hb) by (unfold ftup; unfold bitmap_size_in_bytes; lia).
      split; [|split; [exact Hz|]].
      * constructor; rewrite ?zlen_upd; try lia; try reflexivity.
        all: try (rewrite slice_upd_dis by lia; apply R).
        intros i Hi. pose proof (q_slot R i Hi). rewrite bitat_upd_dis by lia. apply R. lia.
      * intros i Hi. rewrite Hn by lia. destruct (B i); [|reflexivity]. f_equal.
        pose proof (q_slot R i ltac:(lia)). muls (i + 1) (zlen c).
        rewrite slice_upd_dis by lia. symmetry. apply R. lia.
    + intros. rewrite slice_upd_dis by lia. reflexivity.
    + apply slice_upd_same'; lia.
Qed.

(** ** header writes *)
Lemma fa_write_header_spec p hb c at_ bs : frep p hb c -> 0 <= at_ -> at_ + zlen bs <= zlen hb ->
  exists p', write_page_header p ps at_ bs = Ok p' /\ frep p' (upd hb at_ bs) c.
Proof.
  intros F Ha Hb. pose proof (fr_len _ _ _ F). destruct F as [Hc (B & D & R & [Hz Hn])]. rr R. pose proof (zlen_nonneg bs).
  unfold write_page_header, get_page_header.
  rewrite wr_ok by lia. eexists. split; [reflexivity|].
  assert (Zh : zlen (upd hb at_ bs) = zlen hb) by (apply zlen_upd; lia).
  unfold FixedFacts.frep. rewrite Zh. split; [exact Hc|]. exists B, D. split; [|split; assumption].
  constructor; rewrite ?Zh; try apply R.
  - rewrite zlen_upd; lia.
  - rewrite slice_upd_dis by lia. apply R.
  - apply list_eq_nth.
    + rewrite zlen_slice; rewrite ?zlen_upd; lia.
    + intros dd k Hk. rewrite zlen_slice in Hk by (rewrite ?zlen_upd; lia).
      rewrite nth_slice by lia. rewrite !nth_upd by lia.
      destruct ((vs + at_ <=? vs + k) && (vs + k <? vs + at_ + zlen bs)) eqn:C.
      * replace ((at_ <=? k) && (k <? at_ + zlen bs)) with true by lia. f_equal. lia.
      * replace ((at_ <=? k) && (k <? at_ + zlen bs)) with false by lia.
        rewrite <- (nth_slice p vs (zlen hb)) by lia. rewrite (f_hdr _ _ _ _ _ _ _ _ R). reflexivity.
  - rewrite slice_upd_dis by lia. apply R.
  - rewrite slice_upd_dis by lia. apply R.
  - intros i Hi. pose proof (q_slot R i Hi). rewrite bitat_upd_dis by lia. apply R. lia.
  - intros i Hi. pose proof (q_slot R i Hi). rewrite slice_upd_dis by lia. apply R. lia.
Qed.
End Page.
