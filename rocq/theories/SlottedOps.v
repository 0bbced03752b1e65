(** * Slotted pages: what every operation does to the abstract page *)
From Coq Require Import ZifyBool ZifyNat ZifyN Zify Permutation.
From Verif Require Import BytesFacts Spec.
From Verif Require Export SlottedFacts.
Ltac Zify.zify_post_hook ::= Z.div_mod_to_equations.



Lemma tuple_ok_pos d t : def_ok d -> tuple_ok d t -> 1 <= zlen t.
Proof.
  intros Hd Ht. destruct (sd_variable d) eqn:E; [apply (tuple_ok_variable_pos d); assumption|].
  destruct Ht as [Ht _]. unfold tuple_size in Ht. rewrite E in Ht. cbn in Ht. inversion Ht.
  destruct Hd. lia.
Qed.

Lemma content_len es : zlen (content_of es) = zlen es.
Proof. unfold content_of. apply zlen_map. Qed.

Lemma upd_snoc {A} (l : list A) a b : upd (l ++ [a]) (zlen l) [b] = l ++ [b].
Proof.
  unfold upd. rewrite zlen_1. unfold zlen. rewrite Nat2Z.id.
  rewrite firstn_app, Nat.sub_diag, firstn_all. cbn [firstn]. rewrite app_nil_r.
  rewrite skipn_all2 by (rewrite app_length; cbn [length]; lia). rewrite app_nil_r. reflexivity.
Qed.

Section Page.
Variable ps : Z.
Variable d : size_def.
Hypothesis Hps : 128 <= ps <= max_bytes.
Hypothesis Hdef : def_ok d.
Notation vs := (value_size ps).
Notation vsn := (Z.to_nat (value_size ps)).
Notation raw := (raw ps).
Notation srep := (srep ps d).
Notation sdata := (sdata ps d).

Lemma raw_eq p hb a b c e l a' b' c' e' l' : raw p hb a b c e l ->
  a = a' -> b = b' -> c = c' -> e = e' -> l = l' -> raw p hb a' b' c' e' l'.
Proof. intros; subst; assumption. Qed.

Lemma raw_wr_so2 p hb so tc ts eo sls v : raw p hb so tc ts eo sls ->
  exists p', write_value p (vs + zlen hb) ps v = Ok p' /\
  raw p' hb v tc ts eo sls /\ sameD (5 * vs + zlen hb) p p'.
Proof. intro R. exact (raw_wr_so Hps R v). Qed.
Lemma raw_bump_so p hb so tc ts eo sls dl : raw p hb so tc ts eo sls ->
  0 <= so < ps -> 0 <= so + dl < 4294967296 ->
  exists p', bump p (vs + zlen hb) ps dl = Ok p' /\
  raw p' hb (so + dl) tc ts eo sls /\ sameD (5 * vs + zlen hb) p p'.
Proof.
  intros R H1 H2. unfold bump. rewrite (raw_read_so Hps R) by assumption.
  cbn [bind]. rewrite u32_id by lia. exact (raw_wr_so Hps R _).
Qed.
Lemma raw_bump_ts p hb so tc ts eo sls dl : raw p hb so tc ts eo sls ->
  0 <= ts < ps -> 0 <= ts + dl < 4294967296 ->
  exists p', bump p (3 * vs + zlen hb) ps dl = Ok p' /\
  raw p' hb so tc (ts + dl) eo sls /\ sameD (5 * vs + zlen hb) p p'.
Proof.
  intros R H1 H2. unfold bump. rewrite (raw_read_ts Hps R) by assumption.
  cbn [bind]. rewrite u32_id by lia. exact (raw_wr_ts Hps R _).
Qed.

Lemma vs_r : 1 <= vs <= 4. Proof. apply value_size_range. Qed.

Lemma mul_vs i j : i <= j -> i * vs <= j * vs.
Proof. intro H. apply Z.mul_le_mono_nonneg_r; [pose proof vs_r; lia|assumption]. Qed.

Ltac bnd S := pose proof (srep_bounds Hps S) as (? & ? & ? & ? & ? & ? & ? & ?);
  pose proof (s_fit S); pose proof vs_r;
  pose proof (ps_lt ps Hps);
  match type of S with SlottedFacts.srep _ _ _ ?hb ?es =>
    pose proof (zlen_nonneg hb); pose proof (zlen_nonneg es); pose proof (tombs_range es) end;
  pose proof (eq_refl : max_bytes = 2147483520).

(** ** init *)
Lemma raw_any p hb : zlen p = ps -> 5 * vs + zlen hb <= ps ->
  slice p 0 vs = enc vsn (zlen hb) -> slice p vs (zlen hb) = hb ->
  exists so tc ts eo, raw p hb so tc ts eo [].
Proof.
  intros Hl Hb H1 H2. pose proof vs_r. pose proof (zlen_nonneg hb).
  assert (E : forall o, 0 <= o -> o + vs <= ps -> slice p o vs = enc vsn (dec (slice p o vs))).
  { intros o Ho Hv. symmetry. replace vsn with (length (slice p o vs)); [apply enc_dec|].
    assert (zlen (slice p o vs) = vs) by (apply zlen_slice; lia). unfold zlen in *; lia. }
  do 4 eexists. constructor; try assumption.
  - rewrite zlen_nil. lia.
  - apply E; lia.
  - apply E; lia.
  - apply E; lia.
  - apply E; lia.
  - intros i Hi. rewrite zlen_nil in Hi. lia.
Qed.

Lemma init_header_ok p h : zlen p = ps -> 0 <= h -> vs + h <= ps ->
  exists p', init_page_header p ps h = Ok (true, p') /\ zlen p' = ps /\
    slice p' 0 vs = enc vsn h /\ slice p' vs h = repeat Byte.x00 (Z.to_nat h) /\
    forall o n, vs + h <= o -> 0 <= n -> o + n <= ps -> slice p' o n = slice p o n.
Proof.
  intros Hl Hh Hb. pose proof vs_r. pose proof (eq_refl : max_bytes = 2147483520).
  unfold init_page_header. rewrite u32_id by lia.
  destruct (Z.ltb_spec ps (vs + h)); [lia|].
  rewrite (wv_ok ps) by lia. cbn [bind].
  assert (L1 : zlen (upd p 0 (enc vsn h)) = ps) by (rewrite zlen_upd; rewrite ?(zlen_encv ps); lia).
  rewrite memset_ok by lia. cbn [bind]. eexists. split; [reflexivity|].
  assert (L2 : zlen (repeat Byte.x00 (Z.to_nat h)) = h) by (rewrite zlen_repeat; lia).
  split; [rewrite zlen_upd; lia|]. split; [|split].
  - rewrite slice_upd_dis by lia. apply slice_upd_same'; rewrite ?(zlen_encv ps); lia.
  - apply slice_upd_same'; lia.
  - intros. rewrite slice_upd_dis by lia. rewrite slice_upd_dis by (rewrite ?(zlen_encv ps); lia). reflexivity.
Qed.

Lemma set_empty p hb so tc ts eo sls : raw p hb so tc ts eo sls ->
  exists p', sl_discard_all p ps = Ok p' /\ srep p' hb [] /\ sameD (5 * vs + zlen hb) p p'.
Proof.
  intro R0. pose proof vs_r. pose proof (zlen_nonneg hb).
  pose proof (sls_vs_nonneg ps Hps sls).
  pose proof (r_bound R0).
  unfold sl_discard_all.
  rewrite (raw_off1 Hps R0). cbn [bind].
  destruct (raw_wr_so Hps R0 0) as (p1 & E1 & R1 & D1). rewrite E1; cbn [bind].
  rewrite (raw_off2 Hps R1). cbn [bind].
  destruct (raw_wr_tc Hps R1 0) as (p2 & E2 & R2 & D2). rewrite E2; cbn [bind].
  rewrite (raw_off3 Hps R2). cbn [bind].
  destruct (raw_wr_ts Hps R2 0) as (p3 & E3 & R3 & D3). rewrite E3; cbn [bind].
  rewrite (raw_off4 Hps R3). cbn [bind].
  destruct (raw_wr_eo Hps R3 ps) as (p4 & E4 & R4 & D4). rewrite E4.
  exists p4. split; [reflexivity|]. split.
  - constructor.
    + apply (raw_shrink Hps R4 [] sls). reflexivity.
    + cbn [eofs]. rewrite zlen_nil. lia.
    + intros o t [].
    + exact I.
  - eapply sameD_trans; [exact D1|]. eapply sameD_trans; [exact D2|]. eapply sameD_trans; eassumption.
Qed.

Lemma sl_init_eq p h : sl_init p ps h d =
  if ps <? sl_min_page_size h d 1 then Ok (false, p)
  else let* (ok, p1) := init_page_header p ps h in
       if negb ok then Ok (false, p1) else let* p2 := sl_discard_all p1 ps in Ok (true, p2).
Proof.
  unfold sl_init, sl_discard_all, bind. destruct (ps <? sl_min_page_size h d 1); [reflexivity|].
  destruct (init_page_header p ps h) as [[ok p1]|]; [|reflexivity]. destruct (negb ok); [reflexivity|].
  destruct (sl_off_space_occupied p1 ps) as [o1|]; [|reflexivity].
  destruct (write_value p1 o1 ps 0) as [p2|]; [|reflexivity].
  destruct (sl_off_tuple_count p2 ps) as [o2|]; [|reflexivity].
  destruct (write_value p2 o2 ps 0) as [p3|]; [|reflexivity].
  destruct (sl_off_tomb_stone_count p3 ps) as [o3|]; [|reflexivity].
  destruct (write_value p3 o3 ps 0) as [p4|]; [|reflexivity].
  destruct (sl_off_end_of_free_space_offset p4 ps) as [o4|]; [|reflexivity].
  destruct (write_value p4 o4 ps ps) as [p5|]; reflexivity.
Qed.

Lemma sl_init_spec p h : zlen p = ps -> 0 <= h <= ps - 32 ->
  exists p', sl_init p ps h d = Ok (sl_min_page_size h d 1 <=? ps, p') /\
    if sl_min_page_size h d 1 <=? ps then srep p' (repeat Byte.x00 (Z.to_nat h)) [] else p' = p.
Proof.
  intros Hl Hh. rewrite sl_init_eq. pose proof vs_r.
  destruct (Z.ltb_spec ps (sl_min_page_size h d 1)); destruct (Z.leb_spec (sl_min_page_size h d 1) ps); try lia.
  - exists p. split; reflexivity.
  - destruct (init_header_ok p h) as (p1 & E & L1 & S1 & S2 & _); [lia|lia|lia|].
    rewrite E. cbn [bind negb].
    destruct (raw_any p1 (repeat Byte.x00 (Z.to_nat h))) as (so & tc & ts & eo & R);
      rewrite ?zlen_repeat, ?Z2Nat.id by lia; try assumption; try lia.
    destruct (set_empty _ _ _ _ _ _ _ R) as (p2 & E2 & S & _). rewrite E2. cbn [bind].
    exists p2. split; [reflexivity|exact S].
Qed.

(** ** discard all *)
Lemma sl_discard_all_spec p hb es : srep p hb es ->
  exists p', sl_discard_all p ps = Ok p' /\ srep p' hb [].
Proof.
  intro S. destruct (set_empty _ _ _ _ _ _ _ (s_raw S)) as (p' & E & S' & _). exists p'. auto.
Qed.

(** ** append *)
Lemma ext_len_bounds x : ext_ok d x -> 0 <= xlen x <= max_bytes.
Proof.
  destruct x as [t|]; cbn; intro H.
  - pose proof (tuple_ok_pos _ _ Hdef H). destruct H as [_ H]. destruct Hdef. lia.
  - unfold max_bytes. lia.
Qed.

Lemma space_ok x : ext_ok d x -> sl_space_to_be_occupied ps d x = Ok (vs + xlen x).
Proof.
  intro H. pose proof (ext_len_bounds x H). pose proof vs_r. pose proof (eq_refl : max_bytes = 2147483520).
  destruct x as [t|]; cbn [xlen] in *; unfold sl_space_to_be_occupied, sl_overhead, ext_size.
  - destruct H as [H _]. rewrite H. cbn [bind]. rewrite u32_id by lia. reflexivity.
  - rewrite u32_id by lia. reflexivity.
Qed.

Lemma sl_can_append_spec p hb es x : srep p hb es -> ext_ok d x ->
  sl_can_append p ps d x = Ok (vs + xlen x <=? sfree ps hb es).
Proof.
  intros S Hx. unfold sl_can_append. rewrite space_ok by assumption. cbn [bind].
  rewrite (s_free Hps S). reflexivity.
Qed.

Lemma eofs_snoc_Some es o t : o <= eofs ps es -> eofs ps (es ++ [Some (o, t)]) = o.
Proof.
  intro H. pose proof (eofs_le_ps ps es). apply eofs_unique; [lia| |right; exists t; apply in_or_app; right; left; reflexivity].
  intros o' t' Hin. apply in_app_or in Hin as [Hin|[Hin|[]]].
  - apply eofs_le_in with (ps := ps) in Hin. lia.
  - inversion Hin. lia.
Qed.
Lemma eofs_snoc_None es : eofs ps (es ++ [None]) = eofs ps es.
Proof.
  induction es as [|[[o t]|] r IH]; cbn [app eofs]; [reflexivity| |]; rewrite IH; reflexivity.
Qed.

Lemma sl_append_spec p hb es x : srep p hb es -> ext_ok d x ->
  exists p', sl_append p ps d x = Ok (vs + xlen x <=? sfree ps hb es, p') /\
    if vs + xlen x <=? sfree ps hb es
    then exists e, option_map snd e = x /\ srep p' hb (es ++ [e]) /\
           sfree ps hb (es ++ [e]) = sfree ps hb es - (vs + xlen x)
    else p' = p.
Proof.
  intros S Hx. bnd S. pose proof (ext_len_bounds x Hx).
  unfold sl_append. rewrite (sl_can_append_spec _ _ _ _ S Hx). cbn [bind].
  destruct (Z.leb_spec (vs + xlen x) (sfree ps hb es)) as [Hfit|Hfit]; cbn [negb].
  2:{ exists p. split; reflexivity. }
  unfold sfree in Hfit.
  pose proof (s_raw S) as R0.
  rewrite (raw_off2 Hps R0). cbn [bind].
  rewrite (raw_read_tc Hps R0) by lia. cbn [bind].
  rewrite (u32_id (zlen es + 1)) by lia.
  destruct (raw_extend Hps R0) as [g R0']; [rewrite zlen_map; lia|].
  destruct (raw_wr_tc Hps R0' (zlen es + 1)) as (p1 & E1 & R1 & D1). rewrite E1; cbn [bind].
  rewrite (u32_id (zlen es + 1 - 1)) by lia. replace (zlen es + 1 - 1) with (zlen es) by lia.
  rewrite (raw_slot Hps R1) by lia. cbn [bind].
  assert (Zs : zlen (map soff es ++ [g]) = zlen es + 1) by (rewrite zlen_snoc, zlen_map; reflexivity).
  assert (Us : forall v, upd (map soff es ++ [g]) (zlen es) [v] = map soff es ++ [v]).
  { intro v. rewrite <- (zlen_map soff es). apply upd_snoc. }
  destruct x as [t|]; cbn [xlen] in *.
  - pose proof (tuple_ok_pos _ _ Hdef Hx) as Htpos.
    unfold ext_size. destruct Hx as [Hsz Hmx]. rewrite Hsz. cbn [bind].
    unfold sl_allocate. rewrite (raw_free Hps R1) by lia. cbn [bind].
    destruct (Z.ltb_spec (eofs ps es - (5 * vs + zlen hb + (zlen es + 1) * vs)) (zlen t)); [lia|].
    rewrite (raw_eofs Hps R1) by lia. cbn [bind].
    rewrite (raw_off4 Hps R1). cbn [bind].
    rewrite (u32_id (eofs ps es - zlen t)) by lia. set (off := eofs ps es - zlen t).
    destruct (raw_wr_eo Hps R1 off) as (p2 & E2 & R2 & D2). rewrite E2; cbn [bind].
    destruct (raw_wr_slot Hps R2 (zlen es) off) as (p3 & E3 & R3 & D3); [lia|].
    rewrite E3; cbn [bind]. rewrite Us in R3.
    assert (L1 : zlen p3 = ps) by apply R3.
    rewrite memcopy_ok by (unfold off; lia). cbn [bind].
    rewrite slice_all by reflexivity.
    assert (R4 : raw (upd p3 off t) hb (zlen es * vs + dsum es) (zlen es + 1) (tombs es) off (map soff es ++ [off])).
    { apply (raw_wr_data Hps R3); [|unfold off; lia]. rewrite zlen_snoc, zlen_map. unfold off; lia. }
    rewrite (raw_off1 Hps R4). cbn [bind].
    unfold sl_overhead. rewrite (u32_id (vs + zlen t)) by lia.
    destruct (raw_bump_so _ _ _ _ _ _ _ (vs + zlen t) R4) as (p5 & E5 & R5 & D5); [lia|lia|].
    rewrite E5; cbn [bind]. exists p5. split; [reflexivity|].
    exists (Some (off, t)). split; [reflexivity|].
    assert (Hlow : forall o' t', In (Some (o', t')) es -> off + zlen t <= o').
    { intros o' t' Hin. pose proof (eofs_le_in ps _ _ _ Hin). unfold off. lia. }
    assert (Heo : eofs ps (es ++ [Some (off, t)]) = off) by (apply eofs_snoc_Some; unfold off; lia).
    split; [|unfold sfree; rewrite Heo, zlen_snoc; unfold off; lia].
    constructor.
    + eapply raw_eq; [exact R5| | | | |].
      * rewrite zlen_snoc, dsum_app. cbn [dsum slen]. lia.
      * rewrite zlen_snoc. reflexivity.
      * rewrite tombs_app. cbn [tombs]. lia.
      * symmetry; exact Heo.
      * rewrite map_app. reflexivity.
    + rewrite Heo, zlen_snoc. unfold off. lia.
    + assert (D : sameD (5 * vs + zlen hb + (zlen es + 1) * vs) p p3).
      { eapply sameD_trans; [eapply sameD_mono; [|exact D1]; lia|].
        eapply sameD_trans; [eapply sameD_mono; [|exact D2]; lia|].
        rewrite Zs in D3. exact D3. }
      apply sdata_same with (lo := 5 * vs + zlen hb) (p := upd p3 off t).
      * exact D5.
      * apply R4.
      * intros o' t' Hin. apply in_app_or in Hin as [Hin|[Hin|[]]].
        -- apply Hlow in Hin. unfold off in *. lia.
        -- inversion Hin. unfold off in *. lia.
      * intros o' t' Hin. apply in_app_or in Hin as [Hin|[Hin|[]]].
        -- specialize (Hlow _ _ Hin). destruct (s_data S _ _ Hin) as (A1 & A2 & A3 & A4).
           split; [|auto]. rewrite slice_upd_dis by (unfold off in *; lia).
           destruct D as [_ D]. rewrite D by (unfold off in *; lia). exact A1.
        -- inversion Hin; subst o' t'. split; [apply slice_upd_same; unfold off; lia|].
           split; [split; assumption|]. unfold off; lia.
    + apply pd_app. split; [apply S|]. split; [cbn; tauto|].
      intros a b Ha [<-|[]]. destruct a as [[o' t']|]; cbn; [|exact I]. right. apply Hlow in Ha. lia.
  - destruct (raw_wr_slot Hps R1 (zlen es) 0) as (p2 & E2 & R2 & D2); [lia|].
    rewrite E2; cbn [bind]. rewrite Us in R2.
    rewrite (raw_off3 Hps R2). cbn [bind].
    destruct (raw_bump_ts _ _ _ _ _ _ _ 1 R2) as (p3 & E3 & R3 & D3); [lia|lia|].
    rewrite E3; cbn [bind]. rewrite (raw_off1 Hps R3). cbn [bind]. unfold sl_overhead.
    destruct (raw_bump_so _ _ _ _ _ _ _ vs R3) as (p4 & E4 & R4 & D4); [lia|lia|].
    rewrite E4; cbn [bind]. exists p4. split; [reflexivity|].
    exists None. split; [reflexivity|].
    split; [|unfold sfree; rewrite eofs_snoc_None, zlen_snoc; lia]. constructor.
    + eapply raw_eq; [exact R4| | | | |].
      * rewrite zlen_snoc, dsum_app. cbn [dsum slen]. lia.
      * rewrite zlen_snoc. reflexivity.
      * rewrite tombs_app. cbn [tombs]. lia.
      * symmetry; apply eofs_snoc_None.
      * rewrite map_app. reflexivity.
    + rewrite eofs_snoc_None, zlen_snoc. lia.
    + rewrite Zs in D2.
      apply sdata_same with (lo := 5 * vs + zlen hb + (zlen es + 1) * vs) (p := p).
      * eapply sameD_trans; [eapply sameD_mono; [|exact D1]; lia|].
        eapply sameD_trans; [exact D2|].
        eapply sameD_trans; [eapply sameD_mono; [|exact D3]; lia|].
        eapply sameD_mono; [|exact D4]; lia.
      * assumption.
      * intros o' t' Hin. apply in_app_or in Hin as [Hin|[Hin|[]]]; [|discriminate].
        pose proof (eofs_le_in ps _ _ _ Hin). lia.
      * intros o' t' Hin. apply in_app_or in Hin as [Hin|[Hin|[]]]; [|discriminate].
        apply (s_data S _ _ Hin).
    + apply pd_app. split; [apply S|]. split; [cbn; tauto|].
      intros a b Ha [<-|[]]. destruct a as [[o' t']|]; exact I.
Qed.

(** ** list helpers *)
Lemma upd_mid {A} (l1 l2 : list A) a b : upd (l1 ++ a :: l2) (zlen l1) [b] = l1 ++ b :: l2.
Proof.
  unfold upd. rewrite zlen_1. replace (Z.to_nat (zlen l1 + 1)) with (length l1 + 1)%nat by (unfold zlen; lia).
  unfold zlen. rewrite Nat2Z.id. rewrite firstn_app, Nat.sub_diag, firstn_all. cbn [firstn].
  rewrite app_nil_r. f_equal. rewrite skipn_app.
  rewrite skipn_all2 by lia. replace (length l1 + 1 - length l1)%nat with 1%nat by lia. reflexivity.
Qed.

Lemma split_at {A} (l : list A) i dflt : 0 <= i < zlen l ->
  exists l1 l2, l = l1 ++ nth (Z.to_nat i) l dflt :: l2 /\ zlen l1 = i /\
    firstn (Z.to_nat i) l = l1 /\ skipn (S (Z.to_nat i)) l = l2.
Proof.
  intro H. exists (firstn (Z.to_nat i) l), (skipn (S (Z.to_nat i)) l).
  split; [|split; [|split; reflexivity]].
  - rewrite <- (firstn_skipn (Z.to_nat i) l) at 1. f_equal.
    assert (Hl : (Z.to_nat i < length l)%nat) by (unfold zlen in H; lia).
    clear H. revert Hl. generalize (Z.to_nat i) as k. intros k. revert l. induction k as [|k IH]; intros l Hl.
    + destruct l; [cbn in Hl; lia|reflexivity].
    + destruct l; [cbn in Hl; lia|]. cbn [skipn nth]. apply IH. cbn in Hl. lia.
  - unfold zlen in *. rewrite firstn_length. lia.
Qed.

Lemma nth_mid {A} (l1 l2 : list A) a j dflt : 0 <= j ->
  nth (Z.to_nat j) (l1 ++ a :: l2) dflt =
  if j <? zlen l1 then nth (Z.to_nat j) l1 dflt
  else if j =? zlen l1 then a else nth (Z.to_nat (j - zlen l1 - 1)) l2 dflt.
Proof.
  intro Hj. unfold zlen.
  destruct (Z.ltb_spec j (Z.of_nat (length l1))).
  - apply app_nth1. lia.
  - rewrite app_nth2 by lia. destruct (Z.eqb_spec j (Z.of_nat (length l1))).
    + replace (Z.to_nat j - length l1)%nat with 0%nat by lia. reflexivity.
    + replace (Z.to_nat j - length l1)%nat with (S (Z.to_nat (j - Z.of_nat (length l1) - 1))) by lia. reflexivity.
Qed.
Lemma nth_app_z {A} (l1 l2 : list A) j dflt : 0 <= j ->
  nth (Z.to_nat j) (l1 ++ l2) dflt =
  if j <? zlen l1 then nth (Z.to_nat j) l1 dflt else nth (Z.to_nat (j - zlen l1)) l2 dflt.
Proof.
  intro Hj. unfold zlen. destruct (Z.ltb_spec j (Z.of_nat (length l1))).
  - apply app_nth1. lia.
  - rewrite app_nth2 by lia. f_equal. lia.
Qed.

(** ** moving slots around *)
Lemma raw_rotate p hb so tc ts eo l1 l2 z : raw p hb so tc ts eo (l1 ++ l2 ++ [z]) ->
  exists p', mem_right_rotate p (5 * vs + zlen hb + zlen l1 * vs) ((zlen l2 + 1) * vs) vs = Ok p' /\
    raw p' hb so tc ts eo (l1 ++ z :: l2) /\
    sameD (5 * vs + zlen hb + (zlen l1 + zlen l2 + 1) * vs) p p'.
Proof.
  intro R. pose proof vs_r. pose proof (r_len R). pose proof (r_bound R) as B. rewrite !zlen_app, zlen_1 in B.
  pose proof (zlen_nonneg hb). pose proof (zlen_nonneg l1). pose proof (zlen_nonneg l2).
  assert (0 <= zlen l1 * vs) by nia. assert (0 <= zlen l2 * vs) by nia.
  unfold mem_right_rotate.
  replace ((0 <=? vs) && (vs <=? (zlen l2 + 1) * vs)) with true by lia.
  rewrite rd_ok by lia. cbn [bind].
  set (o := 5 * vs + zlen hb + zlen l1 * vs). set (size := (zlen l2 + 1) * vs).
  set (bs := slice p o size).
  assert (Lbs : zlen bs = size) by (apply zlen_slice; unfold o, size; lia).
  assert (LA : zlen (slice bs (size - vs) vs) = vs) by (apply zlen_slice; unfold size in *; lia).
  assert (LB : zlen (slice bs 0 (size - vs)) = size - vs) by (apply zlen_slice; unfold size in *; lia).
  set (A := slice bs (size - vs) vs) in *. set (Bb := slice bs 0 (size - vs)) in *.
  assert (LAB : zlen (A ++ Bb) = size) by (rewrite zlen_app; lia).
  rewrite wr_ok by (rewrite ?LAB; unfold o, size; lia).
  eexists. split; [reflexivity|].
  split; [|apply sameD_upd; rewrite ?LAB; unfold o, size; lia].
  assert (Zl : zlen (l1 ++ z :: l2) = zlen l1 + zlen l2 + 1) by (rewrite zlen_app, zlen_cons; lia).
  constructor; rewrite ?Zl; try lia;
    try (rewrite slice_upd_dis by (rewrite ?LAB; unfold o, size; lia); apply R).
  - rewrite zlen_upd; rewrite ?LAB; unfold o, size; lia.
  - intros j Hj. rewrite nth_mid by lia.
    destruct (Z.ltb_spec j (zlen l1)).
    + assert (j * vs + vs <= zlen l1 * vs) by nia.
      rewrite slice_upd_dis by (rewrite ?LAB; unfold o, size; nia).
      rewrite (r_sl R) by (rewrite !zlen_app, zlen_1; lia).
      rewrite nth_app_z by lia. destruct (Z.ltb_spec j (zlen l1)); [reflexivity|lia].
    + destruct (Z.eqb_spec j (zlen l1)) as [->|Hne].
      * rewrite slice_upd_in by (rewrite ?LAB; unfold o, size; lia).
        replace (5 * vs + zlen hb + zlen l1 * vs - o) with 0 by (unfold o; lia).
        rewrite slice_app_l by lia. rewrite slice_all by lia. unfold A, bs.
        rewrite slice_slice by (unfold o, size; lia).
        replace (o + (size - vs)) with (5 * vs + zlen hb + (zlen l1 + zlen l2) * vs) by (unfold o, size; lia).
        rewrite (r_sl R) by (rewrite !zlen_app, zlen_1; lia).
        rewrite nth_app_z by lia. destruct (Z.ltb_spec (zlen l1 + zlen l2) (zlen l1)); [lia|].
        replace (zlen l1 + zlen l2 - zlen l1) with (zlen l2) by lia.
        rewrite nth_app_z by lia. destruct (Z.ltb_spec (zlen l2) (zlen l2)); [lia|].
        rewrite Z.sub_diag. reflexivity.
      * assert (zlen l1 * vs + vs <= j * vs) by nia.
        assert (j * vs + vs <= (zlen l1 + zlen l2 + 1) * vs) by nia.
        rewrite slice_upd_in by (rewrite ?LAB; unfold o, size; lia).
        rewrite slice_app_r by (unfold o; lia). rewrite LA. unfold Bb, bs.
        rewrite !slice_slice by (unfold o, size; lia).
        replace (o + (0 + (5 * vs + zlen hb + j * vs - o - vs))) with (5 * vs + zlen hb + (j - 1) * vs) by (unfold o; lia).
        rewrite (r_sl R) by (rewrite !zlen_app, zlen_1; lia).
        rewrite nth_app_z by lia. destruct (Z.ltb_spec (j - 1) (zlen l1)); [lia|].
        rewrite nth_app_z by lia. destruct (Z.ltb_spec (j - 1 - zlen l1) (zlen l2)); [|lia].
        do 2 f_equal. lia.
Qed.

Lemma raw_remove p hb so tc ts eo l1 l2 z : raw p hb so tc ts eo (l1 ++ z :: l2) ->
  exists p', memmove p (5 * vs + zlen hb + zlen l1 * vs) (5 * vs + zlen hb + (zlen l1 + 1) * vs) (zlen l2 * vs) = Ok p' /\
    raw p' hb so tc ts eo (l1 ++ l2) /\
    sameD (5 * vs + zlen hb + (zlen l1 + zlen l2) * vs) p p'.
Proof.
  intro R. pose proof vs_r. pose proof (r_len R). pose proof (r_bound R) as B. rewrite !zlen_app, zlen_cons in B.
  pose proof (zlen_nonneg hb). pose proof (zlen_nonneg l1). pose proof (zlen_nonneg l2).
  assert (0 <= zlen l1 * vs) by nia. assert (0 <= zlen l2 * vs) by nia.
  rewrite memmove_ok by lia.
  set (bs := slice p (5 * vs + zlen hb + (zlen l1 + 1) * vs) (zlen l2 * vs)).
  assert (Lbs : zlen bs = zlen l2 * vs) by (apply zlen_slice; lia).
  eexists. split; [reflexivity|].
  split; [|apply sameD_upd; rewrite ?Lbs; lia].
  assert (Zl : zlen (l1 ++ l2) = zlen l1 + zlen l2) by (rewrite zlen_app; lia).
  constructor; rewrite ?Zl; try lia;
    try (rewrite slice_upd_dis by (rewrite ?Lbs; lia); apply R).
  - rewrite zlen_upd; rewrite ?Lbs; lia.
  - intros j Hj. rewrite nth_app_z by lia.
    destruct (Z.ltb_spec j (zlen l1)).
    + assert (j * vs + vs <= zlen l1 * vs) by nia.
      rewrite slice_upd_dis by (rewrite ?Lbs; nia).
      rewrite (r_sl R) by (rewrite !zlen_app, zlen_cons; lia).
      rewrite nth_app_z by lia. destruct (Z.ltb_spec j (zlen l1)); [reflexivity|lia].
    + assert (zlen l1 * vs <= j * vs) by nia.
      assert (j * vs + vs <= (zlen l1 + zlen l2) * vs) by nia.
      rewrite slice_upd_in by (rewrite ?Lbs; lia). unfold bs. rewrite slice_slice by lia.
      replace (5 * vs + zlen hb + (zlen l1 + 1) * vs + (5 * vs + zlen hb + j * vs - (5 * vs + zlen hb + zlen l1 * vs)))
        with (5 * vs + zlen hb + (j + 1) * vs) by lia.
      rewrite (r_sl R) by (rewrite !zlen_app, zlen_cons; lia).
      rewrite nth_mid by lia. destruct (Z.ltb_spec (j + 1) (zlen l1)); [lia|].
      destruct (Z.eqb_spec (j + 1) (zlen l1)); [lia|]. do 2 f_equal. lia.
Qed.

(** swapping the bytes of two disjoint ranges *)
Lemma swap_bytes_ok k : forall m a b, 0 <= a -> a + Z.of_nat k <= b -> b + Z.of_nat k <= zlen m ->
  swap_bytes m a b k = Ok (upd (upd m a (slice m b (Z.of_nat k))) b (slice m a (Z.of_nat k))) /\
  swap_bytes m b a k = Ok (upd (upd m a (slice m b (Z.of_nat k))) b (slice m a (Z.of_nat k))).
Proof.
  induction k as [|k IH]; intros m a b Ha Hab Hb.
  - cbn [swap_bytes]. change (Z.of_nat 0) with 0 in *. rewrite !slice_0.
    assert (E : upd (upd m a []) b [] = m).
    { rewrite <- (slice_0 m a) at 1. rewrite upd_slice_id by lia. rewrite <- (slice_0 m b). apply upd_slice_id; lia. }
    rewrite E. split; reflexivity.
  - assert (L1 : zlen (slice m a 1) = 1) by (apply zlen_slice; lia).
    assert (L2 : zlen (slice m b 1) = 1) by (apply zlen_slice; lia).
    assert (Lk : forall o, 0 <= o -> o + Z.of_nat (S k) <= zlen m -> zlen (slice m o (Z.of_nat (S k))) = Z.of_nat (S k))
      by (intros; apply zlen_slice; lia).
    assert (main : forall m', m' = upd (upd m a (slice m b 1)) b (slice m a 1) ->
      upd (upd m' (a + 1) (slice m' (b + 1) (Z.of_nat k))) (b + 1) (slice m' (a + 1) (Z.of_nat k)) =
      upd (upd m a (slice m b (Z.of_nat (S k)))) b (slice m a (Z.of_nat (S k)))).
    { intros m' ->.
      set (m' := upd (upd m a (slice m b 1)) b (slice m a 1)).
      assert (Lm1 : zlen (upd m a (slice m b 1)) = zlen m) by (apply zlen_upd; lia).
      assert (Lm' : zlen m' = zlen m) by (unfold m'; rewrite zlen_upd; lia).
      assert (N : forall dd j, 0 <= j -> nth (Z.to_nat j) m' dd =
        if j =? a then nth (Z.to_nat b) m dd else if j =? b then nth (Z.to_nat a) m dd else nth (Z.to_nat j) m dd).
      { intros dd j Hj. unfold m'. rewrite nth_upd by lia. rewrite L1.
        destruct (Z.eqb_spec j a); destruct (Z.eqb_spec j b); try lia.
        - replace ((b <=? j) && (j <? b + 1)) with false by lia. rewrite nth_upd by lia. rewrite L2.
          replace ((a <=? j) && (j <? a + 1)) with true by lia. rewrite nth_slice by lia. f_equal. lia.
        - replace ((b <=? j) && (j <? b + 1)) with true by lia. rewrite nth_slice by lia. f_equal. lia.
        - replace ((b <=? j) && (j <? b + 1)) with false by lia. rewrite nth_upd by lia. rewrite L2.
          replace ((a <=? j) && (j <? a + 1)) with false by lia. reflexivity. }
      assert (Lk' : forall o, 0 <= o -> o + Z.of_nat k <= zlen m -> zlen (slice m' o (Z.of_nat k)) = Z.of_nat k)
        by (intros; apply zlen_slice; lia).
      assert (La := Lk a ltac:(lia) ltac:(lia)). assert (Lb := Lk b ltac:(lia) ltac:(lia)).
      assert (La' := Lk' (a+1) ltac:(lia) ltac:(lia)). assert (Lb' := Lk' (b+1) ltac:(lia) ltac:(lia)).
      assert (LL : zlen (upd m' (a + 1) (slice m' (b + 1) (Z.of_nat k))) = zlen m) by (rewrite zlen_upd; lia).
      assert (LR : zlen (upd m a (slice m b (Z.of_nat (S k)))) = zlen m) by (rewrite zlen_upd; lia).
      apply list_eq_nth.
      - rewrite !zlen_upd; lia.
      - intros dd j Hj. rewrite zlen_upd in Hj by lia. rewrite LL in Hj.
        rewrite !nth_upd by lia. rewrite La, Lb, La', Lb'.
        destruct ((b + 1 <=? j) && (j <? b + 1 + Z.of_nat k)) eqn:C1.
        + replace ((b <=? j) && (j <? b + Z.of_nat (S k))) with true by lia.
          rewrite !nth_slice by lia. rewrite N by lia.
          replace (a + 1 + (j - (b + 1)) =? a) with false by lia.
          replace (a + 1 + (j - (b + 1)) =? b) with false by lia. f_equal. lia.
        + destruct ((a + 1 <=? j) && (j <? a + 1 + Z.of_nat k)) eqn:C2.
          * replace ((b <=? j) && (j <? b + Z.of_nat (S k))) with false by lia.
            replace ((a <=? j) && (j <? a + Z.of_nat (S k))) with true by lia.
            rewrite !nth_slice by lia. rewrite N by lia.
            replace (b + 1 + (j - (a + 1)) =? a) with false by lia.
            replace (b + 1 + (j - (a + 1)) =? b) with false by lia. f_equal. lia.
          * rewrite N by lia.
            destruct (Z.eqb_spec j a); [|destruct (Z.eqb_spec j b)].
            -- replace ((b <=? j) && (j <? b + Z.of_nat (S k))) with false by lia.
               replace ((a <=? j) && (j <? a + Z.of_nat (S k))) with true by lia.
               rewrite !nth_slice by lia. f_equal. lia.
            -- replace ((b <=? j) && (j <? b + Z.of_nat (S k))) with true by lia.
               rewrite !nth_slice by lia. f_equal. lia.
            -- replace ((b <=? j) && (j <? b + Z.of_nat (S k))) with false by lia.
               replace ((a <=? j) && (j <? a + Z.of_nat (S k))) with false by lia. reflexivity. }
    assert (Lm1 : zlen (upd m a (slice m b 1)) = zlen m) by (apply zlen_upd; lia).
    assert (Lm2 : zlen (upd m b (slice m a 1)) = zlen m) by (apply zlen_upd; lia).
    cbn [swap_bytes]. rewrite !rd_ok by lia. cbn [bind]. rewrite !wr_ok by lia. cbn [bind].
    rewrite !wr_ok by lia. cbn [bind].
    assert (Sw : upd (upd m b (slice m a 1)) a (slice m b 1) = upd (upd m a (slice m b 1)) b (slice m a 1)).
    { apply list_eq_nth; [rewrite !zlen_upd; lia|]. intros dd j Hj.
      rewrite zlen_upd in Hj by lia. rewrite Lm2 in Hj. rewrite !nth_upd by lia. rewrite L1, L2.
      destruct ((a <=? j) && (j <? a + 1)) eqn:C1; destruct ((b <=? j) && (j <? b + 1)) eqn:C2; try reflexivity. lia. }
    rewrite Sw.
    assert (Lm3 : zlen (upd (upd m a (slice m b 1)) b (slice m a 1)) = zlen m) by (rewrite zlen_upd; lia).
    destruct (IH (upd (upd m a (slice m b 1)) b (slice m a 1)) (a + 1) (b + 1)) as [I1 I2]; [lia|lia|lia|].
    rewrite I1, I2. rewrite main by reflexivity. split; reflexivity.
Qed.

Lemma upd_swap_comm (m : mem) a b (x y : list byte) : 0 <= a -> a + zlen x <= zlen m -> 0 <= b -> b + zlen y <= zlen m ->
  a + zlen x <= b \/ b + zlen y <= a -> upd (upd m a x) b y = upd (upd m b y) a x.
Proof.
  intros. pose proof (zlen_nonneg x). pose proof (zlen_nonneg y).
  assert (L1 : zlen (upd m a x) = zlen m) by (apply zlen_upd; lia).
  assert (L2 : zlen (upd m b y) = zlen m) by (apply zlen_upd; lia).
  apply list_eq_nth; [rewrite !zlen_upd; lia|]. intros dd j Hj.
  rewrite zlen_upd in Hj by lia. rewrite !nth_upd by lia.
  destruct ((a <=? j) && (j <? a + zlen x)) eqn:C1; destruct ((b <=? j) && (j <? b + zlen y)) eqn:C2; try reflexivity. lia.
Qed.

Lemma swap_bytes_ok2 k m a b : 0 <= a -> 0 <= b -> a + Z.of_nat k <= zlen m -> b + Z.of_nat k <= zlen m ->
  a + Z.of_nat k <= b \/ b + Z.of_nat k <= a ->
  swap_bytes m a b k = Ok (upd (upd m a (slice m b (Z.of_nat k))) b (slice m a (Z.of_nat k))).
Proof.
  intros Ha Hb Ha' Hb' [H|H].
  - apply swap_bytes_ok; lia.
  - destruct (swap_bytes_ok k m b a) as [_ E]; [lia|lia|lia|]. rewrite E. f_equal.
    apply upd_swap_comm; rewrite ?zlen_slice; lia.
Qed.

(** a permutation of the slots *)
Lemma srep_perm p p' hb es es' : srep p hb es -> Permutation es es' ->
  raw p' hb (zlen es * vs + dsum es) (zlen es) (tombs es) (eofs ps es) (map soff es') ->
  sameD (5 * vs + zlen hb + zlen es * vs) p p' -> srep p' hb es'.
Proof.
  intros S P R D. bnd S.
  assert (Zl : zlen es' = zlen es) by (unfold zlen; rewrite (Permutation_length P); reflexivity).
  constructor.
  - rewrite Zl, <- (dsum_perm _ _ P), <- (tombs_perm _ _ P), <- (eofs_perm ps _ _ P). exact R.
  - rewrite Zl, <- (eofs_perm ps _ _ P). assumption.
  - apply sdata_same with (lo := 5 * vs + zlen hb + zlen es * vs) (p := p); try assumption.
    + intros o t Hin. apply Permutation_sym in P. apply (Permutation_in _ P) in Hin.
      pose proof (eofs_le_in ps _ _ _ Hin). lia.
    + eapply sdata_incl; [|apply S]. intros e He. apply Permutation_sym in P. apply (Permutation_in _ P He).
  - apply (pd_perm _ _ P). apply S.
Qed.

(** ** insert *)
Lemma sl_insert_spec p hb es i x : srep p hb es -> ext_ok d x -> 0 <= i < 4294967296 ->
  let c := (i <=? zlen es) && (vs + xlen x <=? sfree ps hb es) in
  exists p', sl_insert p ps d i x = Ok (c, p') /\
    if c then exists e, option_map snd e = x /\ srep p' hb (insert_at i e es) /\
                sfree ps hb (insert_at i e es) = sfree ps hb es - (vs + xlen x)
    else p' = p.
Proof.
  intros S Hx Hi c. bnd S. unfold sl_insert. rewrite (s_tuple_count Hps S). cbn [bind].
  destruct (Z.ltb_spec (zlen es) i).
  { exists p. replace c with false by (unfold c; lia). split; reflexivity. }
  destruct (sl_append_spec p hb es x S Hx) as (p1 & E1 & Hap). rewrite E1. cbn [bind].
  replace c with (vs + xlen x <=? sfree ps hb es) by (unfold c; lia).
  destruct (Z.leb_spec (vs + xlen x) (sfree ps hb es)); cbn [negb].
  2:{ exists p1. split; [reflexivity|assumption]. }
  destruct Hap as (e & He & S1 & Fr). rewrite (s_tuple_count Hps S1). cbn [bind]. rewrite zlen_snoc.
  rewrite (u32_id (zlen es + 1 - 1)) by lia.
  destruct (Z.eqb_spec i (zlen es + 1 - 1)) as [Hi1|Hi1].
  - exists p1. split; [reflexivity|]. exists e. split; [assumption|]. unfold insert_at.
    replace (Z.to_nat i) with (length es) by (unfold zlen in Hi1; lia). rewrite firstn_all, skipn_all. split; assumption.
  - set (l1 := firstn (Z.to_nat i) es). set (l2 := skipn (Z.to_nat i) es).
    assert (Ees : es = l1 ++ l2) by (symmetry; apply firstn_skipn).
    assert (Z1 : zlen l1 = i) by (unfold l1, zlen in *; rewrite firstn_length; lia).
    assert (Z2 : zlen l2 = zlen es - i) by (rewrite Ees, zlen_app; lia).
    assert (Bn : 5 * vs + zlen hb + (zlen es + 1) * vs <= ps).
    { pose proof (srep_bounds Hps S1) as B1. rewrite zlen_snoc in B1. lia. }
    pose proof (mul_vs i (zlen es + 1) ltac:(lia)). pose proof (mul_vs 0 i ltac:(lia)).
    pose proof (mul_vs 0 (zlen es + 1 - i) ltac:(lia)).
    pose proof (s_raw S1) as R1. rewrite (raw_slot Hps R1) by lia. cbn [bind].
    rewrite u32_id by lia.
    replace (map soff (es ++ [e])) with (map soff l1 ++ map soff l2 ++ [soff e]) in R1
      by (rewrite Ees, !map_app, <- app_assoc; reflexivity).
    destruct (raw_rotate _ _ _ _ _ _ _ _ _ R1) as (p2 & E2 & R2 & D2).
    rewrite !zlen_map, Z1, Z2 in E2. replace (zlen es - i + 1) with (zlen es + 1 - i) in E2 by lia.
    rewrite E2. cbn [bind]. exists p2. split; [reflexivity|]. exists e. split; [assumption|].
    assert (P : Permutation (es ++ [e]) (insert_at i e es)).
    { unfold insert_at. fold l1 l2. rewrite Ees at 1. rewrite <- app_assoc. apply Permutation_app_head.
      apply Permutation_sym, Permutation_cons_append. }
    split; [|unfold sfree in *; rewrite <- Fr, (eofs_perm ps _ _ P); unfold zlen; rewrite (Permutation_length P); reflexivity].
    apply srep_perm with (p := p1) (es := es ++ [e]).
    + exact S1.
    + exact P.
    + eapply raw_eq; [exact R2| | | | |]; try reflexivity. unfold insert_at. fold l1 l2. rewrite map_app. reflexivity.
    + rewrite zlen_snoc. rewrite !zlen_map in D2. eapply sameD_mono; [|exact D2]. lia.
Qed.

(** ** swap *)
Lemma swap_at_split {A} (l1 l2 l3 : list A) a b :
  swap_at (zlen l1) (zlen l1 + 1 + zlen l2) (l1 ++ a :: l2 ++ b :: l3) = l1 ++ b :: l2 ++ a :: l3 /\
  swap_at (zlen l1 + 1 + zlen l2) (zlen l1) (l1 ++ a :: l2 ++ b :: l3) = l1 ++ b :: l2 ++ a :: l3.
Proof.
  unfold swap_at. pose proof (zlen_nonneg l1). pose proof (zlen_nonneg l2).
  set (l := l1 ++ a :: l2 ++ b :: l3).
  assert (N1 : nth_error l (Z.to_nat (zlen l1)) = Some a).
  { unfold l, zlen. rewrite Nat2Z.id. rewrite nth_error_app2 by lia. rewrite Nat.sub_diag. reflexivity. }
  assert (El : l = (l1 ++ a :: l2) ++ b :: l3) by (unfold l; rewrite <- app_assoc; reflexivity).
  assert (Zj : Z.to_nat (zlen l1 + 1 + zlen l2) = length (l1 ++ a :: l2)).
  { rewrite app_length. cbn [length]. unfold zlen. lia. }
  assert (N2 : nth_error l (Z.to_nat (zlen l1 + 1 + zlen l2)) = Some b).
  { rewrite Zj, El. rewrite nth_error_app2 by lia. rewrite Nat.sub_diag. reflexivity. }
  rewrite N1, N2.
  assert (RP : forall (u w : list A) x y k, Z.to_nat k = length u -> replace_at k y (u ++ x :: w) = u ++ y :: w).
  { intros u w x y k Hk. unfold replace_at. rewrite Hk. rewrite firstn_app, Nat.sub_diag, firstn_all. cbn [firstn].
    rewrite app_nil_r. f_equal. f_equal. rewrite skipn_app. rewrite skipn_all2 by lia.
    replace (S (length u) - length u)%nat with 1%nat by lia. reflexivity. }
  assert (K1 : Z.to_nat (zlen l1) = length l1) by (unfold zlen; lia).
  split.
  - rewrite El. rewrite (RP (l1 ++ a :: l2) l3 b a) by assumption. rewrite <- app_assoc. cbn [app].
    rewrite (RP l1 _ a b) by assumption. reflexivity.
  - unfold l. rewrite (RP l1 _ a b) by assumption.
    replace (l1 ++ b :: l2 ++ b :: l3) with ((l1 ++ b :: l2) ++ b :: l3) by (rewrite <- app_assoc; reflexivity).
    rewrite (RP (l1 ++ b :: l2) l3 b a). 2:{ rewrite Zj, !app_length. cbn [length]. lia. }
    rewrite <- app_assoc. reflexivity.
Qed.

Lemma split_two {A} (l : list A) i j : 0 <= i < j -> j < zlen l ->
  exists l1 a l2 b l3, l = l1 ++ a :: l2 ++ b :: l3 /\ i = zlen l1 /\ j = zlen l1 + 1 + zlen l2.
Proof.
  intros Hi Hj. destruct l as [|dflt l0]; [rewrite zlen_nil in Hj; lia|]. set (l := dflt :: l0) in *.
  destruct (split_at l j dflt ltac:(lia)) as (u & l3 & E & Zu & _ & _).
  destruct (split_at u i dflt ltac:(lia)) as (l1 & l2 & E2 & Z1 & _ & _).
  exists l1, (nth (Z.to_nat i) u dflt), l2, (nth (Z.to_nat j) l dflt), l3.
  split; [|split].
  - rewrite E at 1. rewrite E2 at 1. rewrite <- app_assoc. reflexivity.
  - lia.
  - rewrite E2, zlen_app, zlen_cons in Zu. lia.
Qed.

Lemma raw_swap_slots p hb so tc ts eo l1 a l2 b l3 : raw p hb so tc ts eo (l1 ++ a :: l2 ++ b :: l3) ->
  let o1 := 5 * vs + zlen hb + zlen l1 * vs in
  let o2 := 5 * vs + zlen hb + (zlen l1 + 1 + zlen l2) * vs in
  let q := upd (upd p o1 (slice p o2 vs)) o2 (slice p o1 vs) in
  swap_values p o1 o2 ps = Ok q /\ swap_values p o2 o1 ps = Ok q /\
  raw q hb so tc ts eo (l1 ++ b :: l2 ++ a :: l3) /\
  sameD (5 * vs + zlen hb + zlen (l1 ++ a :: l2 ++ b :: l3) * vs) p q.
Proof.
  intros R o1 o2 q. pose proof vs_r. pose proof (r_len R). pose proof (r_bound R) as B.
  rewrite !zlen_app, zlen_cons, zlen_app, zlen_cons in B.
  pose proof (zlen_nonneg hb). pose proof (zlen_nonneg l1). pose proof (zlen_nonneg l2). pose proof (zlen_nonneg l3).
  assert (0 <= zlen l1 * vs) by nia. assert (0 <= zlen l2 * vs) by nia. assert (0 <= zlen l3 * vs) by nia.
  assert (O : o1 + vs <= o2) by (unfold o1, o2; lia). assert (O2 : o2 + vs <= ps) by (unfold o2; lia).
  assert (O1 : 5 * vs + zlen hb <= o1) by (unfold o1; lia).
  unfold swap_values.
  destruct (swap_bytes_ok vsn p o1 o2) as [E1 E2]; [lia|lia|lia|].
  rewrite Z2Nat.id in E1, E2 by lia. split; [exact E1|]. split; [exact E2|].
  assert (La : zlen (slice p o1 vs) = vs) by (apply zlen_slice; lia).
  assert (Lb : zlen (slice p o2 vs) = vs) by (apply zlen_slice; lia).
  assert (Lm : zlen (upd p o1 (slice p o2 vs)) = ps) by (rewrite zlen_upd; lia).
  assert (Zl : zlen (l1 ++ b :: l2 ++ a :: l3) = zlen l1 + 2 + zlen l2 + zlen l3)
    by (rewrite zlen_app, zlen_cons, zlen_app, zlen_cons; lia).
  assert (Zl' : zlen (l1 ++ a :: l2 ++ b :: l3) = zlen l1 + 2 + zlen l2 + zlen l3)
    by (rewrite zlen_app, zlen_cons, zlen_app, zlen_cons; lia).
  unfold q. split.
  - assert (Dj : forall o n, 0 <= o -> 0 <= n -> o + n <= ps -> (o + n <= o1 \/ o1 + vs <= o) -> (o + n <= o2 \/ o2 + vs <= o) ->
       slice (upd (upd p o1 (slice p o2 vs)) o2 (slice p o1 vs)) o n = slice p o n).
    { intros. rewrite !slice_upd_dis by lia. reflexivity. }
    constructor; rewrite ?Zl; try lia; try (rewrite Dj by lia; apply R).
    + rewrite zlen_upd; lia.
    + intros j Hj. rewrite nth_mid by lia.
      assert (0 <= j * vs) by nia. assert (j * vs + vs <= (zlen l1 + 2 + zlen l2 + zlen l3) * vs) by nia.
      assert (Rj := r_sl R j ltac:(rewrite Zl'; lia)). rewrite nth_mid in Rj by lia.
      destruct (Z.ltb_spec j (zlen l1)).
      * assert (j * vs + vs <= zlen l1 * vs) by nia. rewrite Dj by (unfold o1, o2 in *; lia). exact Rj.
      * destruct (Z.eqb_spec j (zlen l1)) as [->|].
        -- fold o1. rewrite slice_upd_dis by lia. rewrite slice_upd_same' by lia.
           assert (R2 := r_sl R (zlen l1 + 1 + zlen l2) ltac:(rewrite Zl'; lia)). fold o2 in R2. rewrite R2.
           rewrite nth_mid by lia. destruct (Z.ltb_spec (zlen l1 + 1 + zlen l2) (zlen l1)); [lia|].
           destruct (Z.eqb_spec (zlen l1 + 1 + zlen l2) (zlen l1)); [lia|].
           rewrite nth_mid by lia. replace (zlen l1 + 1 + zlen l2 - zlen l1 - 1) with (zlen l2) by lia.
           rewrite Z.ltb_irrefl, Z.eqb_refl. reflexivity.
        -- assert (zlen l1 * vs + vs <= j * vs) by nia.
           rewrite nth_mid by lia. rewrite nth_mid in Rj by lia.
           destruct (Z.ltb_spec (j - zlen l1 - 1) (zlen l2)).
           ++ assert (j * vs + vs <= (zlen l1 + 1 + zlen l2) * vs) by nia.
              rewrite Dj by (unfold o1, o2 in *; lia). exact Rj.
           ++ destruct (Z.eqb_spec (j - zlen l1 - 1) (zlen l2)).
              ** replace j with (zlen l1 + 1 + zlen l2) by lia. fold o2. rewrite slice_upd_same' by lia.
                 assert (R1 := r_sl R (zlen l1) ltac:(rewrite Zl'; lia)). fold o1 in R1. rewrite R1.
                 rewrite nth_mid by lia. rewrite Z.ltb_irrefl, Z.eqb_refl. reflexivity.
              ** assert ((zlen l1 + 1 + zlen l2) * vs + vs <= j * vs) by nia.
                 rewrite Dj by (unfold o1, o2 in *; lia). exact Rj.
  - rewrite Zl'. eapply sameD_trans; apply sameD_upd; try lia; unfold o1, o2 in *; lia.
Qed.

Lemma perm_swap_mid {A} (l1 l2 l3 : list A) a b :
  Permutation (l1 ++ a :: l2 ++ b :: l3) (l1 ++ b :: l2 ++ a :: l3).
Proof.
  apply Permutation_app_head. transitivity (a :: b :: l2 ++ l3).
  - constructor. apply Permutation_sym, Permutation_middle.
  - etransitivity; [apply perm_swap|]. constructor. apply Permutation_middle.
Qed.

Lemma sl_swap_spec p hb es i j : srep p hb es -> 0 <= i -> 0 <= j ->
  let c := (i <? zlen es) && (j <? zlen es) in
  exists p', sl_swap p ps i j = Ok (c, p') /\
    if c then srep p' hb (swap_at i j es) else p' = p.
Proof.
  intros S Hi Hj c. bnd S. unfold sl_swap. rewrite (s_tuple_count Hps S). cbn [bind].
  destruct ((zlen es <=? i) || (zlen es <=? j)) eqn:C.
  { exists p. replace c with false by (unfold c; lia). split; reflexivity. }
  replace c with true by (unfold c; lia).
  destruct (Z.eqb_spec i j) as [->|Hne].
  { exists p. split; [reflexivity|]. unfold swap_at. destruct (split_at es j None ltac:(lia)) as (l1 & l2 & E & Z1 & F1 & F2).
    assert (N : nth_error es (Z.to_nat j) = Some (nth (Z.to_nat j) es None)) by (apply nth_error_nth'; unfold zlen in *; lia).
    rewrite N. cut (forall l, l = es -> replace_at j (nth (Z.to_nat j) es None) l = es).
    { intro H'. rewrite !(H' es eq_refl). exact S. }
    intros l ->. unfold replace_at. rewrite F1, F2. symmetry. exact E. }
  pose proof (s_raw S) as R.
  pose proof (mul_vs i (zlen es) ltac:(lia)). pose proof (mul_vs j (zlen es) ltac:(lia)).
  rewrite (raw_slot Hps R i) by lia. cbn [bind]. rewrite (raw_slot Hps R j) by lia. cbn [bind].
  destruct (Z_lt_le_dec i j).
  - destruct (split_two es i j) as (l1 & a & l2 & b & l3 & E & -> & ->); [lia|lia|].
    replace (map soff es) with (map soff l1 ++ soff a :: map soff l2 ++ soff b :: map soff l3) in R
      by (rewrite E, map_app; cbn [map]; rewrite map_app; reflexivity).
    destruct (raw_swap_slots _ _ _ _ _ _ _ _ _ _ _ R) as (E1 & E2 & R' & D). rewrite !zlen_map in E1.
    rewrite E1. cbn [bind]. eexists. split; [reflexivity|].
    apply srep_perm with (p := p) (es := es); [exact S| | |].
    + rewrite E. rewrite (proj1 (swap_at_split l1 l2 l3 a b)). apply perm_swap_mid.
    + rewrite E at 6. rewrite (proj1 (swap_at_split l1 l2 l3 a b)). rewrite map_app. cbn [map]. rewrite map_app.
      rewrite !zlen_map in R'. exact R'.
    + rewrite !zlen_map in D. eapply sameD_mono; [|exact D].
      rewrite E. rewrite !zlen_app, !zlen_cons, !zlen_app, !zlen_cons, !zlen_map. lia.
  - destruct (split_two es j i) as (l1 & a & l2 & b & l3 & E & -> & ->); [lia|lia|].
    replace (map soff es) with (map soff l1 ++ soff a :: map soff l2 ++ soff b :: map soff l3) in R
      by (rewrite E, map_app; cbn [map]; rewrite map_app; reflexivity).
    destruct (raw_swap_slots _ _ _ _ _ _ _ _ _ _ _ R) as (E1 & E2 & R' & D). rewrite !zlen_map in E2.
    rewrite E2. cbn [bind]. eexists. split; [reflexivity|].
    apply srep_perm with (p := p) (es := es); [exact S| | |].
    + rewrite E. rewrite (proj2 (swap_at_split l1 l2 l3 a b)). apply perm_swap_mid.
    + rewrite E at 6. rewrite (proj2 (swap_at_split l1 l2 l3 a b)). rewrite map_app. cbn [map]. rewrite map_app.
      rewrite !zlen_map in R'. exact R'.
    + rewrite !zlen_map in D. eapply sameD_mono; [|exact D].
      rewrite E. rewrite !zlen_app, !zlen_cons, !zlen_app, !zlen_cons, !zlen_map. lia.
Qed.
End Page.
