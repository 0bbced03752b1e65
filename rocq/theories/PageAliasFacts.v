(** * A tuple on the page can be given to the operations on that page *)
From Coq Require Import ZifyBool ZifyNat ZifyN Zify.
From Verif Require Import BytesFacts SpecFacts.
From Verif Require Export PageAlias PageFacts.
Ltac Zify.zify_post_hook ::= Z.div_mod_to_equations.

(** what is there as long as the bytes of the tuple are *)
Lemma src_size_eq d p o t : slice p o (zlen t) = t -> 0 <= o -> o + zlen t <= zlen p -> tuple_size d t 0 = Ok (zlen t) ->
  src_size d p (Inside o) = ext_size d t.
Proof. intros E O L T. unfold src_size, ext_size. rewrite T. apply tuple_size_at with t; assumption. Qed.
Lemma src_move_eq p dst o t : slice p o (zlen t) = t -> 0 <= o -> o + zlen t <= zlen p ->
  src_move p dst (Inside o) (zlen t) = memcopy p dst t 0 (zlen t).
Proof.
  intros E O L. pose proof (zlen_nonneg t). unfold src_move, memmove, memcopy. rewrite !rd_ok by lia. cbn [bind]. rewrite E, slice_all by reflexivity. reflexivity.
Qed.

(** with memory of its own they are the functions of Slotted.v and FixedArray.v *)
Lemma outside_append p ps d x : append_source_on_page p ps d (option_map Outside x) = append_tuple_on_page p ps d x.
Proof. unfold append_source_on_page, append_tuple_on_page. destruct x; reflexivity. Qed.
Lemma outside_insert p ps d i x : insert_source_on_page p ps d i (option_map Outside x) = insert_tuple_on_page p ps d i x.
Proof. unfold insert_source_on_page, insert_tuple_on_page. destruct x; reflexivity. Qed.
Lemma outside_update p ps d i x : update_source_on_page p ps d i (option_map Outside x) = update_tuple_on_page p ps d i x.
Proof. unfold update_source_on_page, update_tuple_on_page. destruct x; reflexivity. Qed.

Section Page.
Variable ps : Z.
Variable d : size_def.
Hypothesis Hps : 128 <= ps <= max_bytes.
Hypothesis Hdef : def_ok d.
Notation vs := (value_size ps).
Notation raw := (raw ps).

Lemma wv_same p o v p' lo : write_value p o ps v = Ok p' -> o + vs <= lo -> sameD lo p p'.
Proof.
  intros E L. pose proof (value_size_range ps). unfold write_value in E. apply wr_inv in E as (O & B & ->). rewrite (zlen_encv ps) in B.
  apply sameD_upd; rewrite ?(zlen_encv ps); lia.
Qed.
Lemma bump_same p o v p' lo : bump p o ps v = Ok p' -> o + vs <= lo -> sameD lo p p'.
Proof. unfold bump. destruct (read_value p o ps) as [x|]; [|discriminate]. cbn [bind]. apply wv_same. Qed.
Lemma alloc_same p hb so tc ts eo sls n off p' : raw p hb so tc ts eo sls -> sl_allocate p ps n = Ok (off, p') ->
  sameD (5 * vs + zlen hb) p p'.
Proof.
  intros R. unfold sl_allocate. destruct (sl_free_space p ps) as [f|]; [|discriminate]. cbn [bind]. destruct (f <? n).
  { intro E. injection E as _ <-. apply sameD_refl. }
  destruct (sl_end_of_free_space p ps) as [e|]; [|discriminate]. cbn [bind]. rewrite (raw_off4 Hps R). cbn [bind].
  destruct (write_value p _ ps _) as [p1|] eqn:E; [|discriminate]. cbn [bind]. intro X. injection X as _ <-. eapply wv_same; [exact E|lia].
Qed.

(** ** slotted pages *)
Section Slotted.
Variables (p : mem) (hb : list byte) (es : list sentry) (o : Z) (t : list byte).
Hypothesis S : srep ps d p hb es.
Hypothesis I : In (Some (o, t)) es.
Local Notation lo := (5 * vs + zlen hb + zlen es * vs).

Lemma there p' lo' : sameD lo' p p' -> lo' <= o -> slice p' o (zlen t) = t /\ 0 <= o /\ o + zlen t <= zlen p'.
Proof.
  intros [L D] B. destruct (entry_pos Hps S I) as (P1 & P2 & P3 & P4 & P5 & P6). destruct (srep_bounds Hps S) as (Z0 & _).
  rewrite D by lia. split; [exact P4|]. lia.
Qed.
Lemma there_size p' lo' : sameD lo' p p' -> lo' <= o -> src_size d p' (Inside o) = Ok (zlen t).
Proof.
  intros D B. destruct (there p' lo' D B) as (A1 & A2 & A3). destruct (entry_pos Hps S I) as (_ & _ & _ & _ & [P5 _] & _).
  rewrite (src_size_eq d p' o t A1 A2 A3 P5). exact P5.
Qed.
Lemma there_move p' lo' dst : sameD lo' p p' -> lo' <= o -> src_move p' dst (Inside o) (zlen t) = memcopy p' dst t 0 (zlen t).
Proof. intros D B. destruct (there p' lo' D B) as (A1 & A2 & A3). apply src_move_eq; assumption. Qed.
Lemma ext_there : ext_size d t = Ok (zlen t).
Proof. destruct (entry_pos Hps S I) as (_ & _ & _ & _ & [P5 _] & _). exact P5. Qed.

Lemma sls_space_eq : sls_space_to_be_occupied p ps d (Some (Inside o)) = sl_space_to_be_occupied ps d (Some t).
Proof.
  unfold sls_space_to_be_occupied, sl_space_to_be_occupied. destruct (entry_pos Hps S I) as (P1 & _). 
  rewrite (there_size p lo (sameD_refl lo p)) by lia. rewrite ext_there. reflexivity.
Qed.
Lemma sls_can_append_eq : sls_can_append p ps d (Some (Inside o)) = sl_can_append p ps d (Some t).
Proof. unfold sls_can_append, sl_can_append. rewrite sls_space_eq. reflexivity. Qed.

Lemma sls_append_eq : sls_append p ps d (Some (Inside o)) = sl_append p ps d (Some t).
Proof.
  unfold sls_append, sl_append. rewrite sls_can_append_eq.
  destruct (entry_pos Hps S I) as (P1 & P2 & P3 & P4 & P5 & P6).
  rewrite (sl_can_append_spec _ _ Hps Hdef _ _ _ (Some t) S P5). cbn [bind xlen].
  pose proof (eofs_le_in ps es o t I) as EO. pose proof (value_size_range ps). pose proof (zlen_nonneg hb). pose proof (zlen_nonneg es).
  destruct (srep_bounds Hps S) as (B1 & B2 & B3 & B4 & B5 & B6 & B7 & B8). pose proof (eq_refl : max_bytes = 2147483520).
  destruct (Z.leb_spec (vs + zlen t) (sfree ps hb es)) as [Hfit|Hfit]; cbn [negb]; [|reflexivity]. unfold sfree in Hfit.
  pose proof (s_raw S) as R0. rewrite (raw_off2 Hps R0). cbn [bind]. rewrite (raw_read_tc Hps R0) by lia. cbn [bind].
  rewrite (u32_id (zlen es + 1)) by lia.
  destruct (raw_wr_tc Hps R0 (zlen es + 1)) as (p1 & E1 & R1 & D1). rewrite E1; cbn [bind].
  rewrite (u32_id (zlen es + 1 - 1)) by lia. replace (zlen es + 1 - 1) with (zlen es) by lia.
  rewrite (raw_slot Hps R1) by lia. cbn [bind]. rewrite ext_there, (there_size p1 _ D1) by lia. cbn [bind].
  destruct (sl_allocate p1 ps (zlen t)) as [[off p2]|] eqn:E2; [|reflexivity]. cbn [bind].
  pose proof (alloc_same _ _ _ _ _ _ _ _ _ _ R1 E2) as D2.
  destruct (write_value p2 _ ps off) as [p3|] eqn:E3; [|reflexivity]. cbn [bind].
  pose proof (wv_same _ _ _ _ (lo + vs) E3 ltac:(lia)) as D3.
  assert (D : sameD (lo + vs) p p3).
  { eapply sameD_trans; [eapply sameD_mono; [|exact D1]; lia|]. eapply sameD_trans; [eapply sameD_mono; [|exact D2]; lia|exact D3]. }
  rewrite (there_move p3 _ off D) by lia. reflexivity.
Qed.
Lemma sls_insert_eq i : sls_insert p ps d i (Some (Inside o)) = sl_insert p ps d i (Some t).
Proof. unfold sls_insert, sl_insert. rewrite sls_append_eq. reflexivity. Qed.
Lemma sls_can_update_eq i : sls_can_update p ps d i (Some (Inside o)) = sl_can_update p ps d i (Some t).
Proof.
  unfold sls_can_update, sl_can_update. destruct (entry_pos Hps S I) as (P1 & _).
  rewrite (there_size p lo (sameD_refl lo p)) by lia. rewrite ext_there. reflexivity.
Qed.
Lemma sls_update_eq i : 0 <= i -> sls_update p ps d i (Some (Inside o)) = sl_update p ps d i (Some t).
Proof.
  intro Hi. unfold sls_update, sl_update. rewrite sls_can_update_eq.
  destruct (entry_pos Hps S I) as (P1 & P2 & P3 & P4 & P5 & P6).
  rewrite (sl_can_update_spec _ _ Hps _ _ _ i (Some t) S P5 Hi). cbn [bind].
  destruct (can_upd ps hb es i (Some t)) eqn:C; cbn [negb]; [|reflexivity].
  pose proof (value_size_range ps). pose proof (zlen_nonneg hb). pose proof (zlen_nonneg es).
  destruct (srep_bounds Hps S) as (B1 & B2 & B3 & B4 & B5 & B6 & B7 & B8). pose proof (eq_refl : max_bytes = 2147483520).
  assert (Hn : i < zlen es) by (unfold can_upd in C; destruct (Z.leb_spec (zlen es) i); [discriminate|lia]).
  pose proof (mul_vs ps i (zlen es) ltac:(lia)). pose proof (mul_vs ps 0 i ltac:(lia)). pose proof (mul_vs ps (i + 1) (zlen es) ltac:(lia)).
  pose proof (s_raw S) as R. rewrite (raw_slot Hps R) by lia. cbn [bind].
  destruct (read_value p (5 * vs + zlen hb + i * vs) ps) as [old|] eqn:Eo; [|reflexivity]. cbn [bind].
  assert (Rd : read_value p (5 * vs + zlen hb + i * vs) ps = Ok (soff (nth (Z.to_nat i) es None))).
  { rewrite <- nth_soff. apply (raw_read_slot Hps R); [rewrite zlen_map; lia|]. rewrite nth_soff. apply (soff_range ps d Hps p hb); assumption. }
  rewrite Rd in Eo. injection Eo as Eo. clear Rd.
  rewrite ext_there, (there_size p lo (sameD_refl lo p)) by lia. cbn [bind].
  (* the rest, once the old tuple is discarded *)
  assert (G : forall place delta p3 so tc ts eo sls, raw p3 hb so tc ts eo sls -> sameD lo p p3 ->
    (let* p7 :=
      match place with
      | NoPlace => Ok p3
      | _ =>
          let* es := src_size d p3 (Inside o) in
          let* (off, p4) :=
            match place with
            | InFreeSpace => sl_allocate p3 ps es
            | _ => Ok (old, p3)
            end in
          let* p5 := write_value p4 (5 * vs + zlen hb + i * vs) ps off in
          let* p6 := src_move p5 off (Inside o) es in
          let* oso := sl_off_space_occupied p6 ps in
          bump p6 oso ps es
      end in
    let* p8 :=
      if delta =? 0 then Ok p7
      else let* ots := sl_off_tomb_stone_count p7 ps in bump p7 ots ps delta in
    Ok (true, p8)) =
    (let* p7 :=
      match place with
      | NoPlace => Ok p3
      | _ =>
          let* es := Ok (zlen t) in
          let* (off, p4) :=
            match place with
            | InFreeSpace => sl_allocate p3 ps es
            | _ => Ok (old, p3)
            end in
          let* p5 := write_value p4 (5 * vs + zlen hb + i * vs) ps off in
          let* p6 := memcopy p5 off t 0 es in
          let* oso := sl_off_space_occupied p6 ps in
          bump p6 oso ps es
      end in
    let* p8 :=
      if delta =? 0 then Ok p7
      else let* ots := sl_off_tomb_stone_count p7 ps in bump p7 ots ps delta in
    Ok (true, p8))).
  { intros place delta p3 so tc ts eo sls R3 D3. f_equal. destruct place; [reflexivity| |].
    - rewrite (there_size p3 _ D3) by lia. cbn [bind].
      destruct (sl_allocate p3 ps (zlen t)) as [[off p4]|] eqn:E4; [|reflexivity]. cbn [bind].
      pose proof (alloc_same _ _ _ _ _ _ _ _ _ _ R3 E4) as D4.
      destruct (write_value p4 _ ps off) as [p5|] eqn:E5; [|reflexivity]. cbn [bind].
      pose proof (wv_same _ _ _ _ lo E5 ltac:(lia)) as D5.
      assert (D : sameD lo p p5).
      { eapply sameD_trans; [exact D3|]. eapply sameD_trans; [eapply sameD_mono; [|exact D4]; lia|exact D5]. }
      rewrite (there_move p5 _ off D) by lia. reflexivity.
    - rewrite (there_size p3 _ D3) by lia. cbn [bind].
      destruct (write_value p3 _ ps old) as [p5|] eqn:E5; [|reflexivity]. cbn [bind].
      pose proof (wv_same _ _ _ _ lo E5 ltac:(lia)) as D5.
      rewrite (there_move p5 lo old (sameD_trans _ _ _ _ D3 D5)) by lia. reflexivity. }
  destruct (split_at es i None ltac:(lia)) as (l1 & l2 & E & Z1 & _ & _).
  destruct (nth (Z.to_nat i) es None) as [[oi ti]|] eqn:Ee; cbn [soff] in Eo; subst old.
  - assert (Hin : In (Some (oi, ti)) es) by (rewrite E; apply in_or_app; right; left; reflexivity).
    destruct (entry_pos Hps S Hin) as (_ & _ & Q3 & _). destruct (Z.eqb_spec oi 0); [lia|].
    destruct (tuple_size d p oi) as [is_|]; [|reflexivity]. cbn [bind]. destruct (sl_end_of_free_space p ps) as [e|]; [|reflexivity]. cbn [bind].
    assert (S' : srep ps d p hb (l1 ++ Some (oi, ti) :: l2)) by (rewrite <- E; exact S).
    destruct (discard_old_ok _ _ Hps _ _ _ _ _ _ S') as (p3 & E3 & R3 & D3). rewrite Z1 in E3.
    replace (zlen l1 + zlen l2 + 1) with (zlen es) in D3 by (rewrite E, zlen_app, zlen_cons; lia).
    destruct ((oi =? e) || (is_ <? zlen t)); cbn [bind]; rewrite E3; cbn [bind].
    + exact (G InFreeSpace 0 p3 _ _ _ _ _ R3 D3).
    + exact (G InPlace 0 p3 _ _ _ _ _ R3 D3).
  - cbn [Z.eqb bind]. exact (G InFreeSpace (-1) p _ _ _ _ _ R (sameD_refl lo p)).
Qed.
End Slotted.

(** ** fixed array pages *)
Section Fixed.
Hypothesis Hfix : sd_variable d = false.
Notation s := (sd_size d).
Notation cap hb := (fcap ps (zlen hb) (sd_size d)).
Notation T hb := (ftup ps (zlen hb) (sd_size d)).

Lemma f_there p hb tc ts B D j t dst : fraw ps d p hb tc ts B D -> 0 <= j < cap hb -> D j = t ->
  src_move p dst (Inside (T hb + j * s)) s = memcopy p dst t 0 s.
Proof.
  intros R J E. pose proof (slot_in ps d Hps Hdef Hfix _ _ _ _ _ _ R j J) as (A1 & A2 & A3). pose proof (f_len _ _ _ _ _ _ _ _ R) as L.
  pose proof (f_dat _ _ _ _ _ _ _ _ R j J) as X. rewrite E in X. pose proof (s_r d Hdef Hfix).
  pose proof (f_bound _ _ _ _ _ _ _ _ R). pose proof (zlen_nonneg hb). pose proof (value_size_range ps).
  assert (0 <= j / 8) by (apply Z.div_pos; lia).
  assert (zlen t = s) as Lt by (rewrite <- X; apply zlen_slice; lia). rewrite <- Lt. apply src_move_eq; rewrite ?Lt; try lia. exact X.
Qed.

Section At.
Variables (p : mem) (hb : list byte) (c : content) (j : Z) (t : list byte).
Hypothesis F : frep ps d p hb c.
Hypothesis J : 0 <= j < zlen c.
Hypothesis N : nth (Z.to_nat j) c None = Some t.
Local Notation o := (T hb + j * s).

Lemma fas_append_eq : fas_append p ps d (Some (Inside o)) = fa_append p ps d (Some t).
Proof.
  unfold fas_append, fa_append. rewrite (fa_can_append_spec ps d Hps Hdef Hfix _ _ _ F). cbn [bind].
  destruct F as [Hc (B & D & R & [_ Hn])]. pose proof (zlen_nonneg c). pose proof (zlen_nonneg hb). pose proof (value_size_range ps). 
  pose proof (f_bound _ _ _ _ _ _ _ _ R). pose proof (fcap_facts ps d Hps Hdef Hfix (zlen hb) ltac:(lia) ltac:(lia)) as (C0 & C1 & C2 & C3).
  pose proof (eq_refl : max_bytes = 2147483520).
  destruct (Z.ltb_spec (zlen c) (cap hb)) as [Hlt|]; cbn [negb]; [|reflexivity].
  rewrite (q_off1 ps d Hps Hdef Hfix R). cbn [bind]. rewrite (q_rtc ps d Hps Hdef Hfix R) by lia. cbn [bind].
  rewrite !u32_id by (rewrite ?u32_id; lia). replace (zlen c + 1 - 1) with (zlen c) by lia.
  destruct (q_wtc ps d Hps Hdef Hfix R (zlen c + 1)) as (p1 & E1 & R1). rewrite E1. cbn [bind].
  rewrite (q_off3 ps d Hps Hdef Hfix R1). cbn [bind]. unfold set_bit.
  destruct (q_put ps d Hps Hdef Hfix R1 (zlen c) true) as (p2 & E2 & R2); [lia|]. rewrite E2. cbn [bind].
  rewrite (q_ith ps d Hps Hdef Hfix R2) by lia. cbn [bind].
  rewrite (f_there _ _ _ _ _ _ j t _ R2) by (try lia; specialize (Hn j J); rewrite N in Hn; destruct (B j); congruence). reflexivity.
Qed.
Lemma fas_insert_eq i : fas_insert p ps d i (Some (Inside o)) = fa_insert p ps d i (Some t).
Proof. unfold fas_insert, fa_insert. rewrite fas_append_eq. reflexivity. Qed.
Lemma fas_update_eq i : 0 <= i -> fas_update p ps d i (Some (Inside o)) = fa_update p ps d i (Some t).
Proof.
  intro Hi. unfold fas_update, fa_update, fa_can_update. rewrite (fr_count ps d Hps Hdef Hfix _ _ _ F). cbn [bind].
  destruct F as [Hc (B & D & R & [_ Hn])]. pose proof (zlen_nonneg c). pose proof (zlen_nonneg hb). pose proof (value_size_range ps). 
  pose proof (f_bound _ _ _ _ _ _ _ _ R). pose proof (fcap_facts ps d Hps Hdef Hfix (zlen hb) ltac:(lia) ltac:(lia)) as (C0 & C1 & C2 & C3).
  pose proof (eq_refl : max_bytes = 2147483520). pose proof (ts_range c).
  destruct (Z.ltb_spec i (zlen c)); cbn [negb]; [|reflexivity].
  rewrite (q_off3 ps d Hps Hdef Hfix R). cbn [bind]. rewrite (q_off2 ps d Hps Hdef Hfix R). cbn [bind]. rewrite (q_bit ps d Hps Hdef Hfix R) by lia. cbn [bind].
  assert (G : forall p2 ts B', fraw ps d p2 hb (zlen c) ts B' D -> 0 < ts <= zlen c ->
    (let* p3 := set_bit p2 (3 * vs + zlen hb) i in
     let* p4 := bump p3 (2 * vs + zlen hb) ps (-1) in
     let* o1 := fa_off_ith p4 ps d i in let* p5 := src_move p4 o1 (Inside o) s in Ok (true, p5)) =
    (let* p3 := set_bit p2 (3 * vs + zlen hb) i in
     let* p4 := bump p3 (2 * vs + zlen hb) ps (-1) in
     let* o1 := fa_off_ith p4 ps d i in let* p5 := memcopy p4 o1 t 0 s in Ok (true, p5))).
  { intros p2 ts B' R2 Hts. unfold set_bit.
    destruct (q_put ps d Hps Hdef Hfix R2 i true) as (p3 & E3 & R3); [lia|]. rewrite E3. cbn [bind].
    destruct (q_bts ps d Hps Hdef Hfix R3 (-1)) as (p4 & E4 & R4); [lia|lia|]. rewrite E4. cbn [bind].
    rewrite (q_ith ps d Hps Hdef Hfix R4) by lia. cbn [bind].
    rewrite (f_there _ _ _ _ _ _ j t _ R4) by (try lia; specialize (Hn j J); rewrite N in Hn; destruct (B j); congruence). reflexivity. }
  destruct (B i) eqn:Bi; cbn [bind].
  - unfold reset_bit. destruct (q_put ps d Hps Hdef Hfix R i false) as (p1 & E1 & R1); [lia|]. rewrite E1. cbn [bind].
    destruct (q_bts ps d Hps Hdef Hfix R1 1) as (p2 & E2 & R2); [lia|lia|]. rewrite E2. cbn [bind]. apply (G _ _ _ R2).
    assert (tomb_stones c < zlen c); [|lia]. clear - N J. destruct (split_at c j None J) as (l1 & l2 & E & _). rewrite N in E. rewrite E.
    rewrite ts_app, ts_cons, zlen_app, zlen_cons. pose proof (ts_range l1). pose proof (ts_range l2). unfold t1. cbn [is_tomb_stone]. lia.
  - apply (G _ _ _ R). specialize (Hn i ltac:(lia)). rewrite Bi in Hn. split; [|lia].
    destruct (split_at c i None ltac:(lia)) as (l1 & l2 & E & _). rewrite Hn in E. rewrite E.
    rewrite ts_app, ts_cons. pose proof (ts_range l1). pose proof (ts_range l2). unfold t1. cbn [is_tomb_stone]. lia.
Qed.
End At.
End Fixed.

(** ** both layouts *)
Section View.
Variables (p : mem) (hb : list byte) (c : content) (f j o : Z).
Hypothesis V : view ps d p hb c f.
Hypothesis J : 0 <= j.
Hypothesis G : get_nth_tuple_on_page p ps d j = Ok (Some o).

Lemma alias_ok : exists t, j < zlen c /\ nth (Z.to_nat j) c None = Some t /\ tuple_ok d t
  /\ tuple_size d p o = Ok (zlen t) /\ slice p o (zlen t) = t
  /\ append_source_on_page p ps d (Some (Inside o)) = append_tuple_on_page p ps d (Some t)
  /\ can_append_source_on_page p ps d (Some (Inside o)) = can_append_tuple_on_page p ps d (Some t)
  /\ space_to_be_occupied_by_source p ps d (Some (Inside o)) = get_space_to_be_occupied_by_tuple_on_page ps d (Some t)
  /\ forall i, 0 <= i -> insert_source_on_page p ps d i (Some (Inside o)) = insert_tuple_on_page p ps d i (Some t)
     /\ can_insert_source_on_page p ps d i (Some (Inside o)) = can_insert_tuple_on_page p ps d i (Some t)
     /\ update_source_on_page p ps d i (Some (Inside o)) = update_tuple_on_page p ps d i (Some t)
     /\ can_update_source_on_page p ps d i (Some (Inside o)) = can_update_tuple_on_page p ps d i (Some t).
Proof.
  destruct (v_get_nth ps d Hps Hdef p hb c f j V J) as (x & E & X). rewrite G in E. injection E as <-. destruct X as (LJ & t & N & TS & RD & B1 & B2 & OK).
  exists t. pose proof (view_len ps d Hps _ _ _ _ V) as L. pose proof (zlen_nonneg hb). pose proof (zlen_nonneg t). pose proof (value_size_range ps).
  rewrite rd_ok in RD by lia. injection RD as SL. 
  do 5 (split; [assumption|]).
  unfold append_source_on_page, append_tuple_on_page, can_append_source_on_page, can_append_tuple_on_page, space_to_be_occupied_by_source,
    get_space_to_be_occupied_by_tuple_on_page, insert_source_on_page, insert_tuple_on_page, can_insert_source_on_page, can_insert_tuple_on_page,
    update_source_on_page, update_tuple_on_page, can_update_source_on_page, can_update_tuple_on_page, can_append_source_on_page, can_append_tuple_on_page.
  unfold view in V. unfold get_nth_tuple_on_page, get_tuple_count_on_page, get_page_layout_type, is_variable_sized in *. destruct (sd_variable d) eqn:Ev.
  - destruct V as (es & S & CE & _). 
    assert (I : In (Some (o, t)) es).
    { rewrite (s_get_nth Hps S) in G by lia. destruct (Z.ltb_spec j (zlen es)); [|discriminate]. rewrite <- CE, nth_content in N.
      destruct (nth_in_or_None es (Z.to_nat j)) as [I|I]; [|rewrite I in N; discriminate].
      destruct (nth (Z.to_nat j) es None) as [[o' t']|]; [|discriminate]. cbn in N, G. congruence. }
    split; [apply (sls_append_eq p hb es o t S I)|]. split; [apply (sls_can_append_eq p hb es o t S I)|]. split; [apply (sls_space_eq p hb es o t S I)|].
    intros i Hi. split; [apply (sls_insert_eq p hb es o t S I)|]. split; [rewrite (sls_can_append_eq p hb es o t S I); reflexivity|].
    split; [apply (sls_update_eq p hb es o t S I i Hi)|apply (sls_can_update_eq p hb es o t S I)].
  - destruct V as [F _].
    assert (o = ftup ps (zlen hb) (sd_size d) + j * sd_size d) as ->.
    { destruct (fr_get_nth ps d Hps Hdef Ev _ _ _ _ F J) as [E _]. rewrite E in G. destruct (Z.ltb_spec j (zlen c)); [|lia]. rewrite N in G. congruence. }
    split; [apply (fas_append_eq Ev p hb c j t F ltac:(lia) N)|]. split; [reflexivity|]. split; [reflexivity|].
    intros i Hi. split; [apply (fas_insert_eq Ev p hb c j t F ltac:(lia) N)|]. split; [reflexivity|].
    split; [apply (fas_update_eq Ev p hb c j t F ltac:(lia) N i Hi)|reflexivity].
Qed.
End View.
End Page.
