(** * Slotted pages: trailing tomb stones, zero out, compaction, space queries *)
From Coq Require Import ZifyBool ZifyNat ZifyN Zify Permutation Sorted.
From Verif Require Import BytesFacts Spec.
From Verif Require Export SlottedOps2.
Ltac Zify.zify_post_hook ::= Z.div_mod_to_equations.

(** entries without the tomb stones at the end *)
Fixpoint drop_none {A} (l : list (option A)) : list (option A) :=
  match l with None :: r => drop_none r | _ => l end.
Definition strip {A} (l : list (option A)) : list (option A) := rev (drop_none (rev l)).

Lemma strip_nil {A} : strip (@nil (option A)) = [].
Proof. reflexivity. Qed.
Lemma strip_None {A} (l : list (option A)) : strip (l ++ [None]) = strip l.
Proof. unfold strip. rewrite rev_app_distr. reflexivity. Qed.
Lemma strip_Some {A} (l : list (option A)) a : strip (l ++ [Some a]) = l ++ [Some a].
Proof. unfold strip. rewrite rev_app_distr. cbn [rev app drop_none]. rewrite rev_involutive. reflexivity. Qed.

Lemma strip_split {A} (l : list (option A)) : exists k, l = strip l ++ repeat None k.
Proof.
  induction l as [|e l IH] using rev_ind.
  - exists 0%nat. reflexivity.
  - destruct e as [a|].
    + exists 0%nat. rewrite strip_Some, app_nil_r. reflexivity.
    + destruct IH as [k IH]. exists (S k). rewrite strip_None.
      replace (repeat None (S k)) with (repeat (@None A) k ++ [None])
        by (symmetry; replace (S k) with (k + 1)%nat by lia; apply repeat_app).
      rewrite app_assoc, <- IH. reflexivity.
Qed.

Lemma strip_map {A B} (f : A -> B) l : strip (map (option_map f) l) = map (option_map f) (strip l).
Proof.
  induction l as [|e l IH] using rev_ind; [reflexivity|]. rewrite map_app. cbn [map]. destruct e as [a|]; cbn [option_map].
  - rewrite !strip_Some, map_app. reflexivity.
  - rewrite !strip_None. exact IH.
Qed.

Lemma leading_nonneg c : 0 <= leading_tomb_stones c.
Proof. induction c as [|[t|] c IH]; cbn [leading_tomb_stones]; lia. Qed.

Lemma strip_spec (c : content) : strip c = drop_last (trailing_tomb_stones c) c /\
  zlen c - zlen (strip c) = trailing_tomb_stones c.
Proof.
  unfold drop_last, trailing_tomb_stones.
  induction c as [|e c IH] using rev_ind; [split; reflexivity|].
  rewrite rev_app_distr. cbn [rev app]. rewrite app_length. cbn [length].
  destruct e as [t|]; cbn [leading_tomb_stones].
  - rewrite strip_Some. cbn [Z.to_nat]. split; [|lia]. rewrite firstn_all2; [reflexivity|]. rewrite app_length. cbn [length]. lia.
  - rewrite strip_None. pose proof (leading_nonneg (rev c)). destruct IH as [IH1 IH2]. split.
    + rewrite IH1. replace (length c + 1 - Z.to_nat (1 + leading_tomb_stones (rev c)))%nat
        with (length c - Z.to_nat (leading_tomb_stones (rev c)))%nat by lia.
      rewrite firstn_app. replace (length c - Z.to_nat (leading_tomb_stones (rev c)) - length c)%nat with 0%nat by lia.
      cbn [firstn]. rewrite app_nil_r. reflexivity.
    + rewrite zlen_snoc. lia.
Qed.

Lemma dsum_repeat_None k : dsum (repeat None k) = 0.
Proof. induction k; cbn [repeat dsum slen]; lia. Qed.
Lemma tombs_repeat_None k : tombs (repeat None k) = Z.of_nat k.
Proof. induction k; cbn [repeat tombs]; lia. Qed.
Lemma eofs_app_None ps es k : eofs ps (es ++ repeat None k) = eofs ps es.
Proof.
  induction es as [|[[o t]|] r IH]; cbn [app eofs]; [|rewrite IH; reflexivity|exact IH].
  induction k; cbn [repeat eofs]; [reflexivity|assumption].
Qed.

Section Page.
Variable ps : Z.
Variable d : size_def.
Hypothesis Hps : 128 <= ps <= max_bytes.
Hypothesis Hdef : def_ok d.
Notation vs := (value_size ps).
Notation vsn := (Z.to_nat (value_size ps)).
Notation raw := (raw ps).
Notation srep := (srep ps d).
Notation sdata := (sdata ps d).

Lemma vs_r : 1 <= vs <= 4. Proof. apply value_size_range. Qed.

Ltac bnd S := pose proof (srep_bounds Hps S) as (? & ? & ? & ? & ? & ? & ? & ?);
  pose proof (s_fit S); pose proof vs_r;
  pose proof (ps_lt ps Hps);
  match type of S with SlottedFacts.srep _ _ _ ?hb ?es =>
    pose proof (zlen_nonneg hb); pose proof (zlen_nonneg es); pose proof (tombs_range es) end;
  pose proof (eq_refl : max_bytes = 2147483520).
Ltac mulvs i j := pose proof (mul_vs ps i j ltac:(lia)).

(** ** discard trailing tomb stones *)
Lemma trailing_loop_ok p hb es : srep p hb es -> forall cur rest, es = cur ++ rest ->
  forall k r, (length cur <= k)%nat -> 0 <= r -> r + zlen cur < ps ->
  sl_trailing_loop p ps k (zlen cur * vs + dsum cur) (zlen cur) (tombs cur) r =
  Ok (zlen (strip cur) * vs + dsum (strip cur), zlen (strip cur), tombs (strip cur), r + (zlen cur - zlen (strip cur))).
Proof.
  intros S. bnd S. induction cur as [|e cur IH] using rev_ind; intros rest E k r Hk Hr Hrn.
  - rewrite strip_nil. change (zlen (@nil (option (Z * list byte)))) with 0. cbn [dsum tombs].
    destruct k as [|k]; cbn [sl_trailing_loop]; [|cbn [Z.ltb Z.compare]]; repeat f_equal; lia.
  - rewrite app_length in Hk. cbn [length] in Hk. destruct k as [|k]; [lia|]. cbn [sl_trailing_loop].
    rewrite zlen_snoc in *. pose proof (zlen_nonneg cur).
    destruct (Z.ltb_spec 0 (zlen cur + 1)); [|lia].
    assert (Zes : zlen es = zlen cur + 1 + zlen rest) by (rewrite E, zlen_app, zlen_snoc; reflexivity).
    pose proof (zlen_nonneg rest).
    rewrite u32_id by lia. replace (zlen cur + 1 - 1) with (zlen cur) by lia.
    rewrite (s_ith Hps S) by lia. cbn [bind].
    assert (Hn : nth (Z.to_nat (zlen cur)) es None = e).
    { rewrite E. rewrite <- app_assoc. unfold zlen. rewrite Nat2Z.id. rewrite app_nth2 by lia. rewrite Nat.sub_diag. reflexivity. }
    assert (Hz := s_soff_zero Hps S (zlen cur) ltac:(lia)). rewrite Hn in *. rewrite Hz.
    destruct e as [[o t]|]; cbn [option_map is_tomb_stone snd].
    + rewrite strip_Some, zlen_snoc. repeat f_equal; lia.
    + rewrite strip_None. rewrite dsum_app, tombs_app. cbn [dsum tombs slen].
      mulvs 0 (zlen cur). pose proof (dsum_nonneg cur). pose proof (tombs_range cur).
      assert (dsum cur <= dsum es). { rewrite E, !dsum_app. cbn [dsum slen]. pose proof (dsum_nonneg rest). lia. }
      mulvs (zlen cur + 1) (zlen es).
      unfold sl_overhead. rewrite !u32_id by lia.
      replace ((zlen cur + 1) * vs + (dsum cur + (0 + 0)) - vs) with (zlen cur * vs + dsum cur) by lia.
      replace (tombs cur + (1 + 0) - 1) with (tombs cur) by lia.
      rewrite (IH (None :: rest)) by (try (rewrite E, <- app_assoc; reflexivity); lia).
      f_equal. f_equal. lia.
Qed.

Lemma sl_discard_trailing_spec p hb es : srep p hb es ->
  exists p', sl_discard_trailing p ps = Ok (zlen es - zlen (strip es), p') /\ srep p' hb (strip es).
Proof.
  intro S. bnd S. pose proof (s_raw S) as R. unfold sl_discard_trailing.
  rewrite (raw_off1 Hps R). cbn [bind]. rewrite (raw_off2 Hps R). cbn [bind]. rewrite (raw_off3 Hps R). cbn [bind].
  rewrite (raw_read_so Hps R) by lia. cbn [bind]. rewrite (raw_read_tc Hps R) by lia. cbn [bind].
  rewrite (raw_read_ts Hps R) by lia. cbn [bind].
  rewrite (trailing_loop_ok _ _ _ S es []) by (rewrite ?app_nil_r; unfold zlen in *; try reflexivity; lia).
  cbn [bind].
  destruct (raw_wr_so Hps R (zlen (strip es) * vs + dsum (strip es))) as (p1 & E1 & R1 & D1). rewrite E1. cbn [bind].
  destruct (raw_wr_tc Hps R1 (zlen (strip es))) as (p2 & E2 & R2 & D2). rewrite E2. cbn [bind].
  destruct (raw_wr_ts Hps R2 (tombs (strip es))) as (p3 & E3 & R3 & D3). rewrite E3. cbn [bind].
  exists p3. split; [reflexivity|]. destruct (strip_split es) as [k Ek].
  assert (Hle : zlen (strip es) <= zlen es). { rewrite Ek at 2. rewrite zlen_app. pose proof (zlen_nonneg (repeat (@None (Z * list byte)) k)). lia. }
  assert (Eeo : eofs ps es = eofs ps (strip es)) by (rewrite Ek at 1; apply eofs_app_None).
  constructor.
  - rewrite <- Eeo. apply (raw_shrink Hps R3) with (x := map soff (repeat None k)).
    rewrite <- map_app, <- Ek. reflexivity.
  - rewrite <- Eeo. mulvs (zlen (strip es)) (zlen es). lia.
  - apply sdata_same with (lo := 5 * vs + zlen hb) (p := p).
    + eapply sameD_trans; [exact D1|]. eapply sameD_trans; [exact D2|exact D3].
    + assumption.
    + intros o t Hin. pose proof (eofs_le_in ps _ _ _ Hin). lia.
    + eapply sdata_incl; [|apply S]. intros x Hx. rewrite Ek. apply in_or_app; auto.
  - pose proof (s_pd S) as P. rewrite Ek in P. apply pd_app in P. tauto.
Qed.

(** ** zero out *)
Lemma sl_zero_out_spec p hb es : srep p hb es ->
  exists p', sl_zero_out p ps = Ok (negb (sfree ps hb es =? 0), p') /\ srep p' hb es /\
    (forall o n, 0 <= o -> 0 <= n -> o + n <= ps ->
       o + n <= 5 * vs + zlen hb + zlen es * vs \/ eofs ps es <= o -> slice p' o n = slice p o n) /\
    slice p' (5 * vs + zlen hb + zlen es * vs) (sfree ps hb es) = repeat Byte.x00 (Z.to_nat (sfree ps hb es)).
Proof.
  intro S. bnd S. unfold sl_zero_out. rewrite (s_free Hps S). cbn [bind].
  destruct (Z.eqb_spec (sfree ps hb es) 0) as [E|E]; cbn [negb].
  - exists p. split; [reflexivity|]. split; [exact S|]. split; [reflexivity|]. rewrite E. apply slice_0.
  - rewrite (s_start Hps S). cbn [bind]. rewrite (s_eofs Hps S). cbn [bind].
    unfold sfree in *. rewrite u32_id by lia. rewrite memset_ok by lia. cbn [bind].
    eexists. split; [reflexivity|]. set (s0 := 5 * vs + zlen hb + zlen es * vs) in *.
    assert (L : zlen (repeat Byte.x00 (Z.to_nat (eofs ps es - s0))) = eofs ps es - s0) by (rewrite zlen_repeat; lia).
    split; [constructor|split].
    + apply (raw_wr_data Hps (s_raw S)); rewrite ?zlen_map; lia.
    + apply S.
    + intros o t Hin. pose proof (eofs_le_in ps _ _ _ Hin). destruct (s_data S _ _ Hin) as (A1 & A2 & A3 & A4).
      split; [|auto]. rewrite slice_upd_dis by lia. exact A1.
    + apply S.
    + intros. rewrite slice_upd_dis by lia. reflexivity.
    + apply slice_upd_same'; lia.
Qed.

(** ** space queries *)
Lemma range_loop_ok p hb es : srep p hb es -> forall k i acc, 0 <= i -> i + Z.of_nat k <= zlen es ->
  0 <= acc -> acc + dsum (slice es i (Z.of_nat k)) <= ps ->
  sl_space_range_loop p ps d k i acc = Ok (acc + dsum (slice es i (Z.of_nat k))).
Proof.
  intro S. bnd S. induction k as [|k IH]; intros i acc Hi Hk Ha Hb.
  - cbn [sl_space_range_loop]. change (Z.of_nat 0) with 0. rewrite slice_0. cbn [dsum]. f_equal. lia.
  - cbn [sl_space_range_loop].
    assert (Es : slice es i (Z.of_nat (Datatypes.S k)) = nth (Z.to_nat i) es None :: slice es (i + 1) (Z.of_nat k)).
    { unfold slice. rewrite !Nat2Z.id. rewrite (skipn_nth es (Z.to_nat i) None) by (unfold zlen in *; lia).
      cbn [firstn]. replace (Z.to_nat (i + 1)) with (Datatypes.S (Z.to_nat i)) by lia. reflexivity. }
    rewrite Es in *. cbn [dsum] in *.
    rewrite (s_exists Hps S) by lia. cbn [bind]. rewrite (s_get_nth Hps S) by lia.
    destruct (Z.ltb_spec i (zlen es)); [|lia].
    destruct (nth_in_or_None es (Z.to_nat i)) as [Hin|Hin].
    + destruct (nth (Z.to_nat i) es None) as [[o t]|]; cbn [option_map is_tomb_stone negb fst snd slen] in *.
      * cbn [bind]. rewrite (s_tuple_size Hps S _ _ Hin). cbn [bind].
        pose proof (dsum_nonneg (slice es (i + 1) (Z.of_nat k))). pose proof (zlen_nonneg t).
        rewrite u32_id by lia. rewrite IH by lia. f_equal. lia.
      * rewrite IH by lia. reflexivity.
    + rewrite Hin in *. cbn [option_map is_tomb_stone negb fst snd slen] in *. rewrite IH by lia. reflexivity.
Qed.

Lemma dsum_slice_le es i k : dsum (slice es i k) <= dsum es.
Proof.
  unfold slice.
  assert (H1 : dsum (skipn (Z.to_nat i) es) <= dsum es).
  { rewrite <- (firstn_skipn (Z.to_nat i) es) at 2. rewrite dsum_app. pose proof (dsum_nonneg (firstn (Z.to_nat i) es)). lia. }
  set (l := skipn (Z.to_nat i) es) in *.
  rewrite <- (firstn_skipn (Z.to_nat k) l) in H1 at 1. rewrite dsum_app in H1.
  pose proof (dsum_nonneg (skipn (Z.to_nat k) l)). lia.
Qed.

Lemma sl_space_range_spec p hb es a b : srep p hb es -> 0 <= a <= b -> b < zlen es ->
  sl_space_occupied_range p ps d a b = Ok (dsum (slice es a (b - a + 1)) + (b - a + 1) * vs).
Proof.
  intros S Ha Hb. bnd S. unfold sl_space_occupied_range.
  pose proof (dsum_slice_le es a (b - a + 1)). pose proof (dsum_nonneg (slice es a (b - a + 1))).
  rewrite (range_loop_ok _ _ _ S); rewrite ?Z2Nat.id by lia; try lia. cbn [bind].
  unfold sl_overhead. mulvs (b - a + 1) (zlen es). mulvs 0 (b - a + 1).
  rewrite u32_id by lia. reflexivity.
Qed.

Lemma sl_tomb_space_spec p hb es : srep p hb es ->
  sl_space_occupied_tomb_stones p ps = Ok (tombs es * vs).
Proof.
  intro S. bnd S. unfold sl_space_occupied_tomb_stones. rewrite (s_tomb_stone_count Hps S). cbn [bind].
  unfold sl_overhead. mulvs (tombs es) (zlen es). mulvs 0 (tombs es). rewrite u32_id by lia. reflexivity.
Qed.

(** ** the page header *)
Lemma sl_write_header_spec p hb es at_ bs : srep p hb es -> 0 <= at_ -> at_ + zlen bs <= zlen hb ->
  exists p', write_page_header p ps at_ bs = Ok p' /\ srep p' (upd hb at_ bs) es.
Proof.
  intros S Ha Hb. bnd S. pose proof (zlen_nonneg bs). unfold write_page_header, get_page_header.
  rewrite wr_ok by lia. eexists. split; [reflexivity|].
  assert (Zh : zlen (upd hb at_ bs) = zlen hb) by (apply zlen_upd; lia).
  pose proof (s_raw S) as R.
  constructor; rewrite ?Zh; try apply S.
  - constructor; rewrite ?Zh; try apply R.
    + rewrite zlen_upd; lia.
    + rewrite slice_upd_dis by lia. apply R.
    + apply list_eq_nth.
      * rewrite zlen_slice; rewrite ?zlen_upd; lia.
      * intros dd k Hk. rewrite zlen_slice in Hk by (rewrite ?zlen_upd; lia).
        rewrite nth_slice by lia. rewrite !nth_upd by lia.
        destruct ((vs + at_ <=? vs + k) && (vs + k <? vs + at_ + zlen bs)) eqn:C.
        -- replace ((at_ <=? k) && (k <? at_ + zlen bs)) with true by lia. f_equal. lia.
        -- replace ((at_ <=? k) && (k <? at_ + zlen bs)) with false by lia.
           rewrite <- (nth_slice p vs (zlen hb)) by lia. rewrite (r_hdr R). reflexivity.
    + rewrite slice_upd_dis by lia. apply R.
    + rewrite slice_upd_dis by lia. apply R.
    + rewrite slice_upd_dis by lia. apply R.
    + rewrite slice_upd_dis by lia. apply R.
    + intros i Hi. pose proof (slot_bound ps Hps (map soff es) i Hi). rewrite zlen_map in *.
      rewrite slice_upd_dis by lia. apply R. rewrite zlen_map. lia.
  - intros o t Hin. pose proof (eofs_le_in ps _ _ _ Hin). destruct (s_data S _ _ Hin) as (A1 & A2 & A3 & A4).
    split; [|auto]. rewrite slice_upd_dis by lia. exact A1.
Qed.

(** ** compaction *)
Fixpoint coll (i : Z) (es : list sentry) : list (Z * Z) :=
  match es with
  | [] => []
  | Some (o, _) :: r => (o, i) :: coll (i + 1) r
  | None :: r => coll (i + 1) r
  end.

Lemma collect_ok p hb es : srep p hb es -> forall k i, 0 <= i -> i + Z.of_nat k = zlen es ->
  sl_compact_collect p ps k i = Ok (coll i (skipn (Z.to_nat i) es)).
Proof.
  intro S. induction k as [|k IH]; intros i Hi Hk.
  - cbn [sl_compact_collect]. rewrite skipn_all2 by (unfold zlen in *; lia). reflexivity.
  - cbn [sl_compact_collect]. rewrite (s_exists Hps S) by lia. cbn [bind].
    rewrite (s_ith Hps S) by lia. rewrite (skipn_nth es (Z.to_nat i) None) by (unfold zlen in *; lia).
    destruct (Z.ltb_spec i (zlen es)); [|lia]. rewrite IH by lia.
    replace (Z.to_nat (i + 1)) with (Datatypes.S (Z.to_nat i)) by lia.
    destruct (nth (Z.to_nat i) es None) as [[o t]|]; reflexivity.
Qed.

Lemma coll_in i es o j : In (o, j) (coll i es) <->
  exists t, i <= j /\ nth_error es (Z.to_nat (j - i)) = Some (Some (o, t)).
Proof.
  revert i. induction es as [|[[o' t']|] r IH]; intro i; cbn [coll In].
  - split; [tauto|]. intros (t & _ & H). destruct (Z.to_nat (j - i)); discriminate.
  - rewrite IH. split.
    + intros [H|(t & H1 & H2)].
      * inversion H; subst. exists t'. split; [lia|]. rewrite Z.sub_diag. reflexivity.
      * exists t. split; [lia|]. replace (Z.to_nat (j - i)) with (S (Z.to_nat (j - (i + 1)))) by lia. exact H2.
    + intros (t & H1 & H2). destruct (Z.eq_dec j i) as [->|].
      * rewrite Z.sub_diag in H2. cbn in H2. inversion H2. auto.
      * right. exists t. split; [lia|]. replace (Z.to_nat (j - i)) with (S (Z.to_nat (j - (i + 1)))) in H2 by lia. exact H2.
  - rewrite IH. split.
    + intros (t & H1 & H2). exists t. split; [lia|]. replace (Z.to_nat (j - i)) with (S (Z.to_nat (j - (i + 1)))) by lia. exact H2.
    + intros (t & H1 & H2). destruct (Z.eq_dec j i) as [->|].
      * rewrite Z.sub_diag in H2. cbn in H2. discriminate.
      * exists t. split; [lia|]. replace (Z.to_nat (j - i)) with (S (Z.to_nat (j - (i + 1)))) in H2 by lia. exact H2.
Qed.

Lemma coll_nodup i es : NoDup (map snd (coll i es)).
Proof.
  revert i. induction es as [|[[o t]|] r IH]; intro i; cbn [coll map snd]; [constructor| |apply IH].
  constructor; [|apply IH]. intro H. apply in_map_iff in H as ((o', j) & E & H). cbn in E. subst j.
  apply coll_in in H as (t' & H & _). lia.
Qed.

(** total length of the tuples an index list refers to *)
Definition rsum (l : list (Z * Z)) (es : list sentry) : Z :=
  fold_right (fun oi acc => slen (nth (Z.to_nat (snd oi)) es None) + acc) 0 l.
Lemma rsum_perm l l' es : Permutation l l' -> rsum l es = rsum l' es.
Proof. induction 1; cbn [rsum fold_right] in *; unfold rsum in *; lia. Qed.
Lemma rsum_coll_gen pre es : rsum (coll (zlen pre) es) (pre ++ es) = dsum es.
Proof.
  revert pre. induction es as [|e r IH]; intro pre; cbn [coll]; [reflexivity|].
  specialize (IH (pre ++ [e])). rewrite zlen_snoc, <- app_assoc in IH. cbn [app] in IH.
  destruct e as [[o t]|]; cbn [dsum slen]; [|exact IH].
  cbn [rsum fold_right snd]. fold (rsum (coll (zlen pre + 1) r) (pre ++ Some (o, t) :: r)). rewrite IH.
  unfold zlen. rewrite Nat2Z.id. rewrite app_nth2 by lia. rewrite Nat.sub_diag. reflexivity.
Qed.
Lemma rsum_coll es : rsum (coll 0 es) es = dsum es.
Proof. exact (rsum_coll_gen [] es). Qed.


Record cinv (p : mem) (hb : list byte) (so ts eo : Z) (es : list sentry) (l : list (Z * Z)) (e : Z) : Prop := {
  ci_raw : raw p hb so (zlen es) ts eo (map soff es);
  ci_data : sdata p es;
  ci_pd : pd es;
  ci_low : forall o t, In (Some (o, t)) es -> 5 * vs + zlen hb + zlen es * vs <= o;
  ci_e : e <= ps;
  ci_rem : forall o j, In (o, j) l -> exists t, 0 <= j /\ nth_error es (Z.to_nat j) = Some (Some (o, t)) /\ o + zlen t <= e;
  ci_done : forall j o t, nth_error es j = Some (Some (o, t)) -> In (o, Z.of_nat j) l \/ e <= o;
  ci_nodup : NoDup (map snd l);
  ci_sorted : StronglySorted desc l;
  ci_wit : e = ps \/ exists j t, nth_error es j = Some (Some (e, t)) /\ ~ In (Z.of_nat j) (map snd l)
}.

Lemma slen_content es es' : content_of es = content_of es' -> forall j, slen (nth j es None) = slen (nth j es' None).
Proof.
  intros E j. assert (H : nth j (content_of es) None = nth j (content_of es') None) by (rewrite E; reflexivity).
  unfold content_of in H. change (@None (list byte)) with (option_map (@snd Z (list byte)) None) in H.
  rewrite !map_nth in H. destruct (nth j es None) as [[o t]|], (nth j es' None) as [[o' t']|]; cbn in *; congruence.
Qed.
Lemma rsum_content l es es' : content_of es = content_of es' -> rsum l es = rsum l es'.
Proof.
  intro E. induction l as [|[o j] l IH]; [reflexivity|]. cbn [rsum fold_right snd].
  fold (rsum l es) (rsum l es'). rewrite IH. rewrite (slen_content es es' E). reflexivity.
Qed.
Lemma dsum_content es es' : content_of es = content_of es' -> dsum es = dsum es'.
Proof.
  revert es'. induction es as [|e r IH]; intros [|e' r'] E; cbn in E; try discriminate; [reflexivity|].
  inversion E as [[E1 E2]]. cbn [dsum]. rewrite (IH r' E2).
  destruct e as [[o t]|], e' as [[o' t']|]; cbn in *; congruence.
Qed.
Lemma tombs_content es es' : content_of es = content_of es' -> tombs es = tombs es'.
Proof.
  revert es'. induction es as [|e r IH]; intros [|e' r'] E; cbn in E; try discriminate; [reflexivity|].
  inversion E as [[E1 E2]]. cbn [tombs]. rewrite (IH r' E2).
  destruct e as [[o t]|], e' as [[o' t']|]; cbn in *; congruence.
Qed.

Definition tight (lo : Z) (es : list sentry) : Prop :=
  lo <= ps /\ (forall o t, In (Some (o, t)) es -> lo <= o) /\ dsum es = ps - lo.

(** where the loop puts the tuples of an index list *)
Fixpoint relocate (l : list (Z * Z)) (e : Z) (es : list sentry) : list sentry :=
  match l with
  | [] => es
  | (_, i) :: r =>
      match nth (Z.to_nat i) es None with
      | Some (_, t) => relocate r (e - zlen t) (upd es i [Some (e - zlen t, t)])
      | None => relocate r e es
      end
  end.

Lemma compact_loop_ok hb so ts eo lo : forall l p es e moved, cinv p hb so ts eo es l e ->
  exists p' es' out, sl_compact_loop p ps d l e moved = Ok (out, e - rsum l es, p') /\
    cinv p' hb so ts eo es' [] (e - rsum l es) /\ content_of es' = content_of es /\
    (out = false -> moved = false /\ es' = es) /\ (tight lo es -> out = moved) /\ es' = relocate l e es.
Proof.
  pose proof vs_r. pose proof (eq_refl : max_bytes = 2147483520). pose proof (zlen_nonneg hb).
  induction l as [|[o i] l IH]; intros p es e moved C.
  - exists p, es, moved. cbn [sl_compact_loop rsum fold_right]. rewrite Z.sub_0_r. split; [reflexivity|]. split; [exact C|]. split; [reflexivity|]. split; [auto|]. split; auto.
  - destruct (ci_rem _ _ _ _ _ _ _ _ C o i (or_introl eq_refl)) as (t & Hi & Hnth & He).
    pose proof (nth_error_In _ _ Hnth) as Hin.
    destruct (ci_data _ _ _ _ _ _ _ _ C o t Hin) as (A1 & A2 & A3 & A4).
    pose proof (ci_low _ _ _ _ _ _ _ _ C o t Hin) as Hlow.
    pose proof (ci_e _ _ _ _ _ _ _ _ C) as Hep.
    pose proof (ci_raw _ _ _ _ _ _ _ _ C) as R. pose proof (r_len R) as Lp.
    assert (Hil : i < zlen es). { assert (Z.to_nat i < length es)%nat by (apply nth_error_Some; congruence). unfold zlen; lia. }
    assert (Enth : nth (Z.to_nat i) es None = Some (o, t)) by (apply nth_error_nth; exact Hnth).
    destruct (split_at es i None ltac:(lia)) as (l1 & l2 & E & Z1 & _ & _). rewrite Enth in E.
    mulvs i (zlen es). mulvs 0 i. mulvs 0 (zlen es). pose proof (r_bound R) as Bd. rewrite zlen_map in Bd.
    cbn [sl_compact_loop]. rewrite (raw_slot Hps R) by lia. cbn [bind].
    rewrite (raw_ith_tuple Hps R) by (rewrite ?zlen_map, ?nth_soff, ?Enth; cbn [soff]; lia). cbn [bind].
    rewrite nth_soff, Enth. cbn [soff].
    rewrite (tuple_size_at d t p o (zlen t)) by (try apply A2; try assumption; lia). cbn [bind].
    rewrite (u32_id (e - zlen t)) by lia. set (e' := e - zlen t).
    rewrite memmove_ok by (unfold e'; lia). cbn [bind]. rewrite A1.
    assert (R1 : raw (upd p e' t) hb so (zlen es) ts eo (map soff es)).
    { apply (raw_wr_data Hps R); rewrite ?zlen_map; unfold e'; lia. }
    destruct (raw_wr_slot Hps R1 i e') as (p2 & E2 & R2 & D2); [rewrite zlen_map; lia|].
    rewrite E2. cbn [bind]. rewrite zlen_map in D2.
    set (es2 := l1 ++ Some (e', t) :: l2).
    assert (Zes2 : zlen es2 = zlen es) by (unfold es2; rewrite E, !zlen_app, !zlen_cons; reflexivity).
    replace (upd (map soff es) i [e']) with (map soff es2) in R2.
    2:{ unfold es2. rewrite E, !map_app. cbn [map soff]. rewrite <- Z1, <- (zlen_map soff l1). symmetry. apply upd_mid. }
    assert (Ec : content_of es2 = content_of es).
    { unfold es2, content_of. rewrite E, !map_app. reflexivity. }
    assert (Hpd := ci_pd _ _ _ _ _ _ _ _ C). rewrite E in Hpd. apply pd_mid in Hpd as [Hdis Hpd].
    (* where the other tuples are *)
    assert (Hoth : forall o' t', In (Some (o', t')) (l1 ++ l2) -> (o' + zlen t' <= o \/ e <= o') /\
                     5 * vs + zlen hb + zlen es * vs <= o' /\ 1 <= zlen t' /\ o' + zlen t' <= ps /\ slice p o' (zlen t') = t' /\ tuple_ok d t').
    { intros o' t' H'. specialize (Hdis _ H'). cbn in Hdis.
      assert (Hes : In (Some (o', t')) es) by (rewrite E; apply (proj2 (in_mid l1 l2 _ _)); auto).
      destruct (ci_data _ _ _ _ _ _ _ _ C _ _ Hes) as (B1 & B2 & B3 & B4).
      pose proof (ci_low _ _ _ _ _ _ _ _ C _ _ Hes).
      repeat (split; [|assumption] || split); try assumption; try lia; try apply B2.
      apply In_nth_error in Hes as [j Hj].
      destruct (ci_done _ _ _ _ _ _ _ _ C _ _ _ Hj) as [[Hd|Hd]|Hd]; [| |lia].
      - inversion Hd; subst. lia.
      - pose proof (ci_sorted _ _ _ _ _ _ _ _ C) as Ss. inversion Ss as [|? ? _ Hall]; subst.
        rewrite Forall_forall in Hall. specialize (Hall _ Hd). unfold desc in Hall. cbn in Hall. lia. }
    assert (Hdone2 : forall j, (j < length es)%nat -> j <> Z.to_nat i -> nth_error es2 j = nth_error es j).
    { intros j Hj Hne. unfold es2. rewrite E. assert (Z.to_nat i = length l1) by (unfold zlen in Z1; lia).
      destruct (Nat.lt_ge_cases j (length l1)).
      - rewrite !nth_error_app1 by lia. reflexivity.
      - rewrite !nth_error_app2 by lia. destruct (j - length l1)%nat as [|m] eqn:Em; [lia|]. reflexivity. }
    assert (Hi2 : nth_error es2 (Z.to_nat i) = Some (Some (e', t))).
    { unfold es2. assert (Ei : Z.to_nat i = length l1) by (unfold zlen in Z1; lia).
      rewrite nth_error_app2 by lia. rewrite Ei, Nat.sub_diag. reflexivity. }
    pose proof (ci_nodup _ _ _ _ _ _ _ _ C) as Hnd. cbn [map snd] in Hnd. inversion Hnd as [|? ? Hni Hnd']; subst x l0.
    assert (C2 : cinv p2 hb so ts eo es2 l e').
    { constructor; rewrite ?Zes2.
      - exact R2.
      - apply sdata_same with (lo := 5 * vs + zlen hb + zlen es * vs) (p := upd p e' t).
        + exact D2.
        + apply R1.
        + intros o' t' H'. unfold es2 in H'. apply in_mid in H' as [H'|H'].
          * inversion H'. unfold e'. lia.
          * apply Hoth in H'. lia.
        + intros o' t' H'. unfold es2 in H'. apply in_mid in H' as [H'|H'].
          * inversion H'; subst o' t'. split; [apply slice_upd_same; unfold e'; lia|]. split; [exact A2|]. unfold e'; lia.
          * destruct (Hoth _ _ H') as (Q1 & Q2 & Q3 & Q4 & Q5 & Q6). split; [|auto].
            rewrite slice_upd_dis by (unfold e'; lia). exact Q5.
      - unfold es2. apply pd_mid. split; [|exact Hpd]. intros x Hx. destruct x as [[o' t']|]; [|exact I].
        apply Hoth in Hx. cbn. unfold e'. lia.
      - intros o' t' H'. unfold es2 in H'. apply in_mid in H' as [H'|H'].
        + inversion H'. unfold e'. lia.
        + apply Hoth in H'. lia.
      - unfold e'. lia.
      - intros o' j H'. destruct (ci_rem _ _ _ _ _ _ _ _ C o' j (or_intror H')) as (t' & Hj & Hn & _).
        exists t'. split; [exact Hj|].
        assert (Hji : j <> i). { intros ->. apply Hni. apply in_map_iff. exists (o', i). auto. }
        assert (Z.to_nat j < length es)%nat by (apply nth_error_Some; congruence).
        split; [rewrite Hdone2 by lia; exact Hn|].
        assert (Hl12 : In (Some (o', t')) (l1 ++ l2)).
        { assert (Hx : nth_error es2 (Z.to_nat j) = Some (Some (o', t'))) by (rewrite Hdone2 by lia; exact Hn).
          unfold es2 in Hx. assert (Ei : Z.to_nat i = length l1) by (unfold zlen in Z1; lia).
          apply in_or_app. destruct (Nat.lt_ge_cases (Z.to_nat j) (length l1)).
          - left. rewrite nth_error_app1 in Hx by lia. apply nth_error_In in Hx. exact Hx.
          - right. rewrite nth_error_app2 in Hx by lia. destruct (Z.to_nat j - length l1)%nat as [|m] eqn:Em; [lia|].
            cbn in Hx. apply nth_error_In in Hx. exact Hx. }
        destruct (Hoth _ _ Hl12) as ([Q|Q] & Q2 & Q3 & Q4 & _); [unfold e'; lia|].
        pose proof (ci_sorted _ _ _ _ _ _ _ _ C) as Ss. inversion Ss as [|? ? _ Hall]; subst.
        rewrite Forall_forall in Hall. specialize (Hall _ H'). unfold desc in Hall. cbn in Hall. lia.
      - intros j o' t' H'.
        assert (Hjl : (j < length es)%nat). { assert (j < length es2)%nat by (apply nth_error_Some; congruence). unfold zlen in Zes2; lia. }
        destruct (Nat.eq_dec j (Z.to_nat i)) as [->|Hne].
        + rewrite Hi2 in H'. inversion H'. right. lia.
        + rewrite Hdone2 in H' by assumption.
          destruct (ci_done _ _ _ _ _ _ _ _ C _ _ _ H') as [[Hd|Hd]|Hd].
          * inversion Hd. lia.
          * auto.
          * right. unfold e'. lia.
      - exact Hnd'.
      - pose proof (ci_sorted _ _ _ _ _ _ _ _ C) as Ss. inversion Ss; subst. assumption.
      - right. exists (Z.to_nat i), t. split; [exact Hi2|]. rewrite Z2Nat.id by lia. exact Hni. }
    destruct (IH p2 es2 e' (if negb (e' =? o) then true else moved) C2) as (p' & es' & out & Eq & C' & Ec' & Hout & Htight & Hrel).
    assert (Hrs : e' - rsum l es2 = e - rsum ((o, i) :: l) es).
    { cbn [rsum fold_right snd]. fold (rsum l es). rewrite Enth. cbn [slen].
      rewrite (rsum_content l es2 es Ec). unfold e'. lia. }
    exists p', es', out. rewrite <- Hrs. split; [exact Eq|]. split; [exact C'|]. split; [congruence|]. split.
    + intro Ho. apply Hout in Ho as [Hm Hes]. destruct (Z.eqb_spec e' o) as [Heo|Heo]; cbn [negb] in Hm; [|discriminate].
      split; [exact Hm|]. rewrite Hes. unfold es2. rewrite Heo. symmetry. exact E.
    + split; [|cbn [relocate]; rewrite Enth; fold e'; replace (upd es i [Some (e', t)]) with es2; [exact Hrel|]; unfold es2; rewrite E, <- Z1; symmetry; apply upd_mid].
      intro Ht. assert (Heo : e' = o).
      { destruct Ht as (T1 & T2 & T3). destruct (Z.eq_dec e' o) as [?|Hne]; [assumption|exfalso].
        set (g := e - (o + zlen t)). assert (Hg : 0 < g) by (unfold g, e' in *; lia).
        assert (Hb : dsum (Some (o + zlen t, repeat Byte.x00 (Z.to_nat g)) :: es) <= ps - lo).
        { assert (Hgl : zlen (repeat Byte.x00 (Z.to_nat g)) = g) by (rewrite zlen_repeat; lia).
          apply dsum_bound; [lia| |].
          - split; [|apply C]. intros x Hx. destruct x as [[o' t']|]; [|exact I]. cbn. rewrite Hgl.
            rewrite E in Hx. apply in_mid in Hx as [Hx|Hx].
            + inversion Hx. lia.
            + apply Hoth in Hx. unfold g. lia.
          - intros o' t' [Hx|Hx].
            + inversion Hx; subst o' t'. rewrite Hgl. apply T2 in Hin. unfold g. lia.
            + split; [eapply T2; eassumption|]. apply (ci_data _ _ _ _ _ _ _ _ C) in Hx. tauto. }
        cbn [dsum slen] in Hb. rewrite zlen_repeat in Hb. lia. }
      assert (Hes2 : es2 = es) by (unfold es2; rewrite Heo; symmetry; exact E).
      rewrite Htight by (rewrite Hes2; exact Ht). rewrite Heo, Z.eqb_refl. reflexivity.
Qed.


Definition frag (es : list sentry) : Z := ps - eofs ps es - dsum es.

Lemma content_zlen es es' : content_of es = content_of es' -> zlen es = zlen es'.
Proof. intro E. rewrite <- (content_len es), <- (content_len es'), E. reflexivity. Qed.

(** the tuples in the order in which the compaction takes them *)
Definition ordered (srt : list (Z * Z) -> list (Z * Z)) (es : list sentry) : list (Z * Z) :=
  if 1 <? zlen (coll 0 es) then srt (coll 0 es) else coll 0 es.
Lemma ordered_spec srt es : sorts srt -> Permutation (coll 0 es) (ordered srt es) /\ StronglySorted desc (ordered srt es).
Proof.
  intro Hs. unfold ordered. set (l := coll 0 es). destruct (Z.ltb_spec 1 (zlen l)); [apply Hs|]. split; [reflexivity|].
  destruct l as [|a [|b r]]; [constructor|constructor; constructor|]. rewrite !zlen_cons in *. pose proof (zlen_nonneg r). lia.
Qed.

Lemma sl_compact_places srt p hb es : sorts srt -> srep p hb es ->
  exists p' es', sl_compact srt true p ps d = Ok (negb (frag es =? 0), false, p') /\
    srep p' hb es' /\ content_of es' = content_of es /\ frag es' = 0 /\ es' = relocate (ordered srt es) ps es.
Proof.
  intros Hs S. bnd S. unfold sl_compact. rewrite (s_tuple_count Hps S). cbn [bind negb].
  rewrite (collect_ok _ _ _ S) by lia. cbn [bind]. cbn [Z.to_nat skipn].
  fold (ordered srt es). destruct (ordered_spec srt es Hs) as [Hperm Hsorted]. set (l := coll 0 es) in *. set (l' := ordered srt es) in *.
  pose proof (s_raw S) as R.
  assert (C : cinv p hb (zlen es * vs + dsum es) (tombs es) (eofs ps es) es l' ps).
  { constructor; try assumption; try apply S; try lia.
    - intros o t Hin. pose proof (eofs_le_in ps _ _ _ Hin). lia.
    - intros o j Hin. apply (Permutation_in _ (Permutation_sym Hperm)) in Hin. unfold l in Hin.
      apply coll_in in Hin as (t & Hj & Hn). rewrite Z.sub_0_r in Hn. exists t. split; [lia|]. split; [exact Hn|].
      apply nth_error_In in Hn. apply (s_data S) in Hn. tauto.
    - intros j o t Hn. left. apply (Permutation_in _ Hperm). unfold l. apply coll_in. exists t.
      split; [lia|]. rewrite Z.sub_0_r, Nat2Z.id. exact Hn.
    - apply (Permutation_NoDup (l := map snd l)); [apply Permutation_map; exact Hperm|]. apply coll_nodup. }
  destruct (compact_loop_ok hb _ _ _ (eofs ps es) l' p es ps false C) as (p1 & es' & out & E1 & C1 & Ec & Hout & Ht & Hrel).
  rewrite E1. cbn [bind].
  assert (Ers : rsum l' es = dsum es) by (rewrite <- (rsum_perm _ _ _ Hperm); apply rsum_coll).
  rewrite Ers in *.
  pose proof (ci_raw _ _ _ _ _ _ _ _ C1) as R1. rewrite (raw_off4 Hps R1). cbn [bind].
  destruct (raw_wr_eo Hps R1 (ps - dsum es)) as (p2 & E2 & R2 & D2). rewrite E2. cbn [bind].
  assert (Eeo : eofs ps es' = ps - dsum es).
  { apply eofs_unique; [lia| |].
    - intros o t Hin. apply In_nth_error in Hin as [j Hj].
      destruct (ci_done _ _ _ _ _ _ _ _ C1 _ _ _ Hj) as [[]|Hd]. exact Hd.
    - destruct (ci_wit _ _ _ _ _ _ _ _ C1) as [Hw|(j & t & Hw & _)]; [auto|]. right. exists t. apply nth_error_In in Hw. exact Hw. }
  pose proof (dsum_content _ _ Ec) as Ed. pose proof (content_zlen _ _ Ec) as Ez.
  exists p2, es'. split; [|split; [|split; [|split; [|exact Hrel]]]].
  - do 3 f_equal. unfold frag. destruct (Z.eqb_spec (ps - eofs ps es - dsum es) 0) as [Hf|Hf]; cbn [negb].
    + apply Ht. split; [lia|]. split; [|lia]. intros o t Hin. apply eofs_le_in with t. exact Hin.
    + destruct out; [reflexivity|]. destruct (Hout eq_refl) as [_ ->]. lia.
  - constructor.
    + eapply (raw_eq R2); try reflexivity; try lia. symmetry. apply tombs_content. exact Ec.
    + rewrite Eeo, Ez. lia.
    + apply sdata_same with (lo := 5 * vs + zlen hb) (p := p1); try assumption.
      * apply R1.
      * intros o t Hin. pose proof (ci_low _ _ _ _ _ _ _ _ C1 _ _ Hin). rewrite Ez in *. lia.
      * apply C1.
    + apply C1.
  - exact Ec.
  - unfold frag. lia.
Qed.

Lemma sl_compact_spec srt p hb es : sorts srt -> srep p hb es ->
  exists p' es', sl_compact srt true p ps d = Ok (negb (frag es =? 0), false, p') /\
    srep p' hb es' /\ content_of es' = content_of es /\ frag es' = 0.
Proof.
  intros Hs S. destruct (sl_compact_places srt p hb es Hs S) as (p' & es' & A & B & C & D & _). exists p', es'. auto.
Qed.

Lemma sl_compact_nomem srt p hb es : srep p hb es ->
  sl_compact srt false p ps d = Ok (false, true, p).
Proof. intro S. unfold sl_compact. rewrite (s_tuple_count Hps S). reflexivity. Qed.
End Page.
