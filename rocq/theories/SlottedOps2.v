(** * Slotted pages: update, discard, trailing tomb stones, zero out, space *)
From Coq Require Import ZifyBool ZifyNat ZifyN Zify Permutation.
From Verif Require Import BytesFacts Spec.
From Verif Require Export SlottedOps.
Ltac Zify.zify_post_hook ::= Z.div_mod_to_equations.

Arguments raw_eq {ps p hb a b c e l a' b' c' e' l'} _ _ _ _ _ _.
Arguments raw_bump_so {ps} Hps {p hb so tc ts eo sls} dl _ _ _.
Arguments raw_bump_ts {ps} Hps {p hb so tc ts eo sls} dl _ _ _.

Section Page.
Variable ps : Z.
Variable d : size_def.
Hypothesis Hps : 128 <= ps <= max_bytes.
Hypothesis Hdef : def_ok d.
Notation vs := (value_size ps).
Notation vsn := (Z.to_nat (value_size ps)).
Notation raw := (raw ps).
Notation srep := (srep ps d).
Notation sdata := (sdata ps d).

Lemma vs_r : 1 <= vs <= 4. Proof. apply value_size_range. Qed.

Ltac bnd S := pose proof (srep_bounds Hps S) as (? & ? & ? & ? & ? & ? & ? & ?);
  pose proof (s_fit S); pose proof vs_r;
  pose proof (ps_lt ps Hps);
  match type of S with SlottedFacts.srep _ _ _ ?hb ?es =>
    pose proof (zlen_nonneg hb); pose proof (zlen_nonneg es); pose proof (tombs_range es) end;
  pose proof (eq_refl : max_bytes = 2147483520).
Ltac mulvs i j := pose proof (mul_vs ps i j ltac:(lia)).

(** ** recompute the end of the free space *)
Lemma skipn_nth {A} (l : list A) k dflt : (k < length l)%nat -> skipn k l = nth k l dflt :: skipn (S k) l.
Proof.
  revert l. induction k as [|k IH]; intros l H; destruct l; cbn in H; try lia; [reflexivity|].
  cbn [skipn nth]. apply IH. lia.
Qed.

Lemma recompute_loop_ok p hb so tc ts eo es : raw p hb so tc ts eo (map soff es) ->
  (forall o t, In (Some (o, t)) es -> 0 < o < ps) ->
  forall k i acc, 0 <= i -> i + Z.of_nat k = zlen es -> acc <= ps ->
  sl_recompute_loop p ps k i acc = Ok (Z.min acc (eofs ps (skipn (Z.to_nat i) es))).
Proof.
  intros R Hin. induction k as [|k IH]; intros i acc Hi Hk Ha.
  - cbn [sl_recompute_loop]. rewrite skipn_all2 by (unfold zlen in Hk; lia). cbn [eofs]. f_equal. lia.
  - cbn [sl_recompute_loop].
    assert (Hs : 0 <= soff (nth (Z.to_nat i) es None) < ps).
    { destruct (nth (Z.to_nat i) es None) as [[o t]|] eqn:E; cbn [soff]; [|lia].
      destruct (nth_in_or_None es (Z.to_nat i)) as [H|H]; [|congruence]. rewrite E in H. apply Hin in H. lia. }
    rewrite (raw_ith_tuple Hps R) by (rewrite ?zlen_map, ?nth_soff; lia). cbn [bind].
    rewrite IH by (try lia; destruct (_ =? _); lia).
    rewrite nth_soff. rewrite (skipn_nth es (Z.to_nat i) None) by (unfold zlen in Hk; lia).
    replace (Z.to_nat (i + 1)) with (S (Z.to_nat i)) by lia. f_equal.
    destruct (nth (Z.to_nat i) es None) as [[o t]|] eqn:E; cbn [soff eofs].
    + destruct (nth_in_or_None es (Z.to_nat i)) as [H|H]; [|congruence]. rewrite E in H. apply Hin in H.
      destruct (Z.eqb_spec o 0); lia.
    + reflexivity.
Qed.

Lemma recompute_ok p hb so ts eo es : raw p hb so (zlen es) ts eo (map soff es) ->
  (forall o t, In (Some (o, t)) es -> 0 < o < ps) -> zlen es < ps ->
  exists p', sl_recompute p ps = Ok p' /\ raw p' hb so (zlen es) ts (eofs ps es) (map soff es) /\
    sameD (5 * vs + zlen hb) p p'.
Proof.
  intros R Hin Hn. pose proof (zlen_nonneg es). unfold sl_recompute.
  rewrite (raw_tuple_count Hps R) by lia. cbn [bind].
  rewrite (recompute_loop_ok _ _ _ _ _ _ _ R Hin) by lia. cbn [bind].
  rewrite (raw_off4 Hps R). cbn [bind]. cbn [Z.to_nat skipn].
  rewrite Z.min_r by apply eofs_le_ps. exact (raw_wr_eo Hps R _).
Qed.

(** removing an entry *)
Lemma eofs_mid l1 e l2 : eofs ps (l1 ++ e :: l2) =
  match e with Some (o, _) => Z.min o (eofs ps (l1 ++ l2)) | None => eofs ps (l1 ++ l2) end.
Proof.
  assert (P : Permutation (l1 ++ e :: l2) (e :: l1 ++ l2)) by (apply Permutation_sym, Permutation_middle).
  rewrite (eofs_perm ps _ _ P). destruct e as [[o t]|]; reflexivity.
Qed.
Lemma dsum_mid l1 e l2 : dsum (l1 ++ e :: l2) = slen e + dsum (l1 ++ l2).
Proof. rewrite !dsum_app. cbn [dsum]. lia. Qed.
Lemma tombs_mid l1 e l2 : tombs (l1 ++ e :: l2) = (match e with None => 1 | _ => 0 end) + tombs (l1 ++ l2).
Proof. rewrite !tombs_app. destruct e; cbn [tombs]; lia. Qed.
Lemma zlen_mid {A} (l1 l2 : list A) e : zlen (l1 ++ e :: l2) = zlen (l1 ++ l2) + 1.
Proof. rewrite !zlen_app, zlen_cons. lia. Qed.
Lemma pd_mid l1 e l2 : pd (l1 ++ e :: l2) <-> (forall e', In e' (l1 ++ l2) -> disj e e') /\ pd (l1 ++ l2).
Proof.
  split; intro H.
  - apply (pd_perm _ (e :: l1 ++ l2)) in H; [exact H|]. apply Permutation_sym, Permutation_middle.
  - apply (pd_perm (e :: l1 ++ l2)); [apply Permutation_middle|]. exact H.
Qed.
Lemma in_mid {A} (l1 l2 : list A) e x : In x (l1 ++ e :: l2) <-> x = e \/ In x (l1 ++ l2).
Proof. clear. rewrite !in_app_iff. cbn. intuition congruence. Qed.

(** ** discard *)
Lemma sl_discard_spec p hb es i : srep p hb es -> 0 <= i ->
  exists p', sl_discard p ps d i = Ok (i <? zlen es, p') /\
    if i <? zlen es then srep p' hb (remove_at i es) else p' = p.
Proof.
  intros S Hi. bnd S. unfold sl_discard. rewrite (s_tuple_count Hps S). cbn [bind].
  destruct (Z.leb_spec (zlen es) i); destruct (Z.ltb_spec i (zlen es)); try lia.
  { exists p. split; reflexivity. }
  rewrite (s_ith Hps S) by lia. cbn [bind].
  destruct (split_at es i None ltac:(lia)) as (l1 & l2 & E & Z1 & F1 & F2).
  set (e := nth (Z.to_nat i) es None) in *. unfold remove_at. rewrite F1, F2.
  assert (Hein : In e es) by (rewrite E; apply in_or_app; right; left; reflexivity).
  assert (Esz : (if soff e =? 0 then Ok 0 else tuple_size d p (soff e)) = Ok (slen e)).
  { destruct e as [[o t]|] eqn:Ee; cbn [soff slen]; [|reflexivity].
    destruct (entry_pos Hps S Hein) as (? & ? & ? & _). destruct (Z.eqb_spec o 0); [lia|].
    apply (s_tuple_size Hps S). exact Hein. }
  rewrite Esz. cbn [bind]. clear Esz.
  pose proof (s_raw S) as R. rewrite (raw_off2 Hps R). cbn [bind].
  rewrite (raw_read_tc Hps R) by lia. cbn [bind].
  mulvs i (zlen es). mulvs (i + 1) (zlen es). mulvs 0 i.
  rewrite (raw_slot Hps R i) by lia. cbn [bind]. rewrite (u32_id (i + 1)) by lia.
  rewrite (raw_slot Hps R (i + 1)) by lia. cbn [bind].
  unfold sl_overhead. mulvs 0 (zlen es - (i + 1)). rewrite (u32_id ((zlen es - (i + 1)) * vs)) by lia.
  assert (Zes : zlen es = zlen l1 + zlen l2 + 1) by (rewrite E, zlen_app, zlen_cons; lia).
  pose proof (zlen_nonneg l1). pose proof (zlen_nonneg l2).
  assert (Zl : zlen (l1 ++ l2) = zlen es - 1) by (rewrite zlen_app; lia).
  replace (map soff es) with (map soff l1 ++ soff e :: map soff l2) in R
    by (rewrite E at 1; rewrite map_app; reflexivity).
  destruct (raw_remove ps Hps _ _ _ _ _ _ _ _ _ R) as (p1 & E1 & R1 & D1).
  rewrite !zlen_map in E1, D1. rewrite Z1 in E1.
  replace (zlen l2) with (zlen es - (i + 1)) in E1 by lia. rewrite E1. cbn [bind].
  rewrite (u32_id (zlen es - 1)) by lia.
  destruct (raw_wr_tc Hps R1 (zlen es - 1)) as (p2 & E2 & R2 & D2). rewrite E2. cbn [bind].
  rewrite <- map_app in R2.
  assert (Et : tombs es = (match e with None => 1 | _ => 0 end) + tombs (l1 ++ l2)).
  { rewrite E at 1. apply tombs_mid. }
  pose proof (tombs_range (l1 ++ l2)).
  assert (Step3 : exists p3, (if soff e =? 0 then let* ots := sl_off_tomb_stone_count p2 ps in bump p2 ots ps (-1) else Ok p2) = Ok p3
     /\ raw p3 hb (zlen es * vs + dsum es) (zlen es - 1) (tombs (l1 ++ l2)) (eofs ps es) (map soff (l1 ++ l2))
     /\ sameD (5 * vs + zlen hb) p2 p3).
  { destruct e as [[o t]|] eqn:Ee; cbn [soff] in *.
    - destruct (entry_pos Hps S Hein) as (? & ? & ? & _). destruct (Z.eqb_spec o 0); [lia|].
      exists p2. split; [reflexivity|]. split; [|apply sameD_refl].
      eapply (raw_eq R2); try reflexivity. lia.
    - rewrite Z.eqb_refl. rewrite (raw_off3 Hps R2). cbn [bind].
      destruct (raw_bump_ts Hps (-1) R2) as (p3 & E3 & R3 & D3); [lia|lia|].
      exists p3. split; [exact E3|]. split; [|exact D3]. eapply (raw_eq R3); try reflexivity. lia. }
  destruct Step3 as (p3 & E3 & R3 & D3). rewrite E3. cbn [bind].
  rewrite (raw_off1 Hps R3). cbn [bind].
  assert (Eds : dsum es = slen e + dsum (l1 ++ l2)) by (rewrite E at 1; apply dsum_mid).
  pose proof (slen_nonneg e). pose proof (dsum_nonneg (l1 ++ l2)).
  destruct (raw_bump_so Hps (- (slen e + vs)) R3) as (p4 & E4 & R4 & D4); [lia|lia|].
  rewrite E4. cbn [bind].
  rewrite (raw_eofs Hps R4) by lia. cbn [bind].
  assert (Eeo : eofs ps es = match e with Some (o, _) => Z.min o (eofs ps (l1 ++ l2)) | None => eofs ps (l1 ++ l2) end).
  { rewrite E at 1. apply eofs_mid. }
  assert (Hin' : forall o t, In (Some (o, t)) (l1 ++ l2) -> In (Some (o, t)) es).
  { intros o t Hin. rewrite E. apply in_mid. right. exact Hin. }
  assert (Step5 : exists p5, (if soff e =? eofs ps es then sl_recompute p4 ps else Ok p4) = Ok p5
     /\ raw p5 hb (zlen (l1 ++ l2) * vs + dsum (l1 ++ l2)) (zlen (l1 ++ l2)) (tombs (l1 ++ l2)) (eofs ps (l1 ++ l2)) (map soff (l1 ++ l2))
     /\ sameD (5 * vs + zlen hb) p4 p5).
  { assert (R4' : raw p4 hb (zlen (l1 ++ l2) * vs + dsum (l1 ++ l2)) (zlen (l1 ++ l2)) (tombs (l1 ++ l2)) (eofs ps es) (map soff (l1 ++ l2))).
    { eapply (raw_eq R4); try reflexivity; try lia. }
    destruct (Z.eqb_spec (soff e) (eofs ps es)) as [He|He].
    - apply (recompute_ok _ _ _ _ _ _ R4').
      + intros o t Hin. apply Hin' in Hin. destruct (entry_pos Hps S Hin). lia.
      + lia.
    - exists p4. split; [reflexivity|]. split; [|apply sameD_refl].
      eapply (raw_eq R4'); try reflexivity. destruct e as [[o t]|]; cbn [soff] in *; lia. }
  destruct Step5 as (p5 & E5 & R5 & D5). rewrite E5. cbn [bind].
  exists p5. split; [reflexivity|].
  assert (Hmono : eofs ps es <= eofs ps (l1 ++ l2)) by (destruct e as [[o t]|]; lia).
  constructor.
  - exact R5.
  - rewrite Zl. lia.
  - apply sdata_same with (lo := 5 * vs + zlen hb + zlen es * vs) (p := p).
    + eapply sameD_trans; [eapply sameD_mono; [|exact D1]; lia|].
      eapply sameD_trans; [eapply sameD_mono; [|exact D2]; lia|].
      eapply sameD_trans; [eapply sameD_mono; [|exact D3]; lia|].
      eapply sameD_trans; [eapply sameD_mono; [|exact D4]; lia|].
      eapply sameD_mono; [|exact D5]; lia.
    + assumption.
    + intros o t Hin. apply Hin' in Hin. pose proof (eofs_le_in ps _ _ _ Hin). lia.
    + eapply sdata_incl; [|apply S]. intros x Hx. rewrite E. apply in_mid. right. exact Hx.
  - pose proof (s_pd S) as P. rewrite E in P. apply pd_mid in P. tauto.
Qed.

(** ** update *)
Definition can_upd (hb : list byte) (es : list sentry) (i : Z) (x : ext) : bool :=
  if zlen es <=? i then false
  else match x with
       | None => true
       | Some t =>
           match nth (Z.to_nat i) es None with
           | None => zlen t <=? sfree ps hb es
           | Some (o, t0) =>
               if o =? eofs ps es then zlen t <=? sfree ps hb es + zlen t0
               else (zlen t <=? zlen t0) || (zlen t <=? sfree ps hb es)
           end
       end.

Lemma sl_can_update_spec p hb es i x : srep p hb es -> ext_ok d x -> 0 <= i ->
  sl_can_update p ps d i x = Ok (can_upd hb es i x).
Proof.
  intros S Hx Hi. bnd S. unfold sl_can_update, can_upd. rewrite (s_tuple_count Hps S). cbn [bind].
  destruct (Z.leb_spec (zlen es) i); [reflexivity|].
  destruct x as [t|]; [|reflexivity]. unfold ext_size. destruct Hx as [Hsz Hmx]. rewrite Hsz. cbn [bind].
  rewrite (s_ith Hps S) by lia. cbn [bind]. rewrite (s_free Hps S). cbn [bind].
  destruct (nth_in_or_None es (Z.to_nat i)) as [Hin|Hin].
  - destruct (nth (Z.to_nat i) es None) as [[o t0]|]; cbn [soff]; [|reflexivity].
    destruct (entry_pos Hps S Hin) as (? & ? & ? & ? & ? & ?). destruct (Z.eqb_spec o 0); [lia|]. cbn [negb].
    rewrite (s_tuple_size Hps S _ _ Hin). cbn [bind]. rewrite (s_eofs Hps S). cbn [bind].
    destruct (Z.eqb_spec o (eofs ps es)).
    + unfold sfree. rewrite u32_id by lia. reflexivity.
    + destruct (zlen t <=? zlen t0); reflexivity.
  - rewrite Hin. reflexivity.
Qed.

(** discarding the old tuple of entry [zlen l1] *)
Lemma discard_old_ok p hb l1 o t0 l2 : srep p hb (l1 ++ Some (o, t0) :: l2) ->
  exists p3,
   (let* p1 := write_value p (5 * vs + zlen hb + zlen l1 * vs) ps 0 in
    let* is_ := tuple_size d p1 o in
    let* oso := sl_off_space_occupied p1 ps in
    let* p2 := bump p1 oso ps (- is_) in
    let* e := sl_end_of_free_space p2 ps in
    if o =? e then sl_recompute p2 ps else Ok p2) = Ok p3 /\
   raw p3 hb (zlen (l1 ++ None :: l2) * vs + dsum (l1 ++ None :: l2)) (zlen (l1 ++ None :: l2))
       (tombs (l1 ++ l2)) (eofs ps (l1 ++ None :: l2)) (map soff (l1 ++ None :: l2)) /\
   sameD (5 * vs + zlen hb + (zlen l1 + zlen l2 + 1) * vs) p p3.
Proof.
  intro S. bnd S. set (es := l1 ++ Some (o, t0) :: l2) in *.
  assert (Hin : In (Some (o, t0)) es) by (apply in_or_app; right; left; reflexivity).
  destruct (entry_pos Hps S Hin) as (P1 & P2 & P3 & P4 & P5 & P6).
  pose proof (s_raw S) as R.
  assert (Zes : zlen es = zlen l1 + zlen l2 + 1) by (unfold es; rewrite zlen_app, zlen_cons; lia).
  pose proof (zlen_nonneg l1). pose proof (zlen_nonneg l2).
  destruct (raw_wr_slot Hps R (zlen l1) 0) as (p1 & E1 & R1 & D1); [rewrite zlen_map; lia|].
  rewrite zlen_map in D1.
  replace (upd (map soff es) (zlen l1) [0]) with (map soff (l1 ++ None :: l2)) in R1.
  2:{ unfold es. rewrite !map_app. cbn [map soff]. rewrite <- (zlen_map soff l1). symmetry. apply upd_mid. }
  rewrite E1. cbn [bind].
  assert (Ts : tuple_size d p1 o = Ok (zlen t0)).
  { destruct D1 as [L1 D1]. apply tuple_size_at with t0; try lia; [apply P5|].
    rewrite D1 by lia. exact P4. }
  rewrite Ts. cbn [bind]. rewrite (raw_off1 Hps R1). cbn [bind].
  assert (Eds : dsum es = zlen t0 + dsum (l1 ++ l2)) by (unfold es; apply dsum_mid).
  pose proof (dsum_nonneg (l1 ++ l2)).
  destruct (raw_bump_so Hps (- zlen t0) R1) as (p2 & E2 & R2 & D2); [lia|lia|].
  rewrite E2. cbn [bind]. rewrite (raw_eofs Hps R2) by lia. cbn [bind].
  assert (Eeo : eofs ps es = Z.min o (eofs ps (l1 ++ l2))) by (unfold es; apply eofs_mid).
  assert (Zn : zlen (l1 ++ None :: l2) = zlen es) by (rewrite zlen_app, zlen_cons; lia).
  assert (R2' : raw p2 hb (zlen (l1 ++ None :: l2) * vs + dsum (l1 ++ None :: l2)) (zlen (l1 ++ None :: l2))
                  (tombs (l1 ++ l2)) (eofs ps es) (map soff (l1 ++ None :: l2))).
  { eapply (raw_eq R2); try reflexivity; try lia.
    - rewrite dsum_mid. cbn [slen]. rewrite Zn. lia.
    - unfold es. rewrite tombs_mid. lia. }
  assert (D12 : sameD (5 * vs + zlen hb + (zlen l1 + zlen l2 + 1) * vs) p p2).
  { rewrite <- Zes. eapply sameD_trans; [exact D1|]. eapply sameD_mono; [|exact D2]. lia. }
  destruct (Z.eqb_spec o (eofs ps es)) as [Heq|Hne].
  - destruct (recompute_ok _ _ _ _ _ _ R2') as (p3 & E3 & R3 & D3).
    + intros o' t' Hin'. apply in_mid in Hin' as [Hin'|Hin']; [discriminate|].
      assert (Hin2 : In (Some (o', t')) es) by (unfold es; apply in_mid; right; assumption).
      destruct (entry_pos Hps S Hin2). lia.
    + lia.
    + exists p3. split; [exact E3|]. split; [exact R3|].
      eapply sameD_trans; [exact D12|]. eapply sameD_mono; [|exact D3]. rewrite <- Zes. lia.
  - exists p2. split; [reflexivity|]. split; [|exact D12].
    eapply (raw_eq R2'); try reflexivity. rewrite eofs_mid. lia.
Qed.

(** storing a tuple for entry [zlen l1] *)
Lemma place_ok p hb so ts eo l1 l2 off t :
  raw p hb so (zlen (l1 ++ None :: l2)) ts eo (map soff (l1 ++ None :: l2)) ->
  sdata p (l1 ++ l2) -> tuple_ok d t -> 0 <= so < ps ->
  5 * vs + zlen hb + zlen (l1 ++ None :: l2) * vs <= off -> off + zlen t <= ps ->
  (forall e, In e (l1 ++ l2) -> disj (Some (off, t)) e) ->
  (forall o' t', In (Some (o', t')) (l1 ++ l2) -> 5 * vs + zlen hb + zlen (l1 ++ None :: l2) * vs <= o') ->
  exists p7,
    (let* p5 := write_value p (5 * vs + zlen hb + zlen l1 * vs) ps off in
     let* p6 := memcopy p5 off t 0 (zlen t) in
     let* oso := sl_off_space_occupied p6 ps in
     bump p6 oso ps (zlen t)) = Ok p7 /\
    raw p7 hb (so + zlen t) (zlen (l1 ++ Some (off, t) :: l2)) ts eo (map soff (l1 ++ Some (off, t) :: l2)) /\
    sdata p7 (l1 ++ Some (off, t) :: l2).
Proof.
  intros R Hd Ht Hso Hoff Hend Hdis Hlow. pose proof vs_r. pose proof (eq_refl : max_bytes = 2147483520).
  pose proof (zlen_nonneg hb). pose proof (zlen_nonneg l1). pose proof (zlen_nonneg l2).
  pose proof (tuple_ok_pos _ _ Hdef Ht) as Htp. pose proof (r_len R).
  assert (Zn : zlen (l1 ++ None :: l2) = zlen l1 + zlen l2 + 1) by (rewrite zlen_app, zlen_cons; lia).
  pose proof (mul_vs ps 0 (zlen (l1 ++ None :: l2)) ltac:(lia)).
  destruct (raw_wr_slot Hps R (zlen l1) off) as (p5 & E5 & R5 & D5); [rewrite zlen_map; lia|].
  rewrite zlen_map in D5. rewrite E5. cbn [bind]. pose proof (r_len R5).
  rewrite memcopy_ok by lia. rewrite slice_all by reflexivity. cbn [bind].
  assert (R6 := raw_wr_data Hps R5 off t).
  assert (Em : upd (map soff (l1 ++ None :: l2)) (zlen l1) [off] = map soff (l1 ++ Some (off, t) :: l2)).
  { rewrite !map_app. cbn [map soff]. rewrite <- (zlen_map soff l1). apply upd_mid. }
  rewrite Em in R6.
  assert (Zm : zlen (map soff (l1 ++ Some (off, t) :: l2)) = zlen (l1 ++ None :: l2))
    by (rewrite zlen_map, !zlen_app, !zlen_cons; reflexivity).
  rewrite Zm in R6. specialize (R6 ltac:(lia) ltac:(lia)).
  rewrite (raw_off1 Hps R6). cbn [bind].
  destruct (raw_bump_so Hps (zlen t) R6) as (p7 & E7 & R7 & D7); [lia|lia|].
  exists p7. split; [exact E7|]. split.
  - eapply (raw_eq R7); try reflexivity. rewrite <- Zm, zlen_map. reflexivity.
  - apply sdata_same with (lo := 5 * vs + zlen hb) (p := upd p5 off t).
    + exact D7.
    + apply R6.
    + intros o' t' Hin. apply in_mid in Hin as [Hin|Hin]; [inversion Hin; lia|apply Hlow in Hin; lia].
    + intros o' t' Hin. apply in_mid in Hin as [Hin|Hin].
      * inversion Hin; subst o' t'. split; [apply slice_upd_same; lia|]. split; [exact Ht|]. lia.
      * destruct (Hd _ _ Hin) as (A1 & A2 & A3 & A4). split; [|auto].
        pose proof (Hlow _ _ Hin). specialize (Hdis _ Hin). cbn in Hdis.
        rewrite slice_upd_dis by lia. destruct D5 as [_ D5]. rewrite D5 by lia. exact A1.
Qed.

(** where the new tuple lies *)
Definition upd_entry (es : list sentry) (i : Z) (x : ext) : sentry :=
  match x with
  | None => None
  | Some t =>
      match nth (Z.to_nat i) es None with
      | None => Some (eofs ps es - zlen t, t)
      | Some (o, t0) =>
          if (o =? eofs ps es) || (zlen t0 <? zlen t) then Some (eofs ps (remove_at i es) - zlen t, t) else Some (o, t)
      end
  end.
Lemma snd_upd_entry es i x : option_map snd (upd_entry es i x) = x.
Proof. unfold upd_entry. destruct x; [|reflexivity]. destruct (nth (Z.to_nat i) es None) as [[o t0]|]; [|reflexivity]. destruct (_ || _); reflexivity. Qed.

Lemma sl_update_places p hb es i x : srep p hb es -> ext_ok d x -> 0 <= i ->
  exists p', sl_update p ps d i x = Ok (can_upd hb es i x, p') /\
    if can_upd hb es i x then srep p' hb (replace_at i (upd_entry es i x) es) else p' = p.
Proof.
  intros S Hx Hi. unfold sl_update. rewrite (sl_can_update_spec _ _ _ _ _ S Hx Hi). cbn [bind].
  destruct (can_upd hb es i x) eqn:C; cbn [negb].
  2:{ exists p. split; reflexivity. }
  bnd S.
  assert (Hn : i < zlen es).
  { unfold can_upd in C. destruct (Z.leb_spec (zlen es) i); [discriminate|lia]. }
  destruct (split_at es i None ltac:(lia)) as (l1 & l2 & E & Z1 & F1 & F2).
  unfold can_upd in C. destruct (Z.leb_spec (zlen es) i); [discriminate|].
  unfold replace_at, upd_entry, remove_at. rewrite F1, F2. clear F1 F2.
  pose proof (s_raw S) as R. mulvs i (zlen es). mulvs 0 i.
  rewrite (raw_slot Hps R) by lia. cbn [bind].
  assert (Rd : read_value p (5 * vs + zlen hb + i * vs) ps = Ok (soff (nth (Z.to_nat i) es None))).
  { rewrite <- nth_soff. apply (raw_read_slot Hps R); [rewrite zlen_map; lia|]. rewrite nth_soff. apply (soff_range ps d Hps p hb); assumption. }
  rewrite Rd. cbn [bind]. clear Rd.
  assert (Zes : zlen es = zlen l1 + zlen l2 + 1) by (rewrite E, zlen_app, zlen_cons; lia).
  pose proof (zlen_nonneg l1). pose proof (zlen_nonneg l2).
  assert (Zn : forall e : sentry, zlen (l1 ++ e :: l2) = zlen es) by (intro; rewrite zlen_app, zlen_cons; lia).
  destruct (nth (Z.to_nat i) es None) as [[o t0]|] eqn:Ee; cbn [soff].
  - (* a tuple is there *)
    assert (Hin : In (Some (o, t0)) es) by (rewrite E; apply in_or_app; right; left; reflexivity).
    destruct (entry_pos Hps S Hin) as (P1 & P2 & P3 & P4 & P5 & P6).
    destruct (Z.eqb_spec o 0); [lia|].
    assert (Hpd := s_pd S). rewrite E in Hpd. apply pd_mid in Hpd as [Hdis Hpd].
    assert (Hsub : forall e, In e (l1 ++ l2) -> In e es) by (intros; rewrite E; apply in_mid; auto).
    assert (Eeo : eofs ps es = Z.min o (eofs ps (l1 ++ l2))) by (rewrite E at 1; apply eofs_mid).
    assert (S' : srep p hb (l1 ++ Some (o, t0) :: l2)) by (rewrite <- E; exact S).
    destruct (discard_old_ok _ _ _ _ _ _ S') as (p3 & E3 & R3 & D3). rewrite Z1 in E3.
    assert (Hlow : forall o' t', In (Some (o', t')) (l1 ++ l2) -> 5 * vs + zlen hb + zlen es * vs <= o').
    { intros o' t' H'. apply Hsub in H'. destruct (entry_pos Hps S H'). lia. }
    assert (Dd : sdata p3 (l1 ++ l2)).
    { apply sdata_same with (lo := 5 * vs + zlen hb + zlen es * vs) (p := p); try assumption.
      - rewrite Zes. exact D3.
      - eapply sdata_incl; [exact Hsub|apply S]. }
    assert (Eds : dsum es = zlen t0 + dsum (l1 ++ l2)) by (rewrite E at 1; apply dsum_mid).
    assert (Ets : tombs es = tombs (l1 ++ l2)) by (rewrite E at 1; rewrite tombs_mid; lia).
    pose proof (dsum_nonneg (l1 ++ l2)).
    destruct x as [t|].
    + rewrite (s_tuple_size Hps S _ _ Hin). cbn [bind]. unfold ext_size.
      assert (Hx' := Hx). destruct Hx' as [Hsz Hmx]. rewrite Hsz. cbn [bind].
      rewrite (s_eofs Hps S). cbn [bind]. pose proof (tuple_ok_pos _ _ Hdef Hx) as Htp.
      assert (Fin : forall p4 off, raw p4 hb (zlen es * vs + dsum (l1 ++ l2)) (zlen es) (tombs es)
                 (Z.min off (eofs ps (l1 ++ l2))) (map soff (l1 ++ None :: l2)) ->
               sdata p4 (l1 ++ l2) ->
               5 * vs + zlen hb + zlen es * vs <= off -> off + zlen t <= ps ->
               (forall e, In e (l1 ++ l2) -> disj (Some (off, t)) e) ->
               exists p', (let* p7 := (let* p5 := write_value p4 (5 * vs + zlen hb + i * vs) ps off in
                  let* p6 := memcopy p5 off t 0 (zlen t) in
                  let* oso := sl_off_space_occupied p6 ps in
                  bump p6 oso ps (zlen t)) in
                  let* p8 := if 0 =? 0 then Ok p7 else let* ots := sl_off_tomb_stone_count p7 ps in bump p7 ots ps 0 in
                  Ok (true, p8)) = Ok (true, p') /\
                  srep p' hb (l1 ++ Some (off, t) :: l2)).
      { intros p4 off R4 D4 Ho1 Ho2 Hdj.
        destruct (place_ok p4 hb (zlen es * vs + dsum (l1 ++ l2)) (tombs es) (Z.min off (eofs ps (l1 ++ l2))) l1 l2 off t)
          as (p7 & E7 & R7 & D7); try assumption; rewrite ?Zn; try assumption; try lia.
        rewrite Z1 in E7. rewrite E7. cbn [bind Z.eqb]. exists p7. split; [reflexivity|].
        constructor; rewrite ?Zn.
        - rewrite Zn in R7. eapply (raw_eq R7); try reflexivity.
          + rewrite dsum_mid. cbn [slen]. lia.
          + rewrite tombs_mid. lia.
          + rewrite eofs_mid. reflexivity.
        - rewrite eofs_mid. lia.
        - exact D7.
        - apply pd_mid. split; assumption. }
      destruct ((o =? eofs ps es) || (zlen t0 <? zlen t)) eqn:Cp; cbn [bind].
      * rewrite E3. cbn [bind].
        assert (Hroom : zlen t <= eofs ps (l1 ++ l2) - (5 * vs + zlen hb + zlen es * vs)).
        { destruct (Z.eqb_spec o (eofs ps es)) as [He|He].
          - assert (o + zlen t0 <= eofs ps (l1 ++ l2)).
            { apply eofs_lower; [lia|]. intros o' t' H'. pose proof (Hdis _ H') as Hd'. cbn in Hd'.
              pose proof (eofs_le_in ps _ _ _ H'). pose proof (Hsub _ H') as Hes.
              destruct (entry_pos Hps S Hes) as (_ & _ & _ & _ & _ & ?).
              lia. }
            unfold sfree in C. lia.
          - unfold sfree in C. lia. }
        rewrite !Zn in R3. rewrite eofs_mid in R3. rewrite dsum_mid in R3. cbn [slen] in R3.
        rewrite <- Ets in R3.
        assert (Hle := eofs_le_ps ps (l1 ++ l2)).
        unfold sl_allocate. rewrite (raw_free Hps R3) by lia. cbn [bind].
        destruct (Z.ltb_spec (eofs ps (l1 ++ l2) - (5 * vs + zlen hb + zlen es * vs)) (zlen t)); [lia|].
        rewrite (raw_eofs Hps R3) by lia. cbn [bind]. rewrite (raw_off4 Hps R3). cbn [bind].
        rewrite (u32_id (eofs ps (l1 ++ l2) - zlen t)) by lia.
        destruct (raw_wr_eo Hps R3 (eofs ps (l1 ++ l2) - zlen t)) as (p4 & E4 & R4 & D4). rewrite E4. cbn [bind].
        apply Fin.
        -- eapply (raw_eq R4); try reflexivity; lia.
        -- apply sdata_same with (lo := 5 * vs + zlen hb) (p := p3); try assumption.
           ++ apply R3.
           ++ intros o' t' H'. apply Hlow in H'. lia.
        -- lia.
        -- lia.
        -- intros e' He'. destruct e' as [[o' t']|]; [|exact I]. cbn. left.
           pose proof (eofs_le_in ps _ _ _ He'). lia.
      * rewrite E3. cbn [bind].
        rewrite !Zn in R3. rewrite eofs_mid in R3. rewrite dsum_mid in R3. cbn [slen] in R3.
        rewrite <- Ets in R3.
        apply Fin.
        -- eapply (raw_eq R3); try reflexivity; lia.
        -- exact Dd.
        -- lia.
        -- lia.
        -- intros e' He'. specialize (Hdis _ He'). destruct e' as [[o' t']|]; [|exact I]. cbn in *. lia.
    + cbn [bind]. rewrite E3. cbn [bind]. destruct (Z.eqb_spec 1 0); [lia|].
      rewrite (raw_off3 Hps R3). cbn [bind].
      destruct (raw_bump_ts Hps 1 R3) as (p8 & E8 & R8 & D8); [lia|lia|].
      rewrite E8. cbn [bind]. exists p8. split; [reflexivity|].
      constructor; rewrite ?Zn.
      * rewrite Zn in R8. eapply (raw_eq R8); try reflexivity. rewrite tombs_mid. lia.
      * rewrite eofs_mid. lia.
      * apply sdata_same with (lo := 5 * vs + zlen hb) (p := p3).
        -- exact D8.
        -- apply R3.
        -- intros o' t' H'. apply in_mid in H' as [H'|H']; [discriminate|]. apply Hlow in H'. lia.
        -- intros o' t' H'. apply in_mid in H' as [H'|H']; [discriminate|]. apply Dd. exact H'.
      * apply pd_mid. split; [|exact Hpd]. intros; exact I.
  - (* a tomb stone is there *)
    rewrite Z.eqb_refl.
    assert (Hsub : forall e, In e (l1 ++ l2) -> In e es) by (intros; rewrite E; apply in_mid; auto).
    destruct x as [t|]; cbn [bind].
    + assert (Hx' := Hx). destruct Hx' as [Hsz Hmx]. unfold ext_size. rewrite Hsz. cbn [bind].
      pose proof (tuple_ok_pos _ _ Hdef Hx) as Htp.
      unfold sl_allocate. rewrite (s_free Hps S). cbn [bind].
      destruct (Z.ltb_spec (sfree ps hb es) (zlen t)); [lia|]. unfold sfree in *.
      rewrite (s_eofs Hps S). cbn [bind]. rewrite (raw_off4 Hps R). cbn [bind].
      rewrite (u32_id (eofs ps es - zlen t)) by lia. set (off := eofs ps es - zlen t).
      destruct (raw_wr_eo Hps R off) as (p4 & E4 & R4 & D4). rewrite E4. cbn [bind].
      assert (Em : map soff es = map soff (l1 ++ None :: l2)) by (rewrite E at 1; reflexivity).
      assert (Ed : dsum es = dsum (l1 ++ l2)) by (rewrite E at 1; rewrite dsum_mid; cbn [slen]; lia).
      assert (Et : tombs es = 1 + tombs (l1 ++ l2)) by (rewrite E at 1; rewrite tombs_mid; lia).
      assert (Eeo : eofs ps es = eofs ps (l1 ++ l2)) by (rewrite E at 1; apply eofs_mid).
      assert (Hlow : forall o' t', In (Some (o', t')) (l1 ++ l2) -> off + zlen t <= o').
      { intros o' t' H'. apply Hsub in H'. pose proof (eofs_le_in ps _ _ _ H'). unfold off. lia. }
      destruct (place_ok p4 hb (zlen es * vs + dsum es) (tombs es) off l1 l2 off t) as (p7 & E7 & R7 & D7);
        rewrite ?Zn; try assumption; try lia.
      * rewrite <- Em. exact R4.
      * apply sdata_same with (lo := 5 * vs + zlen hb) (p := p); try assumption.
        -- intros o' t' H'. apply Hlow in H'. unfold off in *. lia.
        -- eapply sdata_incl; [exact Hsub|apply S].
      * intros e' He'. destruct e' as [[o' t']|]; [|exact I]. cbn. left. apply Hlow in He'. lia.
      * rewrite Z1 in E7. rewrite E7. cbn [bind]. destruct (Z.eqb_spec (-1) 0); [lia|].
        rewrite (raw_off3 Hps R7). cbn [bind].
        destruct (raw_bump_ts Hps (-1) R7) as (p8 & E8 & R8 & D8); [lia|pose proof (tombs_range (l1 ++ l2)); lia|].
        rewrite E8. cbn [bind]. exists p8. split; [reflexivity|].
        constructor; rewrite ?Zn.
        -- rewrite Zn in R8. eapply (raw_eq R8); try reflexivity.
           ++ rewrite dsum_mid. cbn [slen]. lia.
           ++ rewrite tombs_mid. lia.
           ++ rewrite eofs_mid. unfold off. lia.
        -- rewrite eofs_mid. unfold off. lia.
        -- apply sdata_same with (lo := 5 * vs + zlen hb) (p := p7); try assumption.
           ++ apply R7.
           ++ intros o' t' H'. apply in_mid in H' as [H'|H']; [inversion H'; unfold off; lia|].
              apply Hlow in H'. unfold off in *. lia.
        -- apply pd_mid. split.
           ++ intros e' He'. destruct e' as [[o' t']|]; [|exact I]. cbn. left. apply Hlow in He'. lia.
           ++ pose proof (s_pd S) as P. rewrite E in P. apply pd_mid in P. tauto.
    + exists p. split; [reflexivity|]. rewrite <- E. exact S.
Qed.
Lemma sl_update_spec p hb es i x : srep p hb es -> ext_ok d x -> 0 <= i ->
  exists p', sl_update p ps d i x = Ok (can_upd hb es i x, p') /\
    if can_upd hb es i x then exists e, option_map snd e = x /\ srep p' hb (replace_at i e es) else p' = p.
Proof.
  intros S Hx Hi. destruct (sl_update_places p hb es i x S Hx Hi) as (p' & E & H). exists p'. split; [exact E|].
  destruct (can_upd hb es i x); [|exact H]. exists (upd_entry es i x). split; [apply snd_upd_entry|exact H].
Qed.
End Page.
