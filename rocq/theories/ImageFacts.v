(** * Lemmas about compacted and cleared pages *)
From Coq Require Import ZifyBool ZifyNat ZifyN Zify Permutation Sorted.
From Verif Require Import BytesFacts SpecFacts PageFacts ImageSpec.
Ltac Zify.zify_post_hook ::= Z.div_mod_to_equations.

(** ** sorted lists *)
Lemma sorted_unique {A} (R : A -> A -> Prop) : (forall x y, R x y -> R y x -> False) ->
  forall l1 l2, Permutation l1 l2 -> StronglySorted R l1 -> StronglySorted R l2 -> l1 = l2.
Proof.
  intros As. induction l1 as [|a l1 IH]; intros l2 P S1 S2.
  - apply Permutation_nil in P. auto.
  - destruct l2 as [|b l2]; [apply Permutation_sym, Permutation_nil in P; discriminate|].
    inversion S1 as [|? ? S1' F1]; subst. inversion S2 as [|? ? S2' F2]; subst. rewrite Forall_forall in F1, F2.
    assert (a = b).
    { destruct (Permutation_in a P (or_introl eq_refl)) as [->|Ha]; [reflexivity|].
      destruct (Permutation_in b (Permutation_sym P) (or_introl eq_refl)) as [->|Hb]; [reflexivity|].
      exfalso. exact (As a b (F1 _ Hb) (F2 _ Ha)). }
    subst b. f_equal. apply IH; auto. apply Permutation_cons_inv in P. exact P.
Qed.
Lemma sorted_weaken {A} (R R' : A -> A -> Prop) l : (forall x y, In x l -> In y l -> R x y -> R' x y) ->
  StronglySorted R l -> StronglySorted R' l.
Proof.
  intros H S. induction S as [|a l S IH F]; constructor.
  - apply IH. intros; apply H; cbn; auto.
  - rewrite Forall_forall in *. intros x Hx. apply H; cbn; auto.
Qed.
Lemma sorted_map {A B} (f : A -> B) (R : A -> A -> Prop) (R' : B -> B -> Prop) l :
  (forall x y, In x l -> In y l -> R x y -> R' (f x) (f y)) -> StronglySorted R l -> StronglySorted R' (map f l).
Proof.
  intros H S. induction S as [|a l S IH F]; cbn [map]; constructor.
  - apply IH. intros; apply H; cbn; auto.
  - rewrite Forall_forall in *. intros y Hy. apply in_map_iff in Hy as (x & <- & Hx). apply H; cbn; auto.
Qed.
Definition strictly (a b : Z * Z) : Prop := fst b < fst a.
Lemma desc_strict l : StronglySorted desc l -> NoDup (map fst l) -> StronglySorted strictly l.
Proof.
  intros S N. induction S as [|a l S IH F]; constructor.
  - inversion N; auto.
  - cbn [map] in N. inversion N as [|? ? Na N']; subst. rewrite Forall_forall in *. intros x Hx. specialize (F x Hx).
    unfold desc, strictly in *. destruct (Z.eq_dec (fst x) (fst a)) as [E|]; [|lia].
    exfalso. apply Na. rewrite <- E. apply in_map. exact Hx.
Qed.

(** ** the list of tuples that are sorted *)
Lemma coll_iff i es o j : In (o, j) (coll i es) <-> exists t, i <= j /\ nth_error es (Z.to_nat (j - i)) = Some (Some (o, t)).
Proof. apply (coll_in 128). unfold max_bytes. lia. Qed.
Lemma coll_fst i es o : In o (map fst (coll i es)) -> exists t, In (Some (o, t)) es.
Proof.
  intro H. apply in_map_iff in H as ((o' & j) & E & H). cbn in E. subst o'. apply coll_iff in H as (t & _ & H).
  exists t. eapply nth_error_In; eassumption.
Qed.
Lemma coll_fst_nodup es : pd es -> (forall o t, In (Some (o, t)) es -> 1 <= zlen t) -> forall i, NoDup (map fst (coll i es)).
Proof.
  induction es as [|[[o t]|] r IH]; intros P L i; cbn [coll map fst].
  - constructor.
  - cbn [pd] in P. destruct P as [D P]. constructor.
    + intro H. apply coll_fst in H as (t' & H). specialize (D _ H). cbn in D.
      pose proof (L o t (or_introl eq_refl)). pose proof (L o t' (or_intror H)). lia.
    + apply IH; [exact P|]. intros o' t' H. apply (L o' t'). right. exact H.
  - cbn [pd] in P. apply IH; [tauto|]. intros o' t' H. apply (L o' t'). right. exact H.
Qed.
Lemma coll_snd es1 : forall es2 i, content_of es1 = content_of es2 -> map snd (coll i es1) = map snd (coll i es2).
Proof.
  induction es1 as [|e1 r1 IH]; intros [|e2 r2] i E; cbn [content_of map] in E; try discriminate; [reflexivity|].
  inversion E as [[E1 E2]]. specialize (IH r2 (i + 1) E2).
  destruct e1 as [[o1 t1]|], e2 as [[o2 t2]|]; cbn in E1; try discriminate; cbn [coll map snd]; congruence.
Qed.

Lemma zlen_relocate l : forall e es, (forall i, In i (map snd l) -> 0 <= i < zlen es) -> zlen (relocate l e es) = zlen es.
Proof.
  induction l as [|[o i] l IH]; intros e es H; cbn [relocate]; [reflexivity|].
  cbn [map snd In] in H. pose proof (H i (or_introl eq_refl)).
  destruct (nth (Z.to_nat i) es None) as [[o' t]|].
  - assert (Z2 : zlen (upd es i [Some (e - zlen t, t)]) = zlen es) by (apply zlen_upd; cbn; lia). rewrite IH; [exact Z2|].
    intros j Hj. rewrite Z2. apply H. auto.
  - apply IH. intros j Hj. apply H. auto.
Qed.

(** the places depend on the order and the tuples alone *)
Lemma relocate_same l1 : forall l2 e es1 es2, map snd l1 = map snd l2 -> content_of es1 = content_of es2 ->
  (forall i, In i (map snd l1) -> 0 <= i < zlen es1) ->
  (forall j, 0 <= j < zlen es1 -> nth (Z.to_nat j) es1 None = nth (Z.to_nat j) es2 None \/ In j (map snd l1)) ->
  relocate l1 e es1 = relocate l2 e es2.
Proof.
  induction l1 as [|[o1 i] l1 IH]; intros [|[o2 i'] l2] e es1 es2 E C B H; cbn [map snd] in E; try discriminate; cbn [relocate].
  - pose proof (content_zlen _ _ C) as Ze. apply (nth_ext _ _ None None).
    + unfold zlen in Ze. lia.
    + intros n Hn. destruct (H (Z.of_nat n) ltac:(unfold zlen; lia)) as [Q|[]]. rewrite Nat2Z.id in Q. exact Q.
  - inversion E as [[Ei E2]]. subst i'. clear E. cbn [map snd In] in B, H.
    pose proof (content_zlen _ _ C) as Ze. pose proof (B i (or_introl eq_refl)) as Bi.
    assert (Ci : option_map snd (nth (Z.to_nat i) es1 None) = option_map snd (nth (Z.to_nat i) es2 None)).
    { rewrite <- !nth_content, C. reflexivity. }
    destruct (nth (Z.to_nat i) es1 None) as [[p1 t1]|] eqn:N1, (nth (Z.to_nat i) es2 None) as [[p2 t2]|] eqn:N2; cbn in Ci; try discriminate.
    + injection Ci as ->. set (x := Some (e - zlen t2, t2)).
      assert (Z1 : zlen (upd es1 i [x]) = zlen es1) by (apply zlen_upd; cbn; lia).
      assert (Z2 : zlen (upd es2 i [x]) = zlen es2) by (apply zlen_upd; cbn; lia).
      assert (K : forall es j, 0 <= j < zlen es -> 0 <= i < zlen es -> nth (Z.to_nat j) (upd es i [x]) None = if j =? i then x else nth (Z.to_nat j) es None).
      { intros es j Hj Hi. destruct (split_at es i None Hi) as (a & b & Es & Za & _ & _). assert (U : upd es i [x] = a ++ x :: b) by (rewrite Es, <- Za; apply upd_mid). rewrite U, Es.
        rewrite Es in Hj. rewrite zlen_app, zlen_cons in Hj. unfold zlen in Za, Hj. destruct (Z.eqb_spec j i) as [->|Hne].
        - replace (Z.to_nat i) with (length a) by lia. apply nth_middle.
        - destruct (Nat.lt_ge_cases (Z.to_nat j) (length a)).
          + rewrite !app_nth1 by lia. reflexivity.
          + rewrite !app_nth2 by lia. destruct (Z.to_nat j - length a)%nat eqn:Em; [lia|]. reflexivity. }
      apply IH; [exact E2| | |].
      * apply (nth_ext _ _ None None); unfold content_of; rewrite ?map_length; [unfold zlen in *; lia|].
        intros n Hn. fold (content_of (upd es1 i [x])) (content_of (upd es2 i [x])). rewrite !nth_content.
        pose proof (K es1 (Z.of_nat n) ltac:(unfold zlen in *; lia) Bi) as K1. pose proof (K es2 (Z.of_nat n) ltac:(unfold zlen in *; lia) ltac:(lia)) as K2.
        rewrite Nat2Z.id in K1, K2. rewrite K1, K2. destruct (Z.of_nat n =? i); [reflexivity|]. rewrite <- !nth_content, C. reflexivity.
      * intros j Hj. rewrite Z1. apply B. auto.
      * intros j Hj. rewrite Z1 in Hj. rewrite !K by lia. destruct (Z.eqb_spec j i) as [->|Hne]; [left; reflexivity|].
        destruct (H j Hj) as [Q|[Q|Q]]; [auto|lia|auto].
    + apply IH; auto. intros j Hj. destruct (H j Hj) as [Q|[Q|Q]]; [auto| |auto]. subst j. left. congruence.
Qed.

(** ** pages *)
Section Page.
Variable ps : Z.
Variable d : size_def.
Hypothesis Hps : 128 <= ps <= max_bytes.
Local Notation vs := (value_size ps).
Local Notation vsn := (Z.to_nat (value_size ps)).
Local Notation srep := (srep ps d).

(** tuples that fill a region leave no byte of it *)
Lemma cover es lo o : pd es -> (forall o' t, In (Some (o', t)) es -> lo <= o' /\ o' + zlen t <= ps) -> dsum es = ps - lo ->
  lo <= o < ps -> exists o' t, In (Some (o', t)) es /\ o' <= o < o' + zlen t.
Proof.
  intros P B S O. set (f := fun e : option (Z * list byte) => match e with Some (o', t) => (o' <=? o) && (o <? o' + zlen t) | None => false end).
  destruct (existsb f es) eqn:E.
  - apply existsb_exists in E as (x & Hx & Fx). destruct x as [[o' t]|]; [|discriminate]. exists o', t. split; [exact Hx|]. cbn in Fx. lia.
  - exfalso. assert (Q : dsum (Some (o, [Byte.x00]) :: es) <= ps - lo).
    { apply dsum_bound; [lia| |].
      - split; [|exact P]. intros x Hx. destruct x as [[o' t]|]; [|exact I]. cbn [disj]. change (zlen [Byte.x00]) with 1.
        assert (Fx : f (Some (o', t)) = false). { destruct (f (Some (o', t))) eqn:Ef; [|reflexivity]. rewrite <- E. symmetry. apply existsb_exists. eauto. }
        unfold f in Fx. lia.
      - intros o' t [Hx|Hx]; [|auto]. inversion Hx; subst. change (zlen [Byte.x00]) with 1. lia. }
    cbn [dsum slen] in Q. change (zlen [Byte.x00]) with 1 in Q. lia.
Qed.

(** all that is free is zero *)
Definition cleared (p : mem) (hb : list byte) (es : list (option (Z * list byte))) : Prop :=
  slice p (5 * vs + zlen hb + zlen es * vs) (sfree ps hb es) = repeat Byte.x00 (Z.to_nat (sfree ps hb es)).

Lemma in_slice (p q : mem) a n k dd : 0 <= a -> a <= k < a + n -> slice p a n = slice q a n -> nth (Z.to_nat k) p dd = nth (Z.to_nat k) q dd.
Proof.
  intros A K E. replace k with (a + (k - a)) by lia. rewrite <- !(nth_slice _ a n) by lia. rewrite E. reflexivity.
Qed.

Lemma same_entries_same_page p q hb es : srep p hb es -> srep q hb es -> frag ps es = 0 -> cleared p hb es -> cleared q hb es -> p = q.
Proof.
  intros S1 S2 F C1 C2. pose proof (srep_bounds Hps S1) as (L1 & N1 & N2 & N3 & N4 & N5 & N6 & N7).
  pose proof (r_len (s_raw S2)) as L2. pose proof (s_raw S1) as R1. pose proof (s_raw S2) as R2. pose proof (s_fit S1) as Fit.
  pose proof (value_size_range ps). pose proof (zlen_nonneg hb). pose proof (zlen_nonneg es). unfold cleared in *.
  apply list_eq_nth; [lia|]. intros dd k K.
  assert (J : k < vs \/ vs <= k < vs + zlen hb \/ vs + zlen hb <= k < 2 * vs + zlen hb \/ 2 * vs + zlen hb <= k < 3 * vs + zlen hb
    \/ 3 * vs + zlen hb <= k < 4 * vs + zlen hb \/ 4 * vs + zlen hb <= k < 5 * vs + zlen hb \/ 5 * vs + zlen hb <= k < 5 * vs + zlen hb + zlen es * vs
    \/ 5 * vs + zlen hb + zlen es * vs <= k < eofs ps es \/ eofs ps es <= k) by lia.
  destruct J as [J|[J|[J|[J|[J|[J|[J|[J|J]]]]]]]].
  - apply (in_slice p q 0 vs); [lia|lia|]. rewrite (r_hsize R1), (r_hsize R2). reflexivity.
  - apply (in_slice p q vs (zlen hb)); [lia|lia|]. rewrite (r_hdr R1), (r_hdr R2). reflexivity.
  - apply (in_slice p q (vs + zlen hb) vs); [lia|lia|]. rewrite (r_so _ _ _ _ _ _ _ _ R1), (r_so _ _ _ _ _ _ _ _ R2). reflexivity.
  - apply (in_slice p q (2 * vs + zlen hb) vs); [lia|lia|]. rewrite (r_tc _ _ _ _ _ _ _ _ R1), (r_tc _ _ _ _ _ _ _ _ R2). reflexivity.
  - apply (in_slice p q (3 * vs + zlen hb) vs); [lia|lia|]. rewrite (r_ts _ _ _ _ _ _ _ _ R1), (r_ts _ _ _ _ _ _ _ _ R2). reflexivity.
  - apply (in_slice p q (4 * vs + zlen hb) vs); [lia|lia|]. rewrite (r_eo _ _ _ _ _ _ _ _ R1), (r_eo _ _ _ _ _ _ _ _ R2). reflexivity.
  - set (b := 5 * vs + zlen hb) in *. set (i := (k - b) / vs).
    assert (I : 0 <= i /\ i * vs <= k - b < (i + 1) * vs). { unfold i. split; [apply Z.div_pos; lia|]. pose proof (Z.mul_div_le (k - b) vs ltac:(lia)). pose proof (Z.mul_succ_div_gt (k - b) vs ltac:(lia)). lia. }
    assert (I2 : i < zlen es) by nia.
    apply (in_slice p q (b + i * vs) vs); [nia|lia|]. unfold b. rewrite (r_sl R1 i), (r_sl R2 i) by (rewrite zlen_map; lia). reflexivity.
  - apply (in_slice p q (5 * vs + zlen hb + zlen es * vs) (sfree ps hb es)); [lia|unfold sfree; lia|]. rewrite C1, C2. reflexivity.
  - destruct (cover es (eofs ps es) k (s_pd S1)) as (o & t & Ho & Kt).
    + intros o t Ho. split; [eapply eofs_le_in; eassumption|]. apply (s_data S1) in Ho. tauto.
    + unfold frag in F. lia.
    + lia.
    + destruct (s_data S1 _ _ Ho) as (D1 & _). destruct (s_data S2 _ _ Ho) as (D2 & _). pose proof (eofs_le_in ps _ _ _ Ho).
      apply (in_slice p q o (zlen t)); [lia|lia|]. congruence.
Qed.

Lemma offsets_nodup p hb es : srep p hb es -> NoDup (map fst (coll 0 es)).
Proof. intro S. apply coll_fst_nodup; [apply S|]. intros o t H. apply (s_data S) in H. tauto. Qed.

Lemma ordered_any s1 s2 p hb es : sorts s1 -> sorts s2 -> srep p hb es -> ordered s1 es = ordered s2 es.
Proof.
  intros H1 H2 S. destruct (ordered_spec s1 es H1) as [P1 S1]. destruct (ordered_spec s2 es H2) as [P2 S2]. pose proof (offsets_nodup _ _ _ S) as N.
  apply (sorted_unique strictly).
  - unfold strictly. intros; lia.
  - transitivity (coll 0 es); [symmetry|]; assumption.
  - apply desc_strict; [exact S1|]. apply (Permutation_NoDup (l := map fst (coll 0 es))); [apply Permutation_map; exact P1|exact N].
  - apply desc_strict; [exact S2|]. apply (Permutation_NoDup (l := map fst (coll 0 es))); [apply Permutation_map; exact P2|exact N].
Qed.
Lemma sl_compact_any s1 s2 p hb es : sorts s1 -> sorts s2 -> srep p hb es -> sl_compact s1 true p ps d = sl_compact s2 true p ps d.
Proof.
  intros H1 H2 S. unfold sl_compact. rewrite (s_tuple_count Hps S). cbn [bind negb]. pose proof (srep_bounds Hps S). pose proof (zlen_nonneg es).
  rewrite (collect_ok ps d Hps _ _ _ S) by lia. cbn [bind]. cbn [Z.to_nat skipn]. fold (ordered s1 es) (ordered s2 es).
  rewrite (ordered_any s1 s2 p hb es H1 H2 S). reflexivity.
Qed.

(** ** two pages in the same order *)
Definition off_of (es : list (option (Z * list byte))) (i : Z) : Z := soff (nth (Z.to_nat i) es None).
Lemma coll_off es o i : In (o, i) (coll 0 es) -> 0 <= i < zlen es /\ exists t, nth (Z.to_nat i) es None = Some (o, t).
Proof.
  intro H. apply coll_iff in H as (t & Hi & H). rewrite Z.sub_0_r in H.
  assert (Z.to_nat i < length es)%nat by (apply nth_error_Some; congruence). split; [unfold zlen; lia|]. exists t. apply nth_error_nth. exact H.
Qed.
Lemma ordered_sorted srt p hb es : sorts srt -> srep p hb es ->
  StronglySorted (fun i j => off_of es j < off_of es i) (map snd (ordered srt es)) /\ Permutation (map snd (coll 0 es)) (map snd (ordered srt es)).
Proof.
  intros H S. destruct (ordered_spec srt es H) as [P So]. split; [|apply Permutation_map; exact P].
  apply (sorted_map snd strictly).
  - intros [o1 i1] [o2 i2] I1 I2 St. apply (Permutation_in _ (Permutation_sym P)) in I1, I2.
    apply coll_off in I1 as (_ & t1 & N1). apply coll_off in I2 as (_ & t2 & N2). unfold off_of. cbn [snd]. rewrite N1, N2. exact St.
  - apply desc_strict; [exact So|]. apply (Permutation_NoDup (l := map fst (coll 0 es))); [apply Permutation_map; exact P|exact (offsets_nodup _ _ _ S)].
Qed.
Lemma same_order_same_places s1 s2 p q hb1 hb2 es1 es2 : sorts s1 -> sorts s2 -> srep p hb1 es1 -> srep q hb2 es2 -> content_of es1 = content_of es2 ->
  (forall i j o1 t1 o2 t2 o3 t3 o4 t4, 0 <= i -> 0 <= j -> nth (Z.to_nat i) es1 None = Some (o1, t1) -> nth (Z.to_nat j) es1 None = Some (o2, t2) ->
     nth (Z.to_nat i) es2 None = Some (o3, t3) -> nth (Z.to_nat j) es2 None = Some (o4, t4) -> o1 < o2 -> o3 < o4) ->
  relocate (ordered s1 es1) ps es1 = relocate (ordered s2 es2) ps es2.
Proof.
  intros H1 H2 S1 S2 C O. destruct (ordered_sorted s1 p hb1 es1 H1 S1) as [A1 P1]. destruct (ordered_sorted s2 q hb2 es2 H2 S2) as [A2 P2].
  pose proof (coll_snd es1 es2 0 C) as Ec.
  assert (M : forall i, In i (map snd (ordered s1 es1)) -> 0 <= i < zlen es1 /\ exists o t, nth (Z.to_nat i) es1 None = Some (o, t)).
  { intros i Hi. apply (Permutation_in _ (Permutation_sym P1)) in Hi. apply in_map_iff in Hi as ((o & i') & E & Hi). cbn in E. subst i'.
    apply coll_off in Hi as (B & t & N). eauto. }
  assert (M2 : forall i o t, nth (Z.to_nat i) es1 None = Some (o, t) -> exists o', nth (Z.to_nat i) es2 None = Some (o', t)).
  { intros i o t N. pose proof (nth_content es1 (Z.to_nat i)) as Q. rewrite C, nth_content, N in Q. destruct (nth (Z.to_nat i) es2 None) as [[o' t']|]; cbn in Q; [|discriminate].
    injection Q as ->. eauto. }
  assert (E : map snd (ordered s1 es1) = map snd (ordered s2 es2)).
  { apply (sorted_unique (fun i j => off_of es2 j < off_of es2 i)).
    - intros; lia.
    - transitivity (map snd (coll 0 es1)); [symmetry; exact P1|]. rewrite Ec. exact P2.
    - revert A1. apply sorted_weaken. intros i j Hi Hj Hlt. destruct (M i Hi) as (Bi & oi & ti & Ni). destruct (M j Hj) as (Bj & oj & tj & Nj).
      destruct (M2 i oi ti Ni) as (oi' & Ni'). destruct (M2 j oj tj Nj) as (oj' & Nj'). unfold off_of in *. rewrite Ni, Nj in Hlt. rewrite Ni', Nj'. cbn [soff] in *.
      apply (O j i oj tj oi ti oj' tj oi' ti); auto; lia.
    - exact A2. }
  apply relocate_same; [exact E|exact C| |].
  - intros i Hi. apply M. exact Hi.
  - intros j Hj. pose proof (nth_content es1 (Z.to_nat j)) as Q. destruct (nth (Z.to_nat j) es1 None) as [[o t]|] eqn:N.
    + right. apply (Permutation_in _ P1). apply in_map_iff. exists (o, j). split; [reflexivity|]. apply coll_iff. exists t. split; [lia|]. rewrite Z.sub_0_r.
      rewrite <- N. apply nth_error_nth'. unfold zlen in Hj. lia.
    + left. rewrite C, nth_content in Q. destruct (nth (Z.to_nat j) es2 None) as [[o' t']|]; [discriminate|reflexivity].
Qed.

(** ** once more changes nothing *)
Lemma loop_sticky l : forall p e b e2 p2, sl_compact_loop p ps d l e true = Ok (b, e2, p2) -> b = true.
Proof.
  induction l as [|[o i] l IH]; intros p e b e2 p2 E; cbn [sl_compact_loop] in E; [congruence|].
  apply bind_inv in E as (oslot & _ & E). apply bind_inv in E as (tup & _ & E). apply bind_inv in E as (sz & _ & E).
  apply bind_inv in E as (p1 & _ & E). apply bind_inv in E as (p3 & _ & E). destruct (negb _); eapply IH; exact E.
Qed.
Lemma write_same p o v p1 : read_value p o ps = Ok v -> write_value p o ps v = Ok p1 -> p1 = p.
Proof.
  pose proof (value_size_range ps). unfold read_value, write_value. intros R W. apply bind_inv in R as (bs & R & E). injection E as E.
  apply rd_inv in R as (B0 & B1 & B2 & ->). pose proof (zlen_slice p o vs ltac:(lia) ltac:(lia) ltac:(lia)) as Zs.
  assert (Q : enc vsn v = slice p o vs). { rewrite <- E. replace vsn with (length (slice p o vs)) by (unfold zlen in Zs; lia). apply enc_dec. }
  rewrite Q in W. rewrite wr_ok in W by lia. injection W as <-. apply upd_slice_id; lia.
Qed.
Lemma loop_same l : forall p e e2 p2, sl_compact_loop p ps d l e false = Ok (false, e2, p2) ->
  (forall o i, In (o, i) l -> sl_ith_tuple p ps i = Ok o) -> p2 = p.
Proof.
  induction l as [|[o i] l IH]; intros p e e2 p2 E H; cbn [sl_compact_loop] in E; [congruence|].
  pose proof (H o i (or_introl eq_refl)) as Hi.
  apply bind_inv in E as (oslot & E0 & E). apply bind_inv in E as (tup & E1 & E). rewrite Hi in E1. injection E1 as <-.
  apply bind_inv in E as (sz & E2 & E). apply bind_inv in E as (p1 & E3 & E). apply bind_inv in E as (p3 & E4 & E).
  destruct (Z.eqb_spec (u32 (e - sz)) o) as [Q|Q]; cbn [negb] in E; [|apply loop_sticky in E; discriminate].
  rewrite Q in *. assert (p1 = p).
  { unfold memmove in E3. apply bind_inv in E3 as (bs & R & W). apply rd_inv in R as (B0 & B1 & B2 & ->).
    pose proof (zlen_slice p o sz ltac:(lia) ltac:(lia) ltac:(lia)). rewrite wr_ok in W by lia. injection W as <-. apply upd_slice_id; lia. }
  subst p1. unfold sl_ith_tuple in Hi. rewrite E0 in Hi. cbn [bind] in Hi. assert (p3 = p) by (eapply write_same; eassumption). subst p3.
  eapply IH; [exact E|]. intros o' i' H'. apply H. right. exact H'.
Qed.
Lemma sl_compact_again srt p hb es : sorts srt -> srep p hb es -> frag ps es = 0 -> sl_compact srt true p ps d = Ok (false, false, p).
Proof.
  intros Hs S F. destruct (sl_compact_places ps d Hps srt p hb es Hs S) as (p' & es' & E & S' & C & F' & _). rewrite F in E. cbn [Z.eqb negb] in E.
  rewrite E. do 2 f_equal. unfold sl_compact in E. rewrite (s_tuple_count Hps S) in E. cbn [bind negb] in E.
  pose proof (srep_bounds Hps S) as SB. pose proof (zlen_nonneg es). pose proof (zlen_nonneg hb). pose proof (value_size_range ps).
  rewrite (collect_ok ps d Hps _ _ _ S) in E by lia. cbn [bind] in E. cbn [Z.to_nat skipn] in E. fold (ordered srt es) in E.
  apply bind_inv in E as ([[mv e] p1] & E1 & E). apply bind_inv in E as (o & E2 & E). apply bind_inv in E as (p2 & E3 & E). injection E as -> ->.
  assert (p1 = p).
  { eapply loop_same; [exact E1|]. intros o' i Hi. destruct (ordered_spec srt es Hs) as [P _]. apply (Permutation_in _ (Permutation_sym P)) in Hi.
    apply coll_off in Hi as (B & t & N). rewrite (s_ith Hps S) by lia. rewrite N. reflexivity. }
  subst p1. rewrite (raw_off4 Hps (s_raw S)) in E2. assert (Eo : o = 4 * vs + zlen hb) by congruence. clear E2. subst o. unfold write_value in E3. pose proof (zlen_enc vsn e) as Ze.
  pose proof (r_len (s_raw S)) as L. rewrite wr_ok in E3 by lia. injection E3 as <-.
  pose proof (r_eo _ _ _ _ _ _ _ _ (s_raw S')) as Q. pose proof (r_eo _ _ _ _ _ _ _ _ (s_raw S)) as Q0. rewrite slice_upd_same' in Q by lia.
  rewrite Q. replace (eofs ps es') with (eofs ps es). 2: { unfold frag in *. rewrite (dsum_content _ _ C) in F'. lia. }
  rewrite <- Q0. apply upd_slice_id; lia.
Qed.
Lemma zeros_slice (p : mem) a f k dd : 0 <= a -> a <= k < a + f -> slice p a f = repeat Byte.x00 (Z.to_nat f) -> nth (Z.to_nat k) p dd = Byte.x00.
Proof.
  intros A K E. replace k with (a + (k - a)) by lia. rewrite <- (nth_slice p a f) by lia. rewrite E. rewrite (nth_indep _ dd Byte.x00) by (rewrite repeat_length; lia).
  apply nth_repeat.
Qed.
Lemma same_but_zeros (p q : mem) a f : zlen p = ps -> zlen q = ps -> 0 <= a -> 0 <= f -> a + f <= ps ->
  (forall o n, 0 <= o -> 0 <= n -> o + n <= ps -> o + n <= a \/ a + f <= o -> slice q o n = slice p o n) ->
  slice p a f = repeat Byte.x00 (Z.to_nat f) -> slice q a f = repeat Byte.x00 (Z.to_nat f) -> q = p.
Proof.
  intros L1 L2 A F B O Z1 Z2. apply list_eq_nth; [lia|]. intros dd k K. destruct (Z_lt_ge_dec k a) as [J|J].
  - apply (in_slice q p 0 a); [lia|lia|]. apply O; lia.
  - destruct (Z_lt_ge_dec k (a + f)) as [J2|J2].
    + rewrite (zeros_slice p a f), (zeros_slice q a f) by (assumption || lia). reflexivity.
    + apply (in_slice q p (a + f) (ps - (a + f))); [lia|lia|]. apply O; lia.
Qed.
Lemma sl_zero_again p hb es : srep p hb es -> cleared p hb es -> sl_zero_out p ps = Ok (negb (sfree ps hb es =? 0), p).
Proof.
  intros S C. destruct (sl_zero_out_spec ps d Hps p hb es S) as (p' & E & S' & O & Z). rewrite E. do 2 f_equal.
  pose proof (srep_bounds Hps S). pose proof (s_fit S). pose proof (zlen_nonneg hb). pose proof (value_size_range ps).
  apply (same_but_zeros p p' (5 * vs + zlen hb + zlen es * vs) (sfree ps hb es)); try assumption; try (unfold sfree in *; lia).
  - apply (r_len (s_raw S')).
  - intros o n ? ? ? J. apply O; unfold sfree in *; lia.
Qed.
Lemma fa_zero_again p hb c : def_ok d -> sd_variable d = false -> frep ps d p hb c ->
  let st := ftup ps (zlen hb) (sd_size d) + zlen c * sd_size d in slice p st (ps - st) = repeat Byte.x00 (Z.to_nat (ps - st)) ->
  fa_zero_out p ps d = Ok (negb (ps - st =? 0), p).
Proof.
  intros Hd Hf F st Z. destruct (fa_zero_out_spec ps d Hps Hd Hf p hb c F) as (p' & E & F' & O & Z'). fold st in E, O, Z'. rewrite E. do 2 f_equal.
  pose proof (fr_free ps d Hps Hd Hf _ _ _ F). fold st in H.
  apply (same_but_zeros p p' st (ps - st)); try assumption; try lia.
  - exact (fr_len ps d _ _ _ F).
  - exact (fr_len ps d _ _ _ F').
  - intros o n ? ? ? [J|J]; [apply O; lia|]. replace n with 0 by lia. rewrite !slice_0. reflexivity.
Qed.

(** ** what a byte is there for *)
Lemma sl_bytes p hb es o : srep p hb es -> frag ps es = 0 -> cleared p hb es -> 0 <= o < ps ->
  o < 5 * vs + zlen hb \/ o < 5 * vs + zlen hb + zlen es * vs
  \/ (exists i o' t, 0 <= i < zlen es /\ nth (Z.to_nat i) es None = Some (o', t) /\ o' <= o < o' + zlen t)
  \/ nth (Z.to_nat o) p Byte.xff = Byte.x00.
Proof.
  intros S F C O. destruct (Z_lt_ge_dec o (5 * vs + zlen hb + zlen es * vs)) as [J|J]; [tauto|]. right. right.
  pose proof (srep_bounds Hps S). pose proof (s_fit S). pose proof (zlen_nonneg hb). pose proof (value_size_range ps).
  destruct (Z_lt_ge_dec o (eofs ps es)) as [K|K].
  - right. apply (zeros_slice p (5 * vs + zlen hb + zlen es * vs) (sfree ps hb es)); [lia|unfold sfree; lia|exact C].
  - left. destruct (cover es (eofs ps es) o (s_pd S)) as (o' & t & Ho & B).
    + intros o' t Ho. split; [eapply eofs_le_in; eassumption|]. apply (s_data S) in Ho. tauto.
    + unfold frag in F. lia.
    + lia.
    + destruct (In_nth es _ None Ho) as (n & Hn & En). exists (Z.of_nat n), o', t. rewrite Nat2Z.id. split; [unfold zlen; lia|]. auto.
Qed.
End Page.
