(** * Data with one tree: sizes and answers depend on the tree alone *)
From Verif Require Export TreeFacts SuccessFacts SameSpec.
From Coq Require Import ZifyBool ZifyNat ZifyN Zify.
Ltac Zify.zify_post_hook ::= idtac.

Lemma good_leaf_len t c : is_container_type_info t = false -> good t c -> zlen c = size t.
Proof. intros C G. destruct G as [t c _ _ _ L|t c es [_ C'] _ _]; [exact L|congruence]. Qed.
Lemma vtot_same t es1 : forall es2 i, length es1 = length es2 ->
  (forall k e1 e2, nth_error es1 k = Some e1 -> nth_error es2 k = Some e2 -> clen (etype t (i + Z.of_nat k)) e1 = clen (etype t (i + Z.of_nat k)) e2) ->
  vtot t i es1 = vtot t i es2.
Proof.
  induction es1 as [|e1 es1 IH]; intros [|e2 es2] i L K; try discriminate; [reflexivity|]. cbn [vtot].
  pose proof (K O e1 e2 eq_refl eq_refl) as K0. rewrite Z.add_0_r in K0. rewrite K0. f_equal. apply IH; [cbn in L; lia|].
  intros k a b A B. specialize (K (S k) a b A B). replace (i + 1 + Z.of_nat k) with (i + Z.of_nat (S k)) by lia. exact K.
Qed.

Lemma tr_size t e1 T : tr t e1 T -> forall e2, tr t e2 T ->
  clen t e1 = clen t e2 /\ forall c1 c2, e1 = CBytes c1 -> e2 = CBytes c2 -> zlen c1 = zlen c2.
Proof.
  induction 1 as [t|t z|t c C G|t c es l CT G V L K IH]; intros e2 H2.
  - inversion H2; subst. split; [reflexivity|discriminate].
  - split; [|discriminate]. inversion H2; subst; unfold clen; [reflexivity|].
    match goal with C : is_container_type_info t = false, G : good t _ |- _ => destruct (good_size _ _ G) as (W & _); rewrite (leaf_fixed t W C) end. reflexivity.
  - split.
    + destruct (good_size _ _ G) as (W & _). unfold clen. rewrite (leaf_fixed t W C). reflexivity.
    + intros c1 c2 E1 E2. injection E1 as <-. subst e2. inversion H2; subst. rewrite !(good_leaf_len t) by assumption. reflexivity.
  - inversion H2 as [| | |t' c2 es2 l2 CT2 G2 V2 L2 K2]; subst.
    assert (Z : zlen c = zlen c2).
    { rewrite (cv_tot _ _ _ _ _ V), (cv_tot _ _ _ _ _ V2). replace (zlen es) with (zlen es2) by (unfold zlen; congruence). f_equal.
      apply vtot_same; [congruence|]. intros k a b A B. rewrite Z.add_0_l. destruct (nth_len es l k a ltac:(congruence) A) as [x X].
      apply (IH k a x A X b). apply (K2 k b x B X). }
    split; [unfold clen; rewrite Z; reflexivity|]. intros a b A B. injection A as <-. injection B as <-. exact Z.
Qed.

(** data of one type and one tree *)
Definition same_tree (d : dti) (m1 : mem) (o1 : Z) (m2 : mem) (o2 : Z) : Prop :=
  exists bs1 bs2 T, holds d m1 o1 bs1 /\ holds d m2 o2 bs2 /\ tr d (CBytes bs1) T /\ tr d (CBytes bs2) T.
Lemma same_sym d m1 o1 m2 o2 : same_tree d m1 o1 m2 o2 -> same_tree d m2 o2 m1 o1.
Proof. intros (b1 & b2 & T & H1 & H2 & R1 & R2). exists b2, b1, T. auto. Qed.
Lemma holds_tr d m o bs T : holds d m o bs -> has_tree d m o [] T -> tr d (CBytes bs) T.
Proof.
  intros H HT. destruct (tr_exists_good d bs (h_good _ _ _ _ H)) as [T0 R].
  pose proof (has_tree_det _ _ _ _ _ HT _ (holds_tree _ _ _ _ _ H R)). subst T0. exact R.
Qed.
Lemma trees_same d m1 o1 m2 o2 T : data_at d m1 o1 -> data_at d m2 o2 -> has_tree d m1 o1 [] T -> has_tree d m2 o2 [] T -> same_tree d m1 o1 m2 o2.
Proof.
  intros D1 D2 T1 T2. destruct (data_holds _ _ _ D1) as [b1 H1]. destruct (data_holds _ _ _ D2) as [b2 H2].
  exists b1, b2, T. split; [exact H1|]. split; [exact H2|]. split; eapply holds_tr; eauto.
Qed.
Lemma contents_same d m1 o1 m2 o2 : same_contents d m1 o1 m2 o2 -> same_tree d m1 o1 m2 o2.
Proof. intros (D1 & D2 & T & T1 & T2). eapply trees_same; eauto. Qed.
Lemma same_size d m1 o1 m2 o2 : same_tree d m1 o1 m2 o2 -> get_size d m1 o1 = get_size d m2 o2.
Proof.
  intros (b1 & b2 & T & H1 & H2 & R1 & R2). rewrite (holds_size _ _ _ _ H1), (holds_size _ _ _ _ H2). f_equal. apply (tr_size _ _ _ R1 _ R2); reflexivity.
Qed.
Lemma same_count d m1 o1 m2 o2 : same_tree d m1 o1 m2 o2 -> get_element_count d m1 o1 = get_element_count d m2 o2.
Proof.
  intros (b1 & b2 & T & H1 & H2 & R1 & R2). destruct (is_container_type_info d) eqn:C; [|unfold get_element_count; rewrite C; reflexivity].
  destruct (holds_cv d m1 o1 b1 H1 C) as (es1 & CT & V1 & W1 & _). destruct (holds_cv d m2 o2 b2 H2 C) as (es2 & _ & V2 & W2 & _).
  rewrite (cv_get_count d m1 o1 _ es1 CT V1), (cv_get_count d m2 o2 _ es2 CT V2). f_equal.
  destruct (tr_node_inv d b1 es1 T CT W1 R1) as (l & -> & L1 & _). destruct (tr_node_inv d b2 es2 _ CT W2 R2) as (l' & E & L2 & _). injection E as <-. unfold zlen. congruence.
Qed.
Lemma same_step d m1 o1 m2 o2 i t a1 : 0 <= i -> same_tree d m1 o1 m2 o2 -> child d m1 o1 i = Ok (Some (Some (t, a1))) ->
  exists a2, child d m2 o2 i = Ok (Some (Some (t, a2))) /\ (same_tree t m1 a1 m2 a2 \/ is_bit_field t = true).
Proof.
  intros I (b1 & b2 & T & H1 & H2 & R1 & R2) CH.
  assert (C : is_container_type_info d = true) by (unfold child in CH; destruct (is_container_type_info d); [reflexivity|discriminate]).
  destruct (holds_cv d m1 o1 b1 H1 C) as (es1 & CT & V1 & W1 & GE1). destruct (holds_cv d m2 o2 b2 H2 C) as (es2 & _ & V2 & W2 & GE2).
  destruct (tr_node_inv d b1 es1 T CT W1 R1) as (l & -> & L1 & _ & K1). destruct (tr_node_inv d b2 es2 _ CT W2 R2) as (l' & E & L2 & _ & K2). injection E as <-.
  assert (LE : i < zlen es1). { destruct (Z.ltb_spec i (zlen es1)); [assumption|]. rewrite (child_none d m1 o1 _ es1 i CT V1) in CH by lia. discriminate. }
  destruct (znth_lt es1 i ltac:(lia)) as [e1 E1]. assert (Z12 : zlen es2 = zlen es1) by (unfold zlen; congruence).
  destruct (znth_lt es2 i ltac:(lia)) as [e2 E2]. destruct (nth_len es1 l _ _ ltac:(congruence) E1) as [x X].
  pose proof (K1 _ _ _ E1 X) as X1. pose proof (K2 _ _ _ E2 X) as X2. rewrite Z2Nat.id in X1, X2 by lia.
  rewrite (child_ok d m1 o1 _ es1 i e1 CT V1 I E1) in CH. rewrite (child_ok d m2 o2 _ es2 i e2 CT V2 I E2).
  pose proof (cv_el _ _ _ _ _ V1 i _ I E1) as Q1. pose proof (cv_el _ _ _ _ _ V2 i _ I E2) as Q2.
  destruct e1 as [|z1|c1]; cbn [ptr_of] in CH; [discriminate| |]; injection CH as <- <-.
  - pose proof Q1 as (_ & B & _). inversion X1; subst x. inversion X2; subst; cbn [ptr_of]; eauto.
  - inversion X1; subst; inversion X2; subst; cbn [ptr_of];
      try (pose proof Q2 as (_ & B & _); match goal with G : good _ _ |- _ => apply good_size in G; destruct G as (_ & G & _) end; congruence);
      (eexists; split; [reflexivity|]; left; exists c1; eexists; eexists; split; [eapply (child_holds d m1 o1 b1 es1 i); eauto|]; split; [eapply (child_holds d m2 o2 b2 es2 i); eauto|]; split; eassumption).
Qed.
Lemma bit_no_child t m o i t' a : is_bit_field t = true -> child t m o i <> Ok (Some (Some (t', a))).
Proof. intros B. apply is_bit_field_spec in B. unfold child, is_container_type_info. rewrite B. discriminate. Qed.
Lemma same_at pa : forall d m1 o1 m2 o2 t a1, path_ok pa -> same_tree d m1 o1 m2 o2 -> element_at d pa m1 o1 t a1 ->
  exists a2, element_at d pa m2 o2 t a2 /\ (same_tree t m1 a1 m2 a2 \/ is_bit_field t = true).
Proof.
  induction pa as [|i pa IH]; intros d m1 o1 m2 o2 t a1 PO A EA.
  - apply element_at_nil in EA. destruct EA as [-> ->]. exists o2. split; [constructor|auto].
  - pose proof (Forall_inv PO) as I. pose proof (Forall_inv_tail PO) as PO'. cbn beta in I.
    inversion EA as [|d0 i0 pa0 m0 o0 t1 b1 t2 a2 CH EA2 X1 X2 X3 X4 X5 X6]; subst.
    destruct (same_step d m1 o1 m2 o2 i t1 b1 ltac:(lia) A CH) as (b2 & CH2 & [A'|B]).
    + destruct (IH t1 m1 b1 m2 b2 t a1 PO' A' EA2) as (a2 & EA3 & R). exists a2. split; [econstructor; eauto|exact R].
    + destruct pa as [|j pa].
      * apply element_at_nil in EA2. destruct EA2 as [-> ->]. exists b2. split; [econstructor; [exact CH2|constructor]|auto].
      * inversion EA2; subst. exfalso. eapply bit_no_child; eauto.
Qed.
Lemma same_there pa d m1 o1 m2 o2 t a1 : path_ok pa -> same_tree d m1 o1 m2 o2 -> element_at d pa m1 o1 t a1 ->
  exists a2, element_at d pa m2 o2 t a2 /\ get_size t m2 a2 = get_size t m1 a1 /\ get_element_count t m2 a2 = get_element_count t m1 a1.
Proof.
  intros PO A EA. destruct (same_at pa d m1 o1 m2 o2 t a1 PO A EA) as (a2 & EA2 & [S|B]); exists a2; (split; [exact EA2|]).
  - split; symmetry; [apply same_size|apply same_count]; exact S.
  - apply is_bit_field_spec in B. unfold get_size, get_element_count, is_container_type_info. rewrite B. auto.
Qed.
Lemma path_pre pb pc : path_ok (pb ++ pc) -> path_ok pb.
Proof. unfold path_ok. rewrite Forall_app. tauto. Qed.

(** ** answers *)
Lemma same_place d pa m1 o1 m2 o2 : path_ok pa -> same_tree d m1 o1 m2 o2 -> place_exists d pa m1 o1 -> place_exists d pa m2 o2.
Proof.
  intros PO A [->|(pb & i & t & a & n & -> & EA & GC & L)]; [left; reflexivity|]. right.
  destruct (same_there pb d m1 o1 m2 o2 t a (path_pre _ _ PO) A EA) as (a2 & EA2 & _ & C). exists pb, i, t, a2, n. split; [reflexivity|]. split; [exact EA2|]. split; [congruence|exact L].
Qed.
Lemma observe_null d pa m o : observe d pa m o = Ok (Some ONull) <-> get_value d pa m o = Ok (Some DNull).
Proof.
  unfold observe. split; [|intros ->; cbn [bind]; destruct (get_type_info d pa); reflexivity]. destruct (get_value d pa m o) as [[v|]|]; cbn [bind]; try discriminate.
  destruct (get_type_info d pa) as [t|]; [|destruct v; try discriminate; reflexivity]. destruct v; try reflexivity; cbn [obs_of bind]; try discriminate.
  - destruct (rd _ _ _); discriminate.
  - destruct (get_size _ _ _); cbn [bind]; [destruct (rd _ _ _)|]; discriminate.
Qed.
Lemma same_null d pa m1 o1 m2 o2 : path_ok pa -> same_tree d m1 o1 m2 o2 -> get_value d pa m1 o1 = Ok (Some DNull) -> get_value d pa m2 o2 = Ok (Some DNull).
Proof.
  intros PO (b1 & b2 & T & H1 & H2 & R1 & R2) N. apply observe_null in N. apply observe_null.
  rewrite (observe_local pa d m1 o1 b1 PO H1) in N. rewrite (observe_local pa d m2 o2 b2 PO H2).
  pose proof (proj1 (tr_look pa d (CBytes b1) T PO R1)) as L1. pose proof (proj1 (tr_look pa d (CBytes b2) T PO R2)) as L2. cbn [oel] in L1, L2.
  destruct (look T pa) as [x|]; [|congruence]. destruct L1 as (r1 & E1 & S1). destruct L2 as (r2 & E2 & S2). rewrite N in E1. injection E1 as <-.
  rewrite E2. do 2 f_equal. destruct S2 as [(t' & TI' & S2)|[_ ->]]; [|reflexivity]. destruct S1 as [(t & TI & S1)|[-> _]]; [|exact S2].
  assert (t' = t) by congruence. subst t'. destruct x as [|y|l]; cbn [shows] in *; try congruence.
  exfalso. destruct (type t); repeat match goal with K : exists _, _ |- _ => destruct K | K : _ /\ _ |- _ => destruct K end; discriminate.
Qed.
Lemma same_held d pa m1 o1 m2 o2 s : path_ok pa -> same_tree d m1 o1 m2 o2 -> bytes_held d pa m1 o1 s -> bytes_held d pa m2 o2 s.
Proof.
  intros PO A [[N S]|(t & a & EA & S)]; [left; split; [eapply same_null; eauto|exact S]|right].
  destruct (same_there pa d m1 o1 m2 o2 t a PO A EA) as (a2 & EA2 & Z & _). exists t, a2. split; [exact EA2|congruence].
Qed.
Lemma same_growth d pa m1 o1 m2 o2 inc g : path_ok pa -> same_tree d m1 o1 m2 o2 -> growth_allowed d pa m1 o1 inc g -> growth_allowed d pa m2 o2 inc g.
Proof.
  intros PO A [G K]. split; [exact G|]. intros pb pc t a s E NE EA TV S. pose proof PO as PB. rewrite E in PB.
  destruct (same_there pb d m2 o2 m1 o1 t a (path_pre _ _ PB) (same_sym _ _ _ _ _ A) EA) as (a1 & EA1 & Z & _). apply (K pb pc t a1 s E NE EA1 TV). congruence.
Qed.
Lemma same_settable d pa m1 o1 m2 o2 t v inc : path_ok pa -> same_tree d m1 o1 m2 o2 -> settable d pa m1 o1 t v inc -> settable d pa m2 o2 t v inc.
Proof.
  intros PO A [P K]. split; [eapply same_place; eauto|]. destruct v; try exact K; intro TV; destruct (K TV) as (s & s' & B & N & Z & G); exists s, s';
    (split; [eapply same_held; eauto|]; split; [exact N|]; split; [exact Z|]; intro LT; eapply same_growth; eauto).
Qed.
Lemma same_expandable d pa m1 o1 m2 o2 index slots inc : path_ok pa -> same_tree d m1 o1 m2 o2 -> expandable d pa m1 o1 index slots inc -> expandable d pa m2 o2 index slots inc.
Proof.
  intros PO A (t & a & s & n & EA & SC & S & N & I & R). destruct (same_there pa d m1 o1 m2 o2 t a PO A EA) as (a2 & EA2 & Z & C).
  exists t, a2, s, n. split; [exact EA2|]. split; [exact SC|]. split; [congruence|]. split; [congruence|]. split; [exact I|]. destruct R as [->|[R G]]; [left; reflexivity|right].
  split; [exact R|]. intro LT. eapply same_growth; eauto.
Qed.
Lemma same_discardable d pa m1 o1 m2 o2 index slots : path_ok pa -> same_tree d m1 o1 m2 o2 -> discardable d pa m1 o1 index slots -> discardable d pa m2 o2 index slots.
Proof.
  intros PO A (t & a & n & EA & SC & N & I). destruct (same_there pa d m1 o1 m2 o2 t a PO A EA) as (a2 & EA2 & _ & C).
  exists t, a2, n. split; [exact EA2|]. split; [exact SC|]. split; [congruence|exact I].
Qed.

(** ** the tree after a step *)
Lemma app_inv_len {A} (l1 : list A) : forall k1 l2 k2, l1 ++ l2 = k1 ++ k2 -> length l1 = length k1 -> l1 = k1 /\ l2 = k2.
Proof.
  induction l1 as [|a l1 IH]; intros [|b k1] l2 k2 E L; try discriminate; [auto|]. cbn in E. injection E as -> E. destruct (IH k1 l2 k2 E ltac:(cbn in L; lia)) as [-> ->]. auto.
Qed.
Lemma at_path_det (R : tree -> tree -> Prop) pa : (forall x y z, R x y -> R x z -> y = z) -> forall T T1 T2, at_path R pa T T1 -> at_path R pa T T2 -> T1 = T2.
Proof.
  intro DET. induction pa as [|i pa IH]; intros T T1 T2 H1 H2; [eapply DET; eauto|]. cbn [at_path] in *.
  destruct H1 as (l1 & x & x' & l2 & -> & -> & L & H1). destruct H2 as (k1 & y & y' & k2 & E & -> & L' & H2). injection E as E.
  assert (LL : length l1 = length k1) by (unfold zlen in *; lia).
  apply app_inv_len in E; [|exact LL]. destruct E as [-> E2].
  injection E2 as -> ->. rewrite (IH _ _ _ H1 H2). reflexivity.
Qed.
Lemma fresh_det : forall t T, fresh t T -> forall T', fresh t T' -> T = T'
with unset_det : forall t T, unset t T -> forall T', unset t T' -> T = T'.
Proof.
  - intros t T F T' F'. destruct F as [t C|t l C L K]; inversion F' as [t0 C'|t0 l' C' L' K']; subst; try congruence.
    f_equal. apply list_eq; [unfold zlen in *; lia|]. intros i x y X Y. destruct (K i x X) as (c & TI & U). destruct (K' i y Y) as (c' & TI' & U'). rewrite TI in TI'. injection TI' as <-.
    apply (unset_det c x U y U').
  - intros t T U T' U'. destruct U as [t N|t T N F]; inversion U' as [t0 N'|t0 T0 N' F']; subst; try congruence. apply (fresh_det t T F T' F').
Qed.

Lemma app_pad_det (a : list byte) (x : byte) k k' : zlen (a ++ repeat x k) = zlen (a ++ repeat x k') -> k = k'.
Proof. unfold zlen. rewrite !app_length, !repeat_length. lia. Qed.
Lemma string_of_det t v b1 b2 : specified t v -> v <> DNull -> string_of t v b1 -> string_of t v b2 -> type t = STRING \/ type t = BINARY -> b1 = b2.
Proof.
  unfold specified, string_of. intros SP NN S1 S2 [T|T]; rewrite T in *; destruct (t_variable t) eqn:TV; try congruence.
  - destruct S1 as (k1 & -> & L1). destruct S2 as (k2 & -> & L2). rewrite (app_pad_det _ _ _ _ (eq_trans L1 (eq_sym L2))). reflexivity.
  - specialize (SP eq_refl eq_refl NN). destruct S1 as (k1 & -> & L1). destruct S2 as (k2 & -> & L2).
    assert (Q : forall k : list byte, zlen (firstn (Z.to_nat (size t)) (str_of v) ++ k) = size t -> k = []).
    { intros k L. unfold zlen in *. rewrite app_length, firstn_length in L. destruct k; [reflexivity|]. cbn [length] in L. lia. }
    rewrite (Q _ L1), (Q _ L2). reflexivity.
Qed.
Lemma stores_det t v T1 T2 : specified t v -> stores t v T1 -> stores t v T2 -> T1 = T2.
Proof.
  intros SP S1 S2. assert (NN : v = DNull \/ v <> DNull) by (destruct v; auto; right; discriminate). destruct NN as [->|NN]; [cbn in *; congruence|].
  assert (TQ : type t = STRING \/ type t = BINARY \/ (type t <> STRING /\ type t <> BINARY)) by (destruct (type t); intuition discriminate).
  assert (ST : type t = STRING \/ type t = BINARY -> T1 = T2).
  { intro TS. assert (exists b, string_of t v b /\ T1 = bytes_tree b) as (b1 & A1 & ->) by (unfold stores in S1; destruct v; try congruence; destruct TS as [T|T]; rewrite T in S1; exact S1).
    assert (exists b, string_of t v b /\ T2 = bytes_tree b) as (b2 & A2 & ->) by (unfold stores in S2; destruct v; try congruence; destruct TS as [T|T]; rewrite T in S2; exact S2).
    rewrite (string_of_det t v b1 b2 SP NN A1 A2 TS). reflexivity. }
  destruct TQ as [T|[T|[N1 N2]]]; [apply ST; auto|apply ST; auto|]. unfold stores in *.
  destruct v; try congruence; destruct (type t) eqn:T; try congruence;
    try (eapply fresh_det; eassumption); try (eapply has_tree_det; eassumption);
    destruct S1 as (r1 & A1 & ->), S2 as (r2 & A2 & ->); unfold reads_back in *; rewrite T in *; congruence.
Qed.
Lemma step_det d op r T T1 T2 : op_specified d op -> tree_step d op r T T1 -> tree_step d op r T T2 -> T1 = T2.
Proof.
  unfold tree_step. destruct r; cbn [negb]; [|congruence]. destruct op as [pa v inc|pa index slots inc|pa index slots]; intros SP S1 S2.
  - destruct S1 as (t & TI & A1). destruct S2 as (t' & TI' & A2). rewrite TI in TI'. injection TI' as <-.
    eapply at_path_det; [|exact A1|exact A2]. cbn beta. intros _ y z Y Z. eapply stores_det; eauto.
  - destruct S1 as (c & u & TI & U & A1). destruct S2 as (c' & u' & TI' & U' & A2). rewrite TI in TI'. injection TI' as <-. pose proof (unset_det c u U u' U'). subst u'.
    eapply at_path_det; [|exact A1|exact A2]. cbn beta. intros x y z (l1 & l2 & -> & L & ->) (k1 & k2 & E & L' & ->). injection E as E.
    assert (LL : length l1 = length k1) by (unfold zlen in *; lia).
    apply app_inv_len in E; [|exact LL]. destruct E as [-> ->]. reflexivity.
  - eapply at_path_det; [|exact S1|exact S2]. cbn beta. intros x y z (l1 & l & l2 & -> & L & M & ->) (k1 & k & k2 & E & L' & M' & ->). injection E as E.
    apply app_inv_len in E; [|unfold zlen in *; lia]. destruct E as [-> E]. apply app_inv_len in E; [|unfold zlen in *; lia]. destruct E as [_ ->]. reflexivity.
Qed.

(** ** readings *)
Lemma look_bound pa : forall t e T l, tr t e T -> look T pa = Some (TNode l) -> zlen l < 4294967296.
Proof.
  induction pa as [|i pa IH]; intros t e T l R L.
  - cbn [look] in L. injection L as ->. inversion R as [| | |t' c es l' CT G V LL K]; subst. pose proof (proj1 (cv_n _ _ _ _ _ V)) as B. unfold zlen in *. lia.
  - destruct R as [t|t z|t c C G|t c es l' CT G V LL K]; cbn [look] in L; try discriminate.
    destruct (nth_error l' (Z.to_nat i)) as [x|] eqn:E; [|discriminate]. destruct (nth_len l' es _ _ LL E) as [e En]. eapply IH; [apply (K _ _ _ En E)|exact L].
Qed.
Lemma same_count_of d pa m1 o1 m2 o2 : path_ok pa -> same_tree d m1 o1 m2 o2 ->
  element_count_of d pa m1 o1 = element_count_of d pa m2 o2 /\ exists n, element_count_of d pa m1 o1 = Ok n /\ n < 4294967296.
Proof.
  intros PO (b1 & b2 & T & H1 & H2 & R1 & R2). rewrite (count_local pa d m1 o1 b1 PO H1), (count_local pa d m2 o2 b2 PO H2).
  pose proof (proj2 (tr_look pa d (CBytes b1) T PO R1)) as L1. pose proof (proj2 (tr_look pa d (CBytes b2) T PO R2)) as L2. cbn [cel] in L1, L2. rewrite L1, L2. split; [reflexivity|].
  eexists. split; [reflexivity|]. destruct (look T pa) as [[| |l]|] eqn:L; try lia. eapply look_bound; eauto.
Qed.
Lemma bytes_tree_inj b1 b2 : bytes_tree b1 = bytes_tree b2 -> b1 = b2.
Proof.
  unfold bytes_tree. intro E. injection E as E. revert b2 E. induction b1 as [|x b1 IH]; intros [|y b2] E; try discriminate; [reflexivity|]. cbn in E. injection E as E1 E2.
  f_equal; [apply b2z_inj; exact E1|apply IH; exact E2].
Qed.
Lemma same_observe d pa m1 o1 m2 o2 : path_ok pa -> same_tree d m1 o1 m2 o2 ->
  observe d pa m1 o1 = observe d pa m2 o2 \/ exists c1 c2, observe d pa m1 o1 = Ok (Some (OData c1)) /\ observe d pa m2 o2 = Ok (Some (OData c2)).
Proof.
  intros PO (b1 & b2 & T & H1 & H2 & R1 & R2). rewrite (observe_local pa d m1 o1 b1 PO H1), (observe_local pa d m2 o2 b2 PO H2).
  pose proof (proj1 (tr_look pa d (CBytes b1) T PO R1)) as L1. pose proof (proj1 (tr_look pa d (CBytes b2) T PO R2)) as L2. cbn [oel] in L1, L2.
  destruct (look T pa) as [x|]; [|left; congruence]. destruct L1 as (r1 & E1 & S1). destruct L2 as (r2 & E2 & S2). rewrite E1, E2.
  destruct S1 as [(t & TI & S1)|[-> ->]]; destruct S2 as [(t' & TI' & S2)|[X ->]].
  - assert (t' = t) by congruence. subst t'. destruct x as [|y|l]; cbn [shows] in *; try (left; congruence).
    destruct (type t); repeat match goal with K : exists _, _ |- _ => destruct K | K : _ /\ _ |- _ => destruct K end; subst; try (right; eexists; eexists; split; reflexivity);
      (left; match goal with A : TNode l = bytes_tree ?a, B : TNode l = bytes_tree ?b |- _ => rewrite A in B; apply bytes_tree_inj in B; subst; reflexivity end).
  - subst x. cbn [shows] in S1. left. congruence.
  - cbn [shows] in S2. left. congruence.
  - left. congruence.
Qed.
Lemma same_value d m1 o1 m2 o2 pa x : same_tree d m1 o1 m2 o2 -> has_value d m1 o1 pa x -> path_ok pa -> has_value d m2 o2 pa x.
Proof.
  intros A. induction 1 as [pa O|pa r x O N|pa bs O|pa bs l O C K IH]; intro PO; destruct (same_observe d pa m1 o1 m2 o2 PO A) as [S|(c1 & c2 & S1 & S2)]; try (rewrite S1 in O; try discriminate);
    try (rewrite S in O).
  - apply value_null. exact O.
  - eapply value_num; eauto.
  - injection O as <-. discriminate.
  - apply value_string. exact O.
  - destruct (same_count_of d pa m1 o1 m2 o2 PO A) as [CC (n & CN & NB)]. rewrite CC in C. rewrite CC, C in CN. injection CN as <-.
    apply (value_list _ _ _ _ bs); [exact O|exact C|]. intros i x E. apply (IH i x E). apply Forall_app. split; [exact PO|]. repeat constructor; [lia|].
    assert (i < length l)%nat by (apply nth_error_Some; congruence). unfold zlen in NB. lia.
  - destruct (same_count_of d pa m1 o1 m2 o2 PO A) as [CC (n & CN & NB)]. rewrite CC in C. rewrite CC, C in CN. injection CN as <-.
    apply (value_list _ _ _ _ c2); [exact S2|exact C|]. intros i x E. apply (IH i x E). apply Forall_app. split; [exact PO|]. repeat constructor; [lia|].
    assert (i < length l)%nat by (apply nth_error_Some; congruence). unfold zlen in NB. lia.
Qed.
Lemma same_key d m1 o1 m2 o2 pa x : same_tree d m1 o1 m2 o2 -> path_ok pa -> key_is d m1 o1 pa x -> key_is d m2 o2 pa x.
Proof.
  intros A PO [V|[O ->]]; [left; eapply same_value; eauto|right]. split; [|reflexivity].
  destruct (same_observe d pa m1 o1 m2 o2 PO A) as [S|(c1 & c2 & S1 & _)]; congruence.
Qed.
