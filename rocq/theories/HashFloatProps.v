(** * C52 with floats: only the sign of a zero and the bits of a NaN are hashed apart *)
From Verif Require Import HashFacts SizeProps TupleProps TupleExamples SerdeProps CompareProps HashProps.
From Coq Require Import ZifyBool ZifyNat ZifyN Zify.
Ltac Zify.zify_post_hook ::= idtac.
Open Scope list_scope.
Open Scope Z_scope.

(** no float in the value is a NaN or the negative zero *)
Definition plain_number (r : obs) : Prop :=
  match r with
  | OFloat b => float_number b <> NaN /\ b <> 2 ^ 31
  | ODouble b => double_number b <> NaN /\ b <> 2 ^ 63
  | _ => True
  end.
Inductive plain : value -> Prop :=
| plain_null : plain VNull
| plain_num r : plain_number r -> plain (VNum r)
| plain_list l : (forall x, In x l -> plain x) -> plain (VList l).

(** two different bit patterns stand for different numbers, except NaNs and zeros *)
Definition magnitude (mb eb b : Z) : Z :=
  let e := (b / 2 ^ mb) mod 2 ^ eb in let f := b mod 2 ^ mb in let u := 1074 + 2 - mb - 2 ^ (eb - 1) in
  if e =? 0 then f * 2 ^ u else (2 ^ mb + f) * 2 ^ (e - 1 + u).
Lemma magnitude_bounds mb eb b : 0 <= mb -> 0 < eb -> 0 <= 1074 + 2 - mb - 2 ^ (eb - 1) ->
  let e := (b / 2 ^ mb) mod 2 ^ eb in let u := 1074 + 2 - mb - 2 ^ (eb - 1) in
  (e = 0 -> 0 <= magnitude mb eb b < 2 ^ (mb + u)) /\ (0 < e -> 2 ^ (mb + u + (e - 1)) <= magnitude mb eb b < 2 ^ (mb + u + e)).
Proof.
  intros M E U e u. assert (P : 0 < 2 ^ mb) by lia. assert (F : 0 <= b mod 2 ^ mb < 2 ^ mb) by (apply Z.mod_pos_bound; lia).
  assert (Q : 0 < 2 ^ u) by (apply Z.pow_pos_nonneg; lia). unfold magnitude. fold e u. split; intro X.
  - rewrite X. cbn [Z.eqb]. rewrite Z.pow_add_r by lia. nia.
  - destruct (Z.eqb_spec e 0); [lia|]. assert (Q' : 0 < 2 ^ (e - 1 + u)) by (apply Z.pow_pos_nonneg; lia).
    replace (mb + u + (e - 1)) with (mb + (e - 1 + u)) by lia. replace (mb + u + e) with (1 + mb + (e - 1 + u)) by lia. rewrite !Z.pow_add_r with (b := mb) (c := e - 1 + u) by lia.
    rewrite Z.pow_add_r with (b := 1 + mb) by lia. rewrite (Z.pow_add_r 2 1 mb) by lia. nia.
Qed.
Lemma exponent_order k : 0 <= k -> forall x y va vb, 0 <= x -> x < y -> (x = 0 -> 0 <= va < 2 ^ k) /\ (0 < x -> 2 ^ (k + (x - 1)) <= va < 2 ^ (k + x)) ->
  (0 < y -> 2 ^ (k + (y - 1)) <= vb < 2 ^ (k + y)) -> va < vb.
Proof.
  intros K x y va vb X0 XY [V0 V1] V2. assert (Y : 0 < y) by (clear - X0 XY; lia). destruct (V2 Y) as [V3 _]. clear V2.
  apply Z.lt_le_trans with (2 ^ (k + x)).
  - destruct (Z.eq_dec x 0) as [->|N]; [rewrite Z.add_0_r; apply V0; reflexivity|]. apply V1. clear - X0 N. lia.
  - apply Z.le_trans with (2 ^ (k + (y - 1))); [|exact V3]. apply Z.pow_le_mono_r; clear - XY; lia.
Qed.
Lemma magnitude_inj mb eb a b : 0 <= mb -> 0 < eb -> 0 <= 1074 + 2 - mb - 2 ^ (eb - 1) -> magnitude mb eb a = magnitude mb eb b ->
  (a / 2 ^ mb) mod 2 ^ eb = (b / 2 ^ mb) mod 2 ^ eb /\ a mod 2 ^ mb = b mod 2 ^ mb.
Proof.
  intros M E U Q. pose proof (magnitude_bounds mb eb a M E U) as A. pose proof (magnitude_bounds mb eb b M E U) as B. cbv zeta in A, B.
  set (u := 1074 + 2 - mb - 2 ^ (eb - 1)) in *. set (ea := (a / 2 ^ mb) mod 2 ^ eb) in *. set (eb' := (b / 2 ^ mb) mod 2 ^ eb) in *.
  assert (N1 : 0 <= ea) by (apply Z.mod_pos_bound; apply Z.pow_pos_nonneg; lia). assert (N2 : 0 <= eb') by (apply Z.mod_pos_bound; apply Z.pow_pos_nonneg; lia).
  assert (K : 0 <= mb + u) by lia. pose proof (exponent_order (mb + u) K) as X. clear K.
  assert (EE : ea = eb').
  { destruct (Z_lt_le_dec ea eb') as [L|L]; [pose proof (X ea eb' _ _ N1 L A (proj2 B)) as XX; clear - XX Q; lia|].
    destruct (Z_lt_le_dec eb' ea) as [L'|L']; [pose proof (X eb' ea _ _ N2 L' B (proj2 A)) as XX; clear - XX Q; lia|]. clear - L L'. lia. }
  clear X A B.
  split; [exact EE|]. unfold magnitude in Q. fold u ea eb' in Q. rewrite <- EE in Q. destruct (Z.eqb_spec ea 0) as [Ez|Ez].
  - apply Z.mul_cancel_r in Q; [exact Q|]. apply Z.pow_nonzero; lia.
  - apply Z.mul_cancel_r in Q; [clear - Q; lia|]. apply Z.pow_nonzero; lia.
Qed.
Lemma ieee_inj mb eb a b : 0 <= mb -> 0 < eb -> 0 <= 1074 + 2 - mb - 2 ^ (eb - 1) -> 0 <= a < 2 ^ (mb + eb + 1) -> 0 <= b < 2 ^ (mb + eb + 1) ->
  ieee mb eb a <> NaN -> a <> 2 ^ (mb + eb) -> b <> 2 ^ (mb + eb) -> number_order (ieee mb eb a) (ieee mb eb b) = Eq -> a = b.
Proof.
  intros M E U RA RB NA ZA ZB O.
  assert (DEC : forall x, 0 <= x < 2 ^ (mb + eb + 1) -> x = (if 0 <? x / 2 ^ (mb + eb) then 1 else 0) * 2 ^ (mb + eb) + ((x / 2 ^ mb) mod 2 ^ eb) * 2 ^ mb + x mod 2 ^ mb /\ (x / 2 ^ (mb + eb) = 0 \/ x / 2 ^ (mb + eb) = 1)).
  { intros x R. rewrite Z.pow_add_r in R by lia. assert (P : 0 < 2 ^ (mb + eb)) by (apply Z.pow_pos_nonneg; lia).
    assert (T : 0 <= x / 2 ^ (mb + eb) < 2) by (split; [apply Z.div_pos; lia|apply Z.div_lt_upper_bound; lia]). split; [|lia].
    assert (D : x / 2 ^ (mb + eb) = x / 2 ^ mb / 2 ^ eb) by (rewrite Z.pow_add_r, Z.div_div by (try apply Z.pow_nonzero; lia); reflexivity).
    assert (P1 : 0 < 2 ^ mb) by (apply Z.pow_pos_nonneg; lia). assert (P2 : 0 < 2 ^ eb) by (apply Z.pow_pos_nonneg; lia).
    pose proof (Z.div_mod x (2 ^ mb) ltac:(lia)) as D1. pose proof (Z.div_mod (x / 2 ^ mb) (2 ^ eb) ltac:(lia)) as D2. rewrite <- D in D2. rewrite (Z.pow_add_r 2 mb eb) in * by lia.
    set (q := x / (2 ^ mb * 2 ^ eb)) in *. assert ((if 0 <? q then 1 else 0) = q) as -> by (destruct (Z.ltb_spec 0 q); lia).
    rewrite D2 in D1 at 1. nia. }
  destruct (DEC a RA) as [DA SA]. destruct (DEC b RB) as [DB SB].
  assert (MA : forall x, magnitude mb eb x = 0 -> (x / 2 ^ mb) mod 2 ^ eb = 0 /\ x mod 2 ^ mb = 0).
  { intros x Q. assert (Q0 : magnitude mb eb 0 = 0) by (unfold magnitude; rewrite Z.div_0_l, !Z.mod_0_l by (apply Z.pow_nonzero; lia); reflexivity).
    destruct (magnitude_inj mb eb x 0 M E U ltac:(congruence)) as [X1 X2]. rewrite X1, X2. rewrite Z.div_0_l, !Z.mod_0_l by (apply Z.pow_nonzero; lia). auto. }
  assert (NN : forall x, 0 <= magnitude mb eb x).
  { intro x. destruct (magnitude_bounds mb eb x M E U) as [B0 B1]. assert (0 <= (x / 2 ^ mb) mod 2 ^ eb) by (apply Z.mod_pos_bound, Z.pow_pos_nonneg; lia).
    destruct (Z.eq_dec ((x / 2 ^ mb) mod 2 ^ eb) 0) as [Q|Q]; [apply B0; exact Q|]. destruct (B1 ltac:(lia)) as [B2 _]. eapply Z.le_trans; [|exact B2]. apply Z.pow_nonneg. lia. }
  unfold ieee in NA, O. fold (magnitude mb eb a) in O. fold (magnitude mb eb b) in O.
  set (sa := 0 <? a / 2 ^ (mb + eb)) in *. set (sb := 0 <? b / 2 ^ (mb + eb)) in *.
  destruct ((a / 2 ^ mb) mod 2 ^ eb =? 2 ^ eb - 1) eqn:Ea; destruct ((b / 2 ^ mb) mod 2 ^ eb =? 2 ^ eb - 1) eqn:Eb.
  - destruct (a mod 2 ^ mb =? 0) eqn:Fa; [|congruence]. destruct (b mod 2 ^ mb =? 0) eqn:Fb; [|destruct sa; discriminate O].
    assert (sa = sb) as Es by (destruct sa, sb; try reflexivity; discriminate O). rewrite DA, DB, Es. lia.
  - destruct (a mod 2 ^ mb =? 0) eqn:Fa; [|congruence]. destruct sa; discriminate O.
  - destruct (b mod 2 ^ mb =? 0) eqn:Fb; [|discriminate O]. destruct sb; discriminate O.
  - cbn [number_order] in O. apply Z.compare_eq in O. pose proof (NN a) as A0. pose proof (NN b) as B0.
    destruct (Bool.bool_dec sa sb) as [Es|Es].
    + assert (magnitude mb eb a = magnitude mb eb b) as Q by (rewrite Es in O; destruct sb; lia).
      destruct (magnitude_inj mb eb a b M E U Q) as [Q1 Q2]. rewrite DA, DB, Es, Q1, Q2. reflexivity.
    + exfalso. assert (magnitude mb eb a = 0 /\ magnitude mb eb b = 0) as [Z1 Z2] by (destruct sa, sb; try congruence; lia).
      destruct (MA a Z1) as [Y1 Y2]. destruct (MA b Z2) as [Y3 Y4]. rewrite Y1, Y2 in DA. rewrite Y3, Y4 in DB. destruct sa, sb; try congruence; lia.
Qed.
Ltac Zify.zify_post_hook ::= Z.div_mod_to_equations.
Lemma float_inj a b : 0 <= a < 2 ^ 32 -> 0 <= b < 2 ^ 32 -> plain_number (OFloat a) -> plain_number (OFloat b) -> number_order (float_number a) (float_number b) = Eq -> a = b.
Proof. intros A B [P1 P2] [_ P4] O. apply (ieee_inj 23 8); try assumption; vm_compute; congruence. Qed.
Lemma double_inj a b : 0 <= a < 2 ^ 64 -> 0 <= b < 2 ^ 64 -> plain_number (ODouble a) -> plain_number (ODouble b) -> number_order (double_number a) (double_number b) = Eq -> a = b.
Proof. intros A B [P1 P2] [_ P4] O. apply (ieee_inj 52 11); try assumption; vm_compute; congruence. Qed.

Lemma equal_plain_values t v x : means t v x -> wf t -> forall w y, means t w y -> plain x -> plain y -> order x y = Eq -> x = y.
Proof.
  induction 1 as [t | t v r IV NN O | t m o n bs S R | t m o bs es ws l T HC CT V L1 L2 G M IH]; intros Wt w y Y PX PY E.
  - inversion Y as [? | ? ? s IV NN O| |]; subst; cbn in E; try discriminate; reflexivity.
  - inversion Y as [? | ? ? s IV' NN' O'| |]; subst; try discriminate E. inversion PX; subst. inversion PY; subst.
    f_equal. destruct v; try contradiction; cbn in O; injection O as <-; cbn [is_value] in IV; try (exfalso; tauto);
    destruct w; try contradiction; cbn in O'; injection O' as <-; cbn [is_value] in IV'; try (exfalso; tauto); try (exfalso; destruct IV, IV'; congruence); try (exfalso; destruct IV as (_ & ? & _), IV' as (_ & ? & _); congruence);
    cbn [order obs_number null_order] in E; first [apply integer_inj in E; f_equal; exact E|f_equal; apply float_inj; tauto|f_equal; apply double_inj; tauto].
  - inversion Y as [? | ? ? s IV NN O|? ? ? ? bs' S' R'|? ? ? ? ? ? l' T' ? ? ? ? ? ? ?]; subst; try discriminate E; [|exfalso; destruct S as [S|S]; destruct T' as [T'|T']; congruence].
    f_equal. clear - E. unfold bytes_value in E. rewrite order_list in E. revert bs' E. induction bs as [|b bs IH]; intros [|b' bs'] E; try discriminate; [reflexivity|]. cbn [map lex] in *.
    destruct (order _ _) eqn:Q; try discriminate. f_equal; [|apply IH; exact E]. cbn [order obs_number] in Q. apply integer_inj in Q. apply b2z_inj. exact Q.
  - inversion Y as [? | ? ? s IV NN O|? ? ? ? bs' S' R'|? ? ? bs' es' ws' l' T' HC' CT' V' L1' L2' G' M']; subst; try discriminate E; [exfalso; destruct S' as [S|S]; destruct T as [T|T]; congruence|].
    f_equal. rewrite order_list in E. inversion PX as [| |? PL]; subst. inversion PY as [| |? PL']; subst.
    assert (K : forall k, (forall i a b, nth_error l i = Some a -> nth_error l' i = Some b -> (k <= i)%nat -> order a b = Eq -> a = b)).
    { intros k i a b A B _ Q. pose proof (znth_some _ _ _ A) as I. pose proof (znth_some _ _ _ B) as I'.
      destruct (nth_error ws i) as [wa|] eqn:Ea; [|apply nth_error_None in Ea; unfold zlen in *; lia]. destruct (nth_error ws' i) as [wb|] eqn:Eb; [|apply nth_error_None in Eb; unfold zlen in *; lia].
      apply (IH i wa a Ea A (cv_etype_wf t m o _ es (Z.of_nat i) CT V ltac:(unfold zlen in *; lia))) with (w := wb); [apply (M' i wb b Eb B)|apply PL, (nth_error_In l i A)|apply PL', (nth_error_In l' i B)|exact Q]. }
    clear - E K. specialize (K O). revert l' E K. induction l as [|a l IH]; intros [|b l'] E K; try discriminate; [reflexivity|]. cbn [lex] in E. destruct (order a b) eqn:Q; try discriminate.
    f_equal; [apply (K O a b); auto|]. apply IH; [exact E|]. intros i c d A B _. apply (K (S i) c d A B). lia.
Qed.

(** C52: values that compare equal, with floats in them or not, hash alike
    unless a negative zero or a NaN occurs in them *)
Theorem C52_plain_values_hash_alike_partial {H} (up : H -> byte -> H) junk1 junk2 t v1 x v2 y h : zlen junk1 = 40 -> zlen junk2 = 40 -> usable t -> datum_is t v1 x -> datum_is t v2 y ->
  plain x -> plain y -> compare_datum2 v1 v2 (Some t) = Ok 0 -> hash_datum up junk1 v1 t h = hash_datum up junk2 v2 t h.
Proof.
  intros J1 J2 U D1 D2 PX PY C. rewrite (C45_datum up junk1 t v1 x h), (C45_datum up junk2 t v2 y h) by assumption. do 2 f_equal. destruct (usable_wf _ U) as [W _].
  apply datum_means in D1, D2. apply (equal_plain_values t v1 x D1 W v2 y D2 PX PY). rewrite (compare_datum2_meant (Some t) v1 x v2 y D1 D2) in C. destruct (order x y); [reflexivity|discriminate|discriminate].
Qed.
Print Assumptions C52_plain_values_hash_alike_partial.
(** and so do tuples by their keys *)
Theorem C52_plain_tuples_hash_alike_partial {H} (up : H -> byte -> H) junk1 junk2 d m1 o1 m2 o2 keys h : zlen junk1 = 40 -> zlen junk2 = 40 -> data_at d m1 o1 -> data_at d m2 o2 ->
  Forall (fun k => path_ok (fst k) /\ direction (snd k) /\ (forall x, key_is d m1 o1 (fst k) x -> plain x) /\ (forall x, key_is d m2 o2 (fst k) x -> plain x)) keys ->
  compare_tuples2 m1 o1 m2 o2 d keys = Ok 0 ->
  exists r, hash_tuple up junk1 d (map fst keys) m1 o1 h = Ok r /\ hash_tuple up junk2 d (map fst keys) m2 o2 h = Ok r.
Proof.
  intros J1 J2 D1 D2 F C. destruct (data_holds _ _ _ D1) as [b1 H1]. destruct (data_holds _ _ _ D2) as [b2 H2]. pose proof (proj1 (good_size _ _ (h_good _ _ _ _ H1))) as W.
  apply C45_same_content; auto; [clear - F; induction F as [|k keys (P & _) F IH]; constructor; auto|].
  unfold compare_tuples2 in C. induction F as [|[pa dir] keys (P & D & P1 & P2) F IH]; cbn [map]; [contradiction|]. cbn [fst snd] in *. cbn [compare_keys] in C.
  destruct (C43_values d m1 o1 pa D1 P) as (x & X & _). destruct (C43_values d m2 o2 pa D2 P) as (y & Y & _).
  rewrite (elements2_order d pa m1 o1 x m2 o2 y) in C by auto. cbn [bind] in C.
  assert (O : order x y = Eq) by (destruct (order x y); [reflexivity| |]; destruct D as [->| ->]; discriminate C). rewrite O in C.
  intros pb [<-|I]; [|apply IH; auto]. exists x. split; [exact X|].
  destruct (key_means _ _ _ _ _ _ H1 P X) as (v1 & E1 & M1). destruct (key_means _ _ _ _ _ _ H2 P Y) as (v2 & E2 & M2). destruct (get_type_info d pa) as [t|] eqn:T.
  - rewrite (equal_plain_values t v1 x M1 (type_wf pa d t W P T) v2 y M2 (P1 x X) (P2 y Y) O). exact Y.
  - destruct M1 as [_ ->]. destruct M2 as [_ <-]. exact Y.
Qed.
Print Assumptions C52_plain_tuples_hash_alike_partial.

(** a float that compares equal to a plain one is that one *)
Lemma eq_zero mb eb b : 0 <= mb -> 0 < eb -> 0 <= 1074 + 2 - mb - 2 ^ (eb - 1) -> 0 <= b < 2 ^ (mb + eb + 1) -> b <> 2 ^ (mb + eb) ->
  0 < 2 ^ eb - 1 -> number_order (Fin 0) (ieee mb eb b) = Eq -> b = 0.
Proof.
  intros M E U B NB P O. symmetry. apply (ieee_inj mb eb); try assumption; [split; [lia|apply Z.pow_pos_nonneg; lia]| |pose proof (Z.pow_pos_nonneg 2 (mb + eb)); lia|].
  all: assert (Q : ieee mb eb 0 = Fin 0); [unfold ieee; rewrite !Z.div_0_l, !Z.mod_0_l by (apply Z.pow_nonzero; lia); replace (0 =? 2 ^ eb - 1) with false by lia; reflexivity|rewrite Q; assumption || discriminate].
Qed.
Lemma float_zero b : 0 <= b < 2 ^ 32 -> b <> 2 ^ 31 -> number_order (Fin 0) (float_number b) = Eq -> b = 0.
Proof. intros B N O. refine (eq_zero 23 8 b _ _ _ B N _ O); vm_compute; congruence. Qed.
Lemma double_zero b : 0 <= b < 2 ^ 64 -> b <> 2 ^ 63 -> number_order (Fin 0) (double_number b) = Eq -> b = 0.
Proof. intros B N O. refine (eq_zero 52 11 b _ _ _ B N _ O); vm_compute; congruence. Qed.
Lemma float_neg_zero : float_number (2 ^ 31) = Fin 0. Proof. vm_compute. reflexivity. Qed.
Lemma double_neg_zero : double_number (2 ^ 63) = Fin 0. Proof. vm_compute. reflexivity. Qed.
Lemma float_inj0 a b : 0 <= a < 2 ^ 32 -> 0 <= b < 2 ^ 32 -> float_number a <> NaN -> a <> 2 ^ 31 -> b <> 2 ^ 31 -> number_order (float_number a) (float_number b) = Eq -> a = b.
Proof. intros A B P1 P2 P4 O. refine (ieee_inj 23 8 a b _ _ _ A B P1 P2 P4 O); vm_compute; congruence. Qed.
Lemma double_inj0 a b : 0 <= a < 2 ^ 64 -> 0 <= b < 2 ^ 64 -> double_number a <> NaN -> a <> 2 ^ 63 -> b <> 2 ^ 63 -> number_order (double_number a) (double_number b) = Eq -> a = b.
Proof. intros A B P1 P2 P4 O. refine (ieee_inj 52 11 a b _ _ _ A B P1 P2 P4 O); vm_compute; congruence. Qed.
(** these are the only exceptions: two different bit patterns of a float type
    that compare equal are the two zeros or two NaNs *)
Theorem C52_exceptions t v w : (exists a, v = DFloat a) \/ (exists a, v = DDouble a) -> is_value t v -> is_value t w ->
  compare_datum2 v w (Some t) = Ok 0 -> v = w
  \/ (exists a b, v = DFloat a /\ w = DFloat b /\ ((float_number a = NaN /\ float_number b = NaN) \/ (a = 0 /\ b = 2 ^ 31) \/ (a = 2 ^ 31 /\ b = 0)))
  \/ (exists a b, v = DDouble a /\ w = DDouble b /\ ((double_number a = NaN /\ double_number b = NaN) \/ (a = 0 /\ b = 2 ^ 63) \/ (a = 2 ^ 63 /\ b = 0))).
Proof.
  intros F IV IW C.
  assert (SW : forall x y, number_order x y = Eq -> number_order y x = Eq).
  { intros [| | |] [| | |] Q; cbn in *; try discriminate; try reflexivity. apply Z.compare_eq in Q. rewrite Q. apply Z.compare_refl. }
  assert (NN : forall x, number_order NaN x = Eq -> x = NaN) by (intros [| | |] Q; cbn in Q; congruence).
  destruct F as [[a ->]|[a ->]]; cbn [is_value] in IV.
  - assert (W : w = DNull \/ exists b, w = DFloat b) by (destruct w; cbn [is_value] in IW; try contradiction; eauto; destruct IV as (? & ? & _), IW as (? & IW); try congruence; destruct IW; congruence).
    assert (MA : means t (DFloat a) (VNum (OFloat a))) by (constructor; [exact IV|discriminate|reflexivity]).
    destruct W as [->|[b ->]]; [rewrite (compare_datum2_meant (Some t) _ _ _ VNull MA (m_null t)) in C; discriminate|]. cbn [is_value] in IW.
    assert (MB : means t (DFloat b) (VNum (OFloat b))) by (constructor; [exact IW|discriminate|reflexivity]).
    rewrite (compare_datum2_meant (Some t) _ _ _ _ MA MB) in C. cbn [order obs_number null_order] in C.
    assert (O : number_order (float_number a) (float_number b) = Eq) by (destruct (number_order _ _); [reflexivity|discriminate|discriminate]). clear C MA MB.
    destruct (Z.eq_dec a b) as [->|D]; [left; reflexivity|]. right; left. exists a, b. do 2 (split; [reflexivity|]).
    destruct IV as (_ & _ & RA). destruct IW as (_ & _ & RB).
    destruct (Z.eq_dec a (2 ^ 31)) as [->|Na]; [right; right; split; [reflexivity|]; rewrite float_neg_zero in O; apply float_zero; [exact RB|congruence|exact O]|].
    destruct (Z.eq_dec b (2 ^ 31)) as [->|Nb]; [right; left; split; [|reflexivity]; rewrite float_neg_zero in O; apply float_zero; [exact RA|exact Na|apply SW; exact O]|].
    destruct (float_number a) eqn:Q; try (exfalso; apply D; apply float_inj0; [exact RA|exact RB|congruence|exact Na|exact Nb|rewrite Q; exact O]).
    left. split; [reflexivity|apply NN; exact O].
  - assert (W : w = DNull \/ exists b, w = DDouble b) by (destruct w; cbn [is_value] in IW; try contradiction; eauto; destruct IV as (? & ? & _), IW as (? & IW); try congruence; destruct IW; congruence).
    assert (MA : means t (DDouble a) (VNum (ODouble a))) by (constructor; [exact IV|discriminate|reflexivity]).
    destruct W as [->|[b ->]]; [rewrite (compare_datum2_meant (Some t) _ _ _ VNull MA (m_null t)) in C; discriminate|]. cbn [is_value] in IW.
    assert (MB : means t (DDouble b) (VNum (ODouble b))) by (constructor; [exact IW|discriminate|reflexivity]).
    rewrite (compare_datum2_meant (Some t) _ _ _ _ MA MB) in C. cbn [order obs_number null_order] in C.
    assert (O : number_order (double_number a) (double_number b) = Eq) by (destruct (number_order _ _); [reflexivity|discriminate|discriminate]). clear C MA MB.
    destruct (Z.eq_dec a b) as [->|D]; [left; reflexivity|]. right; right. exists a, b. do 2 (split; [reflexivity|]).
    destruct IV as (_ & _ & RA). destruct IW as (_ & _ & RB).
    destruct (Z.eq_dec a (2 ^ 63)) as [->|Na]; [right; right; split; [reflexivity|]; rewrite double_neg_zero in O; apply double_zero; [exact RB|congruence|exact O]|].
    destruct (Z.eq_dec b (2 ^ 63)) as [->|Nb]; [right; left; split; [|reflexivity]; rewrite double_neg_zero in O; apply double_zero; [exact RA|exact Na|apply SW; exact O]|].
    destruct (double_number a) eqn:Q; try (exfalso; apply D; apply double_inj0; [exact RA|exact RB|congruence|exact Na|exact Nb|rewrite Q; exact O]).
    left. split; [reflexivity|apply NN; exact O].
Qed.
Print Assumptions C52_exceptions.

(** 1.5 and -2.0 in an array of nullable doubles: plain; and the values that are not *)
Example ex_plain : plain (VList [VNum (ODouble 4609434218613702656); VNull; VNum (ODouble 13835058055282163712)])
  /\ (~ plain (VNum (OFloat (2 ^ 31)))) /\ (~ plain (VNum (OFloat 2143289344))) /\ plain (VNum (OFloat 0)).
Proof.
  assert (PN : forall r, plain (VNum r) -> plain_number r) by (intros r P; inversion P; assumption).
  split; [constructor; intros x [<-|[<-|[<-|[]]]]; constructor; vm_compute; split; congruence|].
  split; [intro P; destruct (PN _ P) as [_ Q]; apply Q; reflexivity|].
  split; [intro P; destruct (PN _ P) as [Q _]; apply Q; vm_compute; reflexivity|]. constructor. vm_compute. split; congruence.
Qed.
Example ex_plain_hash : exists r, hash_datum fnv_64_update junk (DFloat 1069547520) float4 7 = Ok r
  /\ hash_datum fnv_64_update (repeat Byte.x00 40) (DFloat 1069547520) float4 7 = Ok r.
Proof. eexists. split; vm_compute; reflexivity. Qed.
