(** * Comparison follows the order of values *)
From Verif Require Export ValueFacts.
From Coq Require Import ZifyBool ZifyNat ZifyN Zify.
Ltac Zify.zify_post_hook ::= Z.div_mod_to_equations.

(** ** the order on lists *)
Fixpoint lex (l k : list value) : comparison :=
  match l, k with
  | [], [] => Eq
  | [], _ :: _ => Lt
  | _ :: _, [] => Gt
  | x :: l', y :: k' => match order x y with Eq => lex l' k' | c => c end
  end.
Lemma order_list l k : order (VList l) (VList k) = lex l k.
Proof. reflexivity. Qed.

Lemma loop_lex l1 : forall l2 i f,
  (forall k x y, nth_error l1 k = Some x -> nth_error l2 k = Some y -> f (i + Z.of_nat k) = Ok (sign (order x y))) ->
  (let* c := compare_loop (Nat.min (length l1) (length l2)) i f in Ok (if c =? 0 then compare_counts (zlen l1) (zlen l2) else c)) = Ok (sign (lex l1 l2)).
Proof.
  induction l1 as [|x l1 IH]; intros [|y l2] i f H.
  - reflexivity.
  - reflexivity.
  - reflexivity.
  - cbn [length Nat.min compare_loop lex]. pose proof (H O x y eq_refl eq_refl) as H0. rewrite Z.add_0_r in H0. rewrite H0. cbn [bind].
    destruct (order x y) eqn:O; cbn [sign Z.eqb]; try reflexivity.
    rewrite <- (IH l2 (i + 1) f).
    + destruct (compare_loop _ _ f) as [c|]; [|reflexivity]. cbn [bind]. f_equal. destruct (c =? 0); [|reflexivity].
      unfold compare_counts. rewrite !zlen_cons. replace (1 + zlen l1 =? 1 + zlen l2) with (zlen l1 =? zlen l2) by lia. replace (1 + zlen l2 <? 1 + zlen l1) with (zlen l2 <? zlen l1) by lia. reflexivity.
    + intros k a b A B. replace (i + 1 + Z.of_nat k) with (i + Z.of_nat (S k)) by lia. apply H; auto.
Qed.

(** ** the recursion *)
Definition tuple_loop (f : Z -> dti -> res Z) (n : Z) := fix go (cs : list (position * dti)) (i : Z) {struct cs} : res Z :=
  if n <=? i then Ok 0
  else match cs with
       | [] => UB
       | (_, c) :: cs' => let* cmp := f i c in if cmp =? 0 then go cs' (i + 1) else Ok cmp
       end.
Lemma compare_unfold d1 d2 v1 v2 : compare_internal d1 d2 v1 v2 =
  compare_nulls v1 v2
    (match d2 with
     | None => UB
     | Some d2 =>
       if is_primitive_numeral d1 then compare_primitive v1 d1 v2 d2
       else match type d1 with
            | TUPLE =>
                let* n := element_count_for_datum v1 d1 in
                tuple_loop (fun i c =>
                  let* (w1, _) := child_of_datum v1 d1 i in
                  let* (w2, t2) := child_of_datum v2 d2 i in
                  compare_internal c t2 w1 w2) n (containees d1) 0
            | _ =>
                let* n1 := element_count_for_datum v1 d1 in
                let* n2 := element_count_for_datum v2 d2 in
                let* cmp := compare_loop (Z.to_nat (Z.min n1 n2)) 0 (fun i =>
                  let* (w1, _) := child_of_datum v1 d1 i in
                  let* (w2, t2) := child_of_datum v2 d2 i in
                  match type d1 with
                  | ARRAY => match containee_ d1 with Some c => compare_internal c t2 w1 w2 | None => UB end
                  | _ => compare_internal uint8_type t2 w1 w2
                  end) in
                Ok (if cmp =? 0 then compare_counts n1 n2 else cmp)
            end
     end).
Proof.
  destruct d1 as [fin nm ty nu vr sz ms hv ec pb ce cs]; cbn [compare_internal type containee_ containees]. destruct d2 as [d2|]; [|reflexivity].
  f_equal. destruct (is_primitive_numeral _); [reflexivity|]. destruct ty; try reflexivity.
  set (d1 := mk_dti _ _ _ _ _ _ _ _ _ _ _ _).
  destruct (element_count_for_datum v1 d1) as [n|]; [|reflexivity]. cbn [bind]. clearbody d1.
  match goal with |- ?f cs 0 = ?g cs 0 => enough (forall l i, f l i = g l i) by auto end.
  induction l as [|[p c] l IH]; intro i; cbn [tuple_loop]; [reflexivity|]. destruct (n <=? i); [reflexivity|].
  destruct (child_of_datum v1 d1 i) as [[w1 u1]|]; [|reflexivity]. cbn [bind]. destruct (child_of_datum v2 d2 i) as [[w2 t2]|]; [|reflexivity]. cbn [bind].
  destruct (compare_internal c t2 w1 w2) as [cmp|]; [|reflexivity]. cbn [bind]. destruct (cmp =? 0); [|reflexivity]. apply IH.
Qed.
Lemma compare2_unfold d v1 v2 : compare_internal2 d v1 v2 =
  compare_nulls v1 v2
    (if is_primitive_numeral d then compare_primitive2 v1 v2 d
     else match type d with
          | TUPLE =>
              let* n := element_count_for_datum v1 d in
              tuple_loop (fun i c =>
                          let* (w1, _) := child_of_datum v1 d i in
                          let* (w2, _) := child_of_datum v2 d i in
                          compare_internal2 c w1 w2) n (containees d) 0
          | STRING | BINARY =>
              let* n1 := element_count_for_datum v1 d in
              let* n2 := element_count_for_datum v2 d in
              let* (m1, o1, _) := string_value v1 in
              let* (m2, o2, _) := string_value v2 in
              let* cmp := compare_loop (Z.to_nat (Z.min n1 n2)) 0 (fun i =>
                let* b1 := rd m1 (o1 + i) 1 in
                let* b2 := rd m2 (o2 + i) 1 in
                Ok (compare_numbers (dec b1) (dec b2))) in
              Ok (if cmp =? 0 then compare_counts n1 n2 else cmp)
          | _ =>
              let* n1 := element_count_for_datum v1 d in
              let* n2 := element_count_for_datum v2 d in
              let* cmp := compare_loop (Z.to_nat (Z.min n1 n2)) 0 (fun i =>
                let* (w1, _) := child_of_datum v1 d i in
                let* (w2, _) := child_of_datum v2 d i in
                match containee_ d with Some c => compare_internal2 c w1 w2 | None => UB end) in
              Ok (if cmp =? 0 then compare_counts n1 n2 else cmp)
          end).
Proof.
  destruct d as [fin nm ty nu vr sz ms hv ec pb ce cs]; cbn [compare_internal2 type containee_ containees].
  f_equal. destruct (is_primitive_numeral _); [reflexivity|]. destruct ty; try reflexivity.
  set (d := mk_dti _ _ _ _ _ _ _ _ _ _ _ _).
  destruct (element_count_for_datum v1 d) as [n|]; [|reflexivity]. cbn [bind]. clearbody d.
  match goal with |- ?f cs 0 = ?g cs 0 => enough (forall l i, f l i = g l i) by auto end.
  induction l as [|[p c] l IH]; intro i; cbn [tuple_loop]; [reflexivity|]. destruct (n <=? i); [reflexivity|].
  destruct (child_of_datum v1 d i) as [[w1 u1]|]; [|reflexivity]. cbn [bind]. destruct (child_of_datum v2 d i) as [[w2 t2]|]; [|reflexivity]. cbn [bind].
  destruct (compare_internal2 c w1 w2) as [cmp|]; [|reflexivity]. cbn [bind]. destruct (cmp =? 0); [|reflexivity]. apply IH.
Qed.

(** a TUPLE: both have the elements that the type lists *)
Lemma tuple_lex f n : forall cs i l1 l2, n = i + zlen l1 -> zlen l1 = zlen l2 -> zlen l1 = zlen cs ->
  (forall k p c x y, nth_error cs k = Some (p, c) -> nth_error l1 k = Some x -> nth_error l2 k = Some y -> f (i + Z.of_nat k) c = Ok (sign (order x y))) ->
  tuple_loop f n cs i = Ok (sign (lex l1 l2)).
Proof.
  induction cs as [|[p c] cs IH]; intros i l1 l2 N L1 L2 H.
  - destruct l1; [|rewrite zlen_cons, zlen_nil in L2; pose proof (zlen_nonneg l1); lia]. destruct l2; [|rewrite zlen_cons, zlen_nil in L1; pose proof (zlen_nonneg l2); lia].
    cbn [tuple_loop]. rewrite zlen_nil in N. replace (n <=? i) with true by lia. reflexivity.
  - destruct l1 as [|x l1]; [rewrite zlen_cons, zlen_nil in L2; pose proof (zlen_nonneg cs); lia|]. destruct l2 as [|y l2]; [rewrite zlen_cons, zlen_nil in L1; pose proof (zlen_nonneg l1); lia|].
    rewrite !zlen_cons in *. pose proof (zlen_nonneg l1). cbn [tuple_loop lex]. replace (n <=? i) with false by lia.
    pose proof (H O p c x y eq_refl eq_refl eq_refl) as Q0. rewrite Z.add_0_r in Q0. rewrite Q0. cbn [bind].
    destruct (order x y) eqn:O; cbn [sign Z.eqb]; try reflexivity. apply IH; try lia.
    intros k q c' a b Q A B. replace (i + 1 + Z.of_nat k) with (i + Z.of_nat (S k)) by lia. eapply H; eauto.
Qed.

(** ** the elements of a datum *)
Definition kid (t : dti) (i : Z) : dti :=
  match type t with TUPLE => etype t i | STRING | BINARY => uint8_type | _ => containee t end.
Definition kids (R : dti -> datum -> value -> Prop) (t : dti) (v : datum) (l : list value) : Prop :=
  is_datum_NULL v = false /\ is_container_type_info t = true /\ (type t = TUPLE -> zlen l = zlen (containees t)) /\ (type t = ARRAY -> containee_ t <> None)
  /\ element_count_for_datum v t = Ok (zlen l)
  /\ forall i x, nth_error l i = Some x -> exists w, child_of_datum v t (Z.of_nat i) = Ok (w, Some (kid t (Z.of_nat i))) /\ R (kid t (Z.of_nat i)) w x.

Lemma pos_type d n i : container d -> count_ok d n -> 0 <= i < n -> pi_type (pos d n i) = etype d i.
Proof. intros [W C] CN I. destruct (pos_spec d n i W C CN I) as (Q1 & _). exact Q1. Qed.
Lemma kids_str t m o n bs : string_type t -> rd m o n = Ok bs -> kids means t (DStr m o n) (map (fun b => VNum (OUint (b2z b))) bs).
Proof.
  intros S R. pose proof (string_container t S) as C. apply rd_inv in R. destruct R as (R1 & R2 & R3 & ->).
  assert (L : zlen (slice m o n) = n) by (apply zlen_slice; lia). assert (LM : zlen (map (fun b => VNum (OUint (b2z b))) (slice m o n)) = n) by (unfold zlen in *; rewrite map_length; exact L).
  assert (EC : element_count_for_datum (DStr m o n) t = Ok n).
  { unfold element_count_for_datum. rewrite C. cbn [negb is_datum_NULL]. destruct S as [S|S]; rewrite S; reflexivity. }
  split; [reflexivity|]. split; [exact C|]. split; [intro T; destruct S; congruence|]. split; [intro T; destruct S; congruence|]. rewrite LM. split; [exact EC|].
  intros i x E. pose proof (znth_some _ _ _ E) as I. rewrite LM in I. rewrite nth_error_map in E. destruct (nth_error (slice m o n) i) as [b|] eqn:Eb; [|discriminate]. injection E as <-.
  assert (RB : rd m (o + Z.of_nat i) 1 = Ok [b]).
  { rewrite rd_ok by lia. f_equal. rewrite slice_1 by lia. f_equal.
    pose proof (nth_slice m o n (Z.of_nat i) Byte.x00 ltac:(lia) ltac:(lia)) as NS. rewrite Nat2Z.id in NS. unfold bat. rewrite <- NS. apply nth_error_nth. exact Eb. }
  exists (DUint (b2z b)). assert (K : kid t (Z.of_nat i) = uint8_type) by (unfold kid; destruct S as [S|S]; rewrite S; reflexivity). rewrite K. split.
  - unfold child_of_datum, get_containee_from_datum. rewrite C. cbn [negb is_datum_NULL]. rewrite EC. cbn [bind]. replace (n <=? Z.of_nat i) with false by lia.
    destruct S as [S|S]; rewrite S; cbn [string_value bind]; rewrite RB; cbn [bind dec]; do 2 f_equal; f_equal; lia.
  - constructor; [|discriminate|reflexivity]. split; [reflexivity|]. cbn. apply b2z_range.
Qed.
Lemma child_ptr t m o s es i w : (type t = TUPLE \/ type t = ARRAY) -> container t -> cv t m o s es -> 0 <= i < zlen es -> get_value t [i] m o = Ok (Some w) ->
  get_containee_from_datum (DPtr m o) t i = Ok (Some (w, Some (etype t i))).
Proof.
  intros T CT V I G. pose proof CT as [W C]. unfold get_containee_from_datum. rewrite C. cbn [negb is_datum_NULL].
  assert (EC : element_count_for_datum (DPtr m o) t = Ok (zlen es)).
  { unfold element_count_for_datum. rewrite C. cbn [negb is_datum_NULL]. destruct T as [T|T]; rewrite T; cbn [tuple_value bind]; apply (cv_get_count _ _ _ _ _ CT V). }
  rewrite EC. cbn [bind]. replace (zlen es <=? i) with false by lia. cbn [get_value] in G.
  destruct T as [T|T]; rewrite T; cbn [tuple_value bind]; rewrite G; cbn [bind]; rewrite (cv_pos t m o s es i CT V) by lia; cbn [bind];
  rewrite (pos_type t (zlen es) i CT (cv_n _ _ _ _ _ V)) by lia; reflexivity.
Qed.
Lemma kids_ptr (R : dti -> datum -> value -> Prop) t m o (bs : list byte) es ws l :
    (type t = TUPLE \/ type t = ARRAY) -> container t -> cv t m o (zlen bs) es ->
    zlen l = zlen es -> zlen ws = zlen es ->
    (forall i w, nth_error ws i = Some w -> get_value t [Z.of_nat i] m o = Ok (Some w)) ->
    (forall i w x, nth_error ws i = Some w -> nth_error l i = Some x -> R (etype t (Z.of_nat i)) w x) ->
    kids R t (DPtr m o) l.
Proof.
  intros T CT V L1 L2 G M. pose proof CT as [W C]. split; [reflexivity|]. split; [exact C|]. split; [|split; [|split]].
  - intro T'. rewrite L1. apply (tuple_count t _ T' (cv_n _ _ _ _ _ V)).
  - intro T'. destruct (wf_containee t W C) as [_ E]; [congruence|]. congruence.
  - rewrite L1. unfold element_count_for_datum. rewrite C. cbn [negb is_datum_NULL]. destruct T as [T|T]; rewrite T; cbn [tuple_value bind]; apply (cv_get_count _ _ _ _ _ CT V).
  - intros i x E. pose proof (znth_some _ _ _ E) as I. destruct (nth_error ws i) as [w|] eqn:Ew; [|apply nth_error_None in Ew; unfold zlen in *; lia].
    exists w. assert (K : kid t (Z.of_nat i) = etype t (Z.of_nat i)) by (unfold kid, etype; destruct T as [T|T]; rewrite T; reflexivity). rewrite K. split; [|apply (M i w x Ew E)].
    unfold child_of_datum. rewrite (child_ptr t m o (zlen bs) es (Z.of_nat i) w T CT V ltac:(lia) (G i w Ew)). reflexivity.
Qed.
Lemma means_kids t v l : means t v (VList l) -> kids means t v l.
Proof.
  intro M. inversion M; subst.
  - apply kids_str; auto.
  - eapply kids_ptr; eauto.
Qed.

Lemma compare_seq R t1 t2 v1 v2 l1 l2 : is_sequence t1 = true -> is_sequence t2 = true -> kids R t1 v1 l1 -> kids means t2 v2 l2 ->
  (forall w x w' y, R (kid t1 0) w x -> means (kid t2 0) w' y -> compare_internal (kid t1 0) (Some (kid t2 0)) w w' = Ok (sign (order x y))) ->
  compare_internal t1 (Some t2) v1 v2 = Ok (sign (lex l1 l2)).
Proof.
  intros S1 S2 (N1 & C1 & _ & K1 & E1 & M1) (N2 & C2 & _ & _ & E2 & M2) H. rewrite compare_unfold. unfold compare_nulls. rewrite N1, N2. cbn [andb negb].
  replace (is_primitive_numeral t1) with false by (unfold is_sequence, is_primitive_numeral in *; destruct (type t1); try discriminate; reflexivity).
  assert (KC1 : forall i, kid t1 i = kid t1 0) by (intro i; unfold kid, is_sequence in *; destruct (type t1); try discriminate; reflexivity).
  assert (KC2 : forall i, kid t2 i = kid t2 0) by (intro i; unfold kid, is_sequence in *; destruct (type t2); try discriminate; reflexivity).
  assert (LOOP : (let* n1 := element_count_for_datum v1 t1 in
                let* n2 := element_count_for_datum v2 t2 in
                let* cmp := compare_loop (Z.to_nat (Z.min n1 n2)) 0 (fun i =>
                  let* (w1, _) := child_of_datum v1 t1 i in
                  let* (w2, t2) := child_of_datum v2 t2 i in
                  match type t1 with
                  | ARRAY => match containee_ t1 with Some c => compare_internal c t2 w1 w2 | None => UB end
                  | _ => compare_internal uint8_type t2 w1 w2
                  end) in
                Ok (if cmp =? 0 then compare_counts n1 n2 else cmp)) = Ok (sign (lex l1 l2))).
  { rewrite E1, E2. cbn [bind]. replace (Z.to_nat (Z.min (zlen l1) (zlen l2))) with (Nat.min (length l1) (length l2)) by (unfold zlen; lia).
    apply loop_lex. intros k x y X Y. rewrite Z.add_0_l. destruct (M1 k x X) as (w1 & A1 & B1). destruct (M2 k y Y) as (w2 & A2 & B2).
    rewrite A1, A2. cbn [bind]. rewrite KC1 in B1. rewrite KC2 in B2. rewrite KC2. rewrite <- (H w1 x w2 y B1 B2).
    unfold kid. unfold is_sequence in S1. destruct (type t1) eqn:T; try discriminate; try reflexivity.
    destruct (containee_ t1) as [c|] eqn:CE; [|destruct (K1 eq_refl eq_refl)]. unfold containee. rewrite CE. reflexivity. }
  unfold is_sequence in S1. destruct (type t1) eqn:T; try discriminate; exact LOOP.
Qed.
Lemma compare_tup R t1 t2 v1 v2 l1 l2 : type t1 = TUPLE -> type t2 = TUPLE -> zlen (containees t1) = zlen (containees t2) -> kids R t1 v1 l1 -> kids means t2 v2 l2 ->
  (forall i w x w' y, 0 <= i < zlen (containees t1) -> R (kid t1 i) w x -> means (kid t2 i) w' y -> compare_internal (kid t1 i) (Some (kid t2 i)) w w' = Ok (sign (order x y))) ->
  compare_internal t1 (Some t2) v1 v2 = Ok (sign (lex l1 l2)).
Proof.
  intros T1 T2 LC (N1 & C1 & K1 & _ & E1 & M1) (N2 & C2 & K2 & _ & E2 & M2) H. rewrite compare_unfold. unfold compare_nulls. rewrite N1, N2. cbn [andb negb].
  replace (is_primitive_numeral t1) with false by (unfold is_primitive_numeral; rewrite T1; reflexivity). rewrite T1, E1. cbn [bind].
  specialize (K1 T1). specialize (K2 T2). apply tuple_lex; try lia. intros k p c x y PC X Y. rewrite Z.add_0_l.
  destruct (M1 k x X) as (w1 & A1 & B1). destruct (M2 k y Y) as (w2 & A2 & B2). rewrite A1, A2. cbn [bind].
  assert (KE : kid t1 (Z.of_nat k) = c) by (unfold kid, etype; rewrite T1, Nat2Z.id, PC; reflexivity). pose proof (znth_some _ _ _ PC) as I.
  rewrite <- KE. apply H; auto. lia.
Qed.

(** ** which types can be compared *)
Lemma sequence_kid t x : sequence_of t = Some x -> is_sequence t = true /\ kid t 0 = x.
Proof. unfold sequence_of, is_sequence, kid, containee. destruct (type t); try discriminate; intro E; rewrite ?E; split; congruence. Qed.
Lemma comparable_cases a b : comparable a b ->
  (numeral a /\ numeral b)
  \/ (type a = TUPLE /\ type b = TUPLE /\ zlen (containees a) = zlen (containees b) /\ forall i, 0 <= i < zlen (containees a) -> comparable (kid a i) (kid b i))
  \/ (is_sequence a = true /\ is_sequence b = true /\ comparable (kid a 0) (kid b 0)).
Proof.
  intro H. inversion H as [? ? A B|? ? D|? ? x y A B C]; subst.
  - auto.
  - apply sd_unfold in D. destruct D as [(T & _) K]. unfold numeral, is_sequence, kid. destruct (type a) eqn:TA; rewrite <- T; auto.
    + right. right. split; [reflexivity|]. split; [reflexivity|]. apply comp_numerals; exact I.
    + right. right. split; [reflexivity|]. split; [reflexivity|]. apply comp_numerals; exact I.
    + right. left. split; [reflexivity|]. split; [reflexivity|]. assert (LE : zlen (containees a) = zlen (containees b)) by (unfold zlen; f_equal; clear - K; unfold sd_elements in K; induction K; cbn; congruence).
      split; [exact LE|]. intros i I. destruct (znth_lt (containees a) i I) as [[p x] Ex]. destruct (znth_lt (containees b) i ltac:(lia)) as [[q y] Ey].
      unfold etype. rewrite TA, <- T, Ex, Ey. apply comp_same. clear - K Ex Ey. revert Ex Ey. generalize (Z.to_nat i). induction K as [|[p' x'] [q' y'] l r [_ D] F IH]; intros [|k] Ex Ey; try discriminate.
      * cbn in Ex, Ey, D. injection Ex as <- <-. injection Ey as <- <-. exact D.
      * eapply IH; eauto.
    + right. right. split; [reflexivity|]. split; [reflexivity|]. destruct K as (_ & _ & x & y & Ex & Ey & K). unfold containee. rewrite Ex, Ey. apply comp_same. exact K.
  - destruct (sequence_kid a x A) as [S1 <-]. destruct (sequence_kid b y B) as [S2 <-]. auto.
Qed.
Lemma numeral_primitive t : numeral t <-> is_primitive_numeral t = true.
Proof. unfold numeral, is_primitive_numeral. destruct (type t); split; try discriminate; try contradiction; auto. Qed.
Lemma means_numeral t v x : numeral t -> means t v x -> v <> DNull -> exists r, is_value t v /\ obs_of t v = Ok r /\ x = VNum r.
Proof.
  intros N M NN. inversion M; subst; try contradiction; eauto.
  - exfalso. unfold numeral in N. match goal with K : string_type t |- _ => destruct K as [K|K]; rewrite K in N; contradiction end.
  - exfalso. unfold numeral in N. match goal with K : type t = TUPLE \/ _ |- _ => destruct K as [K|K]; rewrite K in N; contradiction end.
Qed.

Lemma compare_num t1 v1 x t2 v2 y : numeral t1 -> numeral t2 -> means t1 v1 x -> means t2 v2 y -> compare_internal t1 (Some t2) v1 v2 = Ok (sign (order x y)).
Proof.
  intros N1 N2 M1 M2. rewrite compare_unfold. unfold compare_nulls.
  destruct (is_datum_NULL v1) eqn:Z1; [destruct v1; try discriminate; inversion M1; subst; try contradiction|].
  - destruct (is_datum_NULL v2) eqn:Z2; [destruct v2; try discriminate; inversion M2; subst; [reflexivity|contradiction]|].
    destruct (means_numeral t2 v2 y N2 M2) as (r & _ & _ & ->); [destruct v2; discriminate|]. reflexivity.
  - destruct (means_numeral t1 v1 x N1 M1) as (r & IV1 & O1 & ->); [destruct v1; discriminate|].
    destruct (is_datum_NULL v2) eqn:Z2; [destruct v2; try discriminate; inversion M2; subst; [reflexivity|contradiction]|].
    destruct (means_numeral t2 v2 y N2 M2) as (s & IV2 & O2 & ->); [destruct v2; discriminate|]. cbn [andb negb order].
    rewrite (proj1 (numeral_primitive t1) N1). rewrite C42_compare_is_order by assumption.
    rewrite (proj1 (is_value_obs t1 v1 r IV1 ltac:(destruct v1; discriminate) O1)), (proj1 (is_value_obs t2 v2 s IV2 ltac:(destruct v2; discriminate) O2)). reflexivity.
Qed.
Lemma means_shape t v x : means t v x -> is_primitive_numeral t = false -> (v = DNull /\ x = VNull) \/ (is_datum_NULL v = false /\ exists l, x = VList l).
Proof.
  intros M P. inversion M; subst; auto.
  - exfalso. assert (numeral t); [|rewrite (proj1 (numeral_primitive t)) in P by assumption; discriminate]. unfold numeral.
    destruct v; try contradiction; match goal with K : is_value t _ |- _ => destruct K as [K _]; rewrite K; exact I end.
  - right. split; [reflexivity|]. unfold bytes_value. eauto.
  - right. eauto.
Qed.
Theorem compare_means t1 v1 x : means t1 v1 x -> forall t2 v2 y, comparable t1 t2 -> means t2 v2 y ->
  compare_internal t1 (Some t2) v1 v2 = Ok (sign (order x y)).
Proof.
  assert (NULLS : forall t1 v1 x t2 v2 y, is_primitive_numeral t2 = false -> means t1 v1 x -> is_datum_NULL v1 = false -> (exists l, x = VList l) -> means t2 v2 y ->
    (forall k, y = VList k -> is_datum_NULL v2 = false -> compare_internal t1 (Some t2) v1 v2 = Ok (sign (order x y))) -> compare_internal t1 (Some t2) v1 v2 = Ok (sign (order x y))).
  { intros t1' v1' x' t2 v2 y P M Z (l & ->) M2 K. destruct (means_shape t2 v2 y M2 P) as [[-> ->]|[Z2 [k ->]]].
    - rewrite compare_unfold. unfold compare_nulls. rewrite Z. reflexivity.
    - eapply K; eauto. }
  assert (NP : forall t, is_sequence t = true \/ type t = TUPLE -> is_primitive_numeral t = false).
  { intros t [S|T]; unfold is_sequence, is_primitive_numeral in *; [destruct (type t); try discriminate; reflexivity|rewrite T; reflexivity]. }
  induction 1 as [t | t v r IV NN O | t m o n bs S R | t m o bs es ws l T HC CT V L1 L2 G M IH]; intros t2 v2 y CMP M2.
  - rewrite compare_unfold. unfold compare_nulls. cbn [is_datum_NULL andb negb]. inversion M2; subst; try reflexivity.
    destruct (is_datum_NULL v2) eqn:Z2; [destruct v2; try discriminate; contradiction|]. reflexivity.
  - assert (N : numeral t) by (unfold numeral; destruct v; try contradiction; destruct IV as [K _]; rewrite K; exact I).
    apply compare_num; auto; [|constructor; auto]. destruct (comparable_cases t t2 CMP) as [[_ Q]|[(Q & _)|(Q & _)]]; [exact Q| |]; exfalso; unfold numeral, is_sequence in *.
    + rewrite Q in N. contradiction.
    + destruct (type t); try discriminate; contradiction.
  - pose proof (kids_str t m o n bs S R) as K1. destruct (comparable_cases t t2 CMP) as [[Q _]|[(Q & _)|(Q1 & Q2 & Q3)]].
    { exfalso. unfold numeral in Q. destruct S as [S|S]; rewrite S in Q; contradiction. }
    { exfalso. destruct S; congruence. }
    apply (NULLS t (DStr m o n) (bytes_value bs) t2 v2 y); auto.
    { apply m_str; auto. } { unfold bytes_value. eauto. }
    intros k -> Z2. unfold bytes_value. rewrite order_list. apply (compare_seq means); auto; [apply means_kids; exact M2|].
    assert (KU : kid t 0 = uint8_type) by (unfold kid; destruct S as [S|S]; rewrite S; reflexivity). rewrite KU in *.
    intros w x w' y MW MW'. apply compare_num; auto; [exact I|]. destruct (comparable_cases _ _ Q3) as [[_ Q]|[(Q & _)|(Q & _)]]; [exact Q|discriminate|discriminate].
  - assert (K1 : kids (fun t0 w x => forall t2 v2 y, comparable t0 t2 -> means t2 v2 y -> compare_internal t0 (Some t2) w v2 = Ok (sign (order x y))) t (DPtr m o) l).
    { apply (kids_ptr _ t m o bs es ws l); auto. }
    destruct (comparable_cases t t2 CMP) as [[Q _]|[(Q1 & Q2 & Q3 & Q4)|(Q1 & Q2 & Q3)]].
    { exfalso. unfold numeral in Q. destruct T as [T|T]; rewrite T in Q; contradiction. }
    + apply (NULLS t (DPtr m o) (VList l) t2 v2 y); eauto.
      { apply (m_ptr t m o bs es ws l); auto. }
      intros k -> Z2. rewrite order_list. eapply (compare_tup _ t t2); [exact Q1|exact Q2|exact Q3|exact K1|apply means_kids; exact M2|].
      intros i w x w' y I MW MW'. cbn beta in MW. apply MW; auto.
    + apply (NULLS t (DPtr m o) (VList l) t2 v2 y); eauto.
      { apply (m_ptr t m o bs es ws l); auto. }
      intros k -> Z2. rewrite order_list. eapply (compare_seq _ t t2); [exact Q1|exact Q2|exact K1|apply means_kids; exact M2|].
      intros w x w' y MW MW'. cbn beta in MW. apply MW; auto.
Qed.

(** ** the comparison for one type *)
Lemma string_loop m1 o1 n1 b1 m2 o2 n2 b2 : rd m1 o1 n1 = Ok b1 -> rd m2 o2 n2 = Ok b2 ->
  (let* cmp := compare_loop (Z.to_nat (Z.min n1 n2)) 0 (fun i =>
      let* b1 := rd m1 (o1 + i) 1 in
      let* b2 := rd m2 (o2 + i) 1 in
      Ok (compare_numbers (dec b1) (dec b2))) in
   Ok (if cmp =? 0 then compare_counts n1 n2 else cmp)) = Ok (sign (order (bytes_value b1) (bytes_value b2))).
Proof.
  intros R1 R2. apply rd_inv in R1. destruct R1 as (A1 & A2 & A3 & E1). apply rd_inv in R2. destruct R2 as (B1 & B2 & B3 & E2).
  assert (L1 : zlen b1 = n1) by (subst b1; apply zlen_slice; lia). assert (L2 : zlen b2 = n2) by (subst b2; apply zlen_slice; lia).
  set (f := fun b => VNum (OUint (b2z b))). assert (M1 : zlen (map f b1) = n1) by (unfold zlen in *; rewrite map_length; exact L1). assert (M2 : zlen (map f b2) = n2) by (unfold zlen in *; rewrite map_length; exact L2).
  unfold bytes_value. fold f. rewrite order_list.
  replace (Z.to_nat (Z.min n1 n2)) with (Nat.min (length (map f b1)) (length (map f b2))) by (unfold zlen in *; lia).
  assert (BYTE : forall m o n b k x, 0 <= o -> 0 <= n -> o + n <= zlen m -> b = slice m o n -> nth_error (map f b) k = Some x -> exists c, rd m (o + Z.of_nat k) 1 = Ok [c] /\ x = f c).
  { intros m o n b k x C1 C2 C3 -> E. pose proof (znth_some _ _ _ E) as I. assert (L : zlen (map f (slice m o n)) = n) by (unfold zlen; rewrite map_length; apply zlen_slice; lia). rewrite L in I.
    rewrite nth_error_map in E. destruct (nth_error (slice m o n) k) as [c|] eqn:Ec; [|discriminate]. injection E as <-. exists c. split; [|reflexivity].
    rewrite rd_ok by lia. f_equal. rewrite slice_1 by lia. f_equal.
    pose proof (nth_slice m o n (Z.of_nat k) Byte.x00 ltac:(lia) ltac:(lia)) as NS. rewrite Nat2Z.id in NS. unfold bat. rewrite <- NS. apply nth_error_nth. exact Ec. }
  enough (G : (let* cmp := compare_loop (Nat.min (length (map f b1)) (length (map f b2))) 0 (fun i => let* b1 := rd m1 (o1 + i) 1 in let* b2 := rd m2 (o2 + i) 1 in Ok (compare_numbers (dec b1) (dec b2))) in
     Ok (if cmp =? 0 then compare_counts (zlen (map f b1)) (zlen (map f b2)) else cmp)) = Ok (sign (lex (map f b1) (map f b2)))) by (rewrite M1, M2 in G; exact G).
  apply loop_lex. intros k x y X Y. rewrite Z.add_0_l. destruct (BYTE m1 o1 n1 b1 k x A1 A2 A3 E1 X) as (c1 & -> & ->). destruct (BYTE m2 o2 n2 b2 k y B1 B2 B3 E2 Y) as (c2 & -> & ->).
  cbn [bind dec f order obs_number null_order]. f_equal. rewrite compare_numbers_spec. do 3 f_equal; lia.
Qed.
Theorem compare2_means t v1 x : means t v1 x -> forall v2 y, means t v2 y -> compare_internal2 t v1 v2 = Ok (sign (order x y)).
Proof.
  induction 1 as [t | t v r IV NN O | t m o n bs S R | t m o bs es ws l T HC CT V L1 L2 G M IH]; intros v2 y M2; rewrite compare2_unfold.
  - unfold compare_nulls. cbn [is_datum_NULL andb negb]. inversion M2; subst; try reflexivity.
    destruct (is_datum_NULL v2) eqn:Z2; [destruct v2; try discriminate; contradiction|]. reflexivity.
  - assert (N : numeral t) by (unfold numeral; destruct v; try contradiction; destruct IV as [K _]; rewrite K; exact I).
    rewrite (proj1 (numeral_primitive t) N). unfold compare_nulls. replace (is_datum_NULL v) with false by (destruct v; try reflexivity; contradiction). cbn [andb negb].
    destruct (is_datum_NULL v2) eqn:Z2; [destruct v2; try discriminate; inversion M2; subst; [reflexivity|contradiction]|].
    destruct (means_numeral t v2 y N M2) as (s & IV2 & O2 & ->); [destruct v2; discriminate|]. rewrite C44_numerals, C42_compare_is_order by assumption. cbn [order].
    rewrite (proj1 (is_value_obs t v r IV NN O)), (proj1 (is_value_obs t v2 s IV2 ltac:(destruct v2; discriminate) O2)). reflexivity.
  - assert (P : is_primitive_numeral t = false) by (unfold is_primitive_numeral; destruct S as [S|S]; rewrite S; reflexivity). rewrite P.
    unfold compare_nulls. cbn [is_datum_NULL andb negb]. 
    assert (EC : forall m o n, element_count_for_datum (DStr m o n) t = Ok n) by (intros; unfold element_count_for_datum; rewrite (string_container t S); destruct S as [S|S]; rewrite S; reflexivity).
    inversion M2 as [?|? ? ? IV NN|? ? ? ? ? S' R'|? ? ? ? ? ? ? T' ? ? ? ? ? ? ?]; subst.
    + reflexivity.
    + exfalso. destruct S as [S|S]; destruct v2; try contradiction; destruct IV as [K _]; congruence.
    + cbn [is_datum_NULL andb negb]. rewrite !EC. cbn [bind string_value]. rewrite <- (string_loop m o n bs m0 o0 n0 bs0 R R'). destruct S as [S|S]; rewrite S; reflexivity.
    + exfalso. destruct S as [S|S]; destruct T' as [T'|T']; congruence.
  - assert (P : is_primitive_numeral t = false) by (unfold is_primitive_numeral; destruct T as [T|T]; rewrite T; reflexivity). rewrite P.
    unfold compare_nulls. cbn [is_datum_NULL andb negb]. 
    assert (K1 : kids (fun t0 w x => forall v2 y, means t0 v2 y -> compare_internal2 t0 w v2 = Ok (sign (order x y))) t (DPtr m o) l).
    { apply (kids_ptr _ t m o bs es ws l); auto. }
    destruct (means_shape t v2 y M2 P) as [[-> ->]|[Z2 [k ->]]]; [reflexivity|]. rewrite Z2. cbn [andb negb].
    destruct K1 as (_ & _ & K1 & C1 & E1 & Q1). destruct (means_kids _ _ _ M2) as (_ & _ & K2 & _ & E2 & Q2). rewrite order_list. rewrite E1, E2.
    destruct T as [T|T]; rewrite T; cbn [bind].
    + specialize (K1 T). specialize (K2 T). apply tuple_lex; try lia. intros j p c x y PC X Y. rewrite Z.add_0_l.
      destruct (Q1 j x X) as (w1 & A1 & B1). destruct (Q2 j y Y) as (w2 & A2 & B2). rewrite A1, A2. cbn [bind].
      assert (KE : kid t (Z.of_nat j) = c) by (unfold kid, etype; rewrite T, Nat2Z.id, PC; reflexivity). rewrite KE in *. apply B1. exact B2.
    + replace (Z.to_nat (Z.min (zlen l) (zlen k))) with (Nat.min (length l) (length k)) by (unfold zlen; lia). apply loop_lex. intros j x y X Y. rewrite Z.add_0_l.
      destruct (Q1 j x X) as (w1 & A1 & B1). destruct (Q2 j y Y) as (w2 & A2 & B2). rewrite A1, A2. cbn [bind].
      unfold kid in B1, B2. rewrite T in B1, B2. specialize (C1 T). unfold containee in *. destruct (containee_ t) as [c|]; [|congruence]. apply B1. exact B2.
Qed.

(** ** a total order *)
Fixpoint value_induction (P : value -> Prop) (Hn : P VNull) (Hx : forall r, P (VNum r)) (Hl : forall l, Forall P l -> P (VList l)) (v : value) : P v :=
  match v with
  | VNull => Hn
  | VNum r => Hx r
  | VList l => Hl l ((fix go (l : list value) : Forall P l := match l with [] => Forall_nil P | x :: l' => Forall_cons x (value_induction P Hn Hx Hl x) (go l') end) l)
  end.
Lemma order_opp x : forall y, order y x = CompOpp (order x y).
Proof.
  induction x as [|r|l IH] using value_induction; intros [|s|k]; try reflexivity.
  - cbn [order]. apply null_anti.
  - rewrite !order_list. revert k. induction IH as [|x l H F IH]; intros [|y k]; try reflexivity. cbn [lex]. rewrite H. destruct (order x y); cbn [CompOpp]; auto.
Qed.
Lemma null_eq a b : null_order a b = Eq -> a = b.
Proof. destruct a as [a|], b as [b|]; try discriminate; auto. cbn. destruct a as [|a| |], b as [|b| |]; try discriminate; auto. cbn. intro E. apply Z.compare_eq in E. congruence. Qed.
Lemma null_lt a b c : null_order a b = Lt -> null_order b c <> Gt -> null_order a c = Lt.
Proof.
  destruct a as [a|], b as [b|], c as [c|]; try discriminate; auto; cbn; try congruence.
  destruct a as [|a| |], b as [|b| |], c as [|c| |]; try discriminate; auto; cbn; try congruence. rewrite !Z.compare_lt_iff, Z.compare_gt_iff. lia.
Qed.
Lemma order_compat x : forall y z, (order x y = Eq -> order x z = order y z) /\ (order x y = Lt -> order y z <> Gt -> order x z = Lt).
Proof.
  induction x as [|r|l IH] using value_induction; intros [|s|k] [|u|j]; try solve [cbn; split; intros; congruence].
  - cbn [order]. split; [intro E; apply null_eq in E; rewrite E; reflexivity|]. apply null_lt.
  - rewrite !order_list. revert k j. induction IH as [|x l H F IH]; intros [|y k] [|z j]; try solve [cbn; split; intros; congruence].
    cbn [lex]. destruct (H y z) as [HE HL]. destruct (IH k j) as [IE IL]. destruct (order x y) eqn:O.
    + rewrite (HE eq_refl). destruct (order y z); auto. split; congruence.
    + split; [discriminate|]. intros _ Q. rewrite HL; auto. destruct (order y z); congruence.
    + split; discriminate.
Qed.
Lemma order_refl x : order x x = Eq.
Proof. pose proof (order_opp x x) as E. destruct (order x x); try discriminate; reflexivity. Qed.
Lemma order_trans x y z : order x y <> Gt -> order y z <> Gt -> order x z <> Gt.
Proof.
  intros A B. destruct (order_compat x y z) as [E L]. destruct (order x y) eqn:O; [rewrite E; auto|rewrite L; auto; discriminate|congruence].
Qed.

(** ** [can_compare] *)
Lemma can_compare_unfold a b : can_compare a b =
  let* same := are_identical a b in
  if same : bool then Ok true
  else if is_primitive_numeral a && is_primitive_numeral b then Ok true
  else if is_sequence a && is_sequence b then
    match containee_ a, containee_ b with
    | Some x, Some y => can_compare x y
    | _, _ => UB
    end
  else Ok false.
Proof. destruct a. reflexivity. Qed.
Lemma string_containee t : wf t -> string_type t -> containee_ t = Some uint8_type.
Proof. intros W T. pose proof (wf_node t W) as (_ & _ & _ & _ & _ & _ & N). destruct T as [T|T]; rewrite T in N; apply N. Qed.
Theorem can_compare_spec a : forall b, wf a -> wf b -> short_names a -> exists r, can_compare a b = Ok r /\ (r = true <-> comparable a b).
Proof.
  induction a as [a IHc IHs] using dti_induction. intros b Wa Wb SN. rewrite can_compare_unfold.
  destruct (are_identical_spec a b Wa Wb SN) as (r & E & R). rewrite E. cbn [bind]. destruct r.
  { exists true. split; [reflexivity|]. split; [|reflexivity]. intros _. apply comp_same. apply R. reflexivity. }
  destruct (is_primitive_numeral a && is_primitive_numeral b) eqn:P.
  { exists true. split; [reflexivity|]. split; [|reflexivity]. intros _. apply andb_prop in P. destruct P as [P1 P2]. apply comp_numerals; apply numeral_primitive; assumption. }
  assert (SEQ : forall t, wf t -> is_sequence t = true -> exists x, containee_ t = Some x /\ sequence_of t = Some x /\ wf x).
  { intros t W S. unfold is_sequence in S. assert (C : is_container_type_info t = true) by (unfold is_container_type_info; destruct (type t); try discriminate; reflexivity).
    destruct (wf_containee t W C) as [WC EC]; [intro T; rewrite T in S; discriminate|]. exists (containee t). split; [exact EC|]. split; [|exact WC].
    unfold sequence_of. destruct (type t) eqn:T; try discriminate; auto; rewrite <- EC; symmetry; apply string_containee; auto; [left|right]; exact T. }
  destruct (is_sequence a && is_sequence b) eqn:S.
  - apply andb_prop in S. destruct S as [S1 S2]. destruct (SEQ a Wa S1) as (x & X1 & X2 & X3). destruct (SEQ b Wb S2) as (y & Y1 & Y2 & Y3). rewrite X1, Y1.
    destruct (IHc x X1 y X3 Y3) as (r & Q & QR).
    { unfold is_sequence in S1. destruct (type a) eqn:T; try discriminate.
      - rewrite (string_containee a Wa (or_introl T)) in X1. injection X1 as <-. apply sn_unfold. split; [reflexivity|exact I].
      - rewrite (string_containee a Wa (or_intror T)) in X1. injection X1 as <-. apply sn_unfold. split; [reflexivity|exact I].
      - apply sn_unfold in SN. destruct SN as [_ SN]. rewrite T in SN. apply SN. exact X1. }
    exists r. split; [exact Q|]. rewrite QR. split.
    + intro K. eapply comp_sequences; eauto.
    + intro K. inversion K as [? ? A B|? ? D|? ? x' y' A B C]; subst.
      * unfold numeral, is_sequence in *. destruct (type a); try discriminate; contradiction.
      * apply R in D. discriminate.
      * congruence.
  - exists false. split; [reflexivity|]. split; [discriminate|]. intro K. inversion K as [? ? A B|? ? D|? ? x' y' A B C]; subst.
    + apply numeral_primitive in A. apply numeral_primitive in B. rewrite A, B in P. discriminate.
    + apply R in D. discriminate.
    + apply sequence_kid in A. apply sequence_kid in B. destruct A as [A _]. destruct B as [B _]. rewrite A, B in S. discriminate.
Qed.
