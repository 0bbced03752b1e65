(** * Numerals: C42, C46, C47 of properties.jsonl

    and the part of C44 that is about numerals.  The specification is in
    NumeralSpec.v. *)
From Verif Require Import TypeFacts SizeProps NumeralSpec.
From Coq Require Import ZifyBool ZifyNat ZifyN Zify.
Ltac Zify.zify_post_hook ::= Z.div_mod_to_equations.

Lemma compare_numbers_spec a b : compare_numbers a b = sign (number_order (integer a) (integer b)).
Proof.
  unfold compare_numbers, integer, number_order. pose proof (Z.pow_pos_nonneg 2 1074 ltac:(lia) ltac:(lia)) as P. generalize dependent (2 ^ 1074). intros k P.
  destruct (Z.compare_spec (a * k) (b * k)) as [E|E|E]; cbn [sign].
  - assert (a = b) by nia. subst. rewrite Z.ltb_irrefl. reflexivity.
  - assert (a < b) by nia. replace (a <? b) with true by lia. replace (b <? a) with false by lia. reflexivity.
  - assert (b < a) by nia. replace (a <? b) with false by lia. replace (b <? a) with true by lia. reflexivity.
Qed.
Lemma compare_floats_spec x y : isnan x = false -> isnan y = false -> compare_floats x y = sign (number_order x y).
Proof.
  destruct x as [|a| |], y as [|b| |]; intros X Y; try discriminate; try reflexivity. unfold compare_floats, number_order, float_less.
  destruct (Z.compare_spec a b) as [E|E|E]; cbn [sign]; repeat match goal with |- context [?p <? ?q] => destruct (Z.ltb_spec p q) end; lia.
Qed.
Lemma order_anti x y : number_order y x = CompOpp (number_order x y).
Proof. destruct x, y; try reflexivity. cbn. apply Z.compare_antisym. Qed.
Lemma sign_opp c : sign (CompOpp c) = - sign c.
Proof. destruct c; reflexivity. Qed.
Lemma compare_back a b : - compare_numbers b a = sign (number_order (integer a) (integer b)).
Proof. rewrite compare_numbers_spec, <- sign_opp, <- order_anti. reflexivity. Qed.
Lemma integer_double_spec a y : isnan y = false -> compare_integer_double a y = sign (number_order (integer a) y).
Proof. intro N. apply compare_floats_spec; [reflexivity|exact N]. Qed.
Lemma float_integer_spec x b : compare_float_integer x b = sign (number_order x (integer b)).
Proof.
  unfold compare_float_integer. destruct (isnan x) eqn:N; [destruct x; try discriminate; reflexivity|].
  rewrite integer_double_spec by exact N. rewrite <- sign_opp, <- order_anti. reflexivity.
Qed.
Lemma float_float_spec x y : compare_float_float x y = sign (number_order x y).
Proof.
  unfold compare_float_float. destruct (isnan x) eqn:X, (isnan y) eqn:Y; cbn [andb].
  - destruct x, y; try discriminate; reflexivity.
  - destruct x, y; try discriminate; reflexivity.
  - destruct x, y; try discriminate; reflexivity.
  - apply compare_floats_spec; assumption.
Qed.
Lemma float_member_float t b : size t = 4 -> float_member t (DFloat b) = Ok (Some (float_number b)).
Proof. intro E. unfold float_member. rewrite E. reflexivity. Qed.
Lemma float_member_double t b : size t = 8 -> float_member t (DDouble b) = Ok (Some (double_number b)).
Proof. intro E. unfold float_member. rewrite E. reflexivity. Qed.
Lemma integer_float_spec a t v x : float_member t v = Ok (Some x) -> compare_integer_float a v t = Ok (sign (number_order (integer a) x)).
Proof.
  intro E. unfold compare_integer_float. rewrite E. cbn [bind]. f_equal. destruct (isnan x) eqn:N; [destruct x; try discriminate; reflexivity|].
  apply integer_double_spec. exact N.
Qed.

(** ** C42: the comparison of numerals of any two types is the order of the
    numbers they stand for *)
Theorem C42_compare_is_order t1 v1 t2 v2 : is_value t1 v1 -> is_value t2 v2 ->
  compare_primitive v1 t1 v2 t2 = Ok (sign (null_order (number_of v1) (number_of v2))).
Proof.
  intros V1 V2. unfold compare_primitive.
  destruct v1 as [| |a|a|a|a|a|a|a|? ? ?|? ?]; try contradiction; destruct v2 as [| |b|b|b|b|b|b|b|? ? ?|? ?]; try contradiction;
    cbn [is_datum_NULL andb negb number_of null_order]; try reflexivity; cbn [is_value] in V1, V2;
    destruct V1 as (T1 & V1), V2 as (T2 & V2); rewrite T1, ?T2;
    cbn [bit_field_value uint_value int_value large_uint_value large_int_value bind];
    try (destruct V1 as [S1 V1]; (rewrite (float_member_float t1 _ S1) || rewrite (float_member_double t1 _ S1)); cbn [bind]; rewrite ?T2);
    try (destruct V2 as [S2 V2]; (rewrite (float_member_float t2 _ S2) || rewrite (float_member_double t2 _ S2)); cbn [bind]);
    cbn [bit_field_value uint_value int_value large_uint_value large_int_value bind];
    rewrite ?compare_back, ?compare_numbers_spec, ?float_integer_spec, ?float_float_spec; try reflexivity;
    (apply integer_float_spec; (apply float_member_float || apply float_member_double); tauto).
Qed.
Print Assumptions C42_compare_is_order.

Lemma null_anti x y : null_order y x = CompOpp (null_order x y).
Proof. destruct x, y; try reflexivity. apply order_anti. Qed.
Lemma number_trans x y z : number_order x y <> Gt -> number_order y z <> Gt -> number_order x z <> Gt.
Proof. destruct x, y, z; cbn; try congruence. rewrite !Z.compare_gt_iff. lia. Qed.
Lemma null_trans x y z : null_order x y <> Gt -> null_order y z <> Gt -> null_order x z <> Gt.
Proof. destruct x, y, z; cbn; try congruence. apply number_trans. Qed.
Lemma sign_le c : sign c <= 0 <-> c <> Gt.
Proof. destruct c; cbn; split; intro; try lia; congruence. Qed.

(** a total order, up to numbers that are equal *)
Theorem C42_total_order t1 v1 t2 v2 t3 v3 : is_value t1 v1 -> is_value t2 v2 -> is_value t3 v3 ->
  exists c12 c21 c23 c13, compare_primitive v1 t1 v2 t2 = Ok c12 /\ compare_primitive v2 t2 v1 t1 = Ok c21
  /\ compare_primitive v2 t2 v3 t3 = Ok c23 /\ compare_primitive v1 t1 v3 t3 = Ok c13
  /\ (c12 = -1 \/ c12 = 0 \/ c12 = 1) /\ c21 = - c12 /\ (c12 <= 0 -> c23 <= 0 -> c13 <= 0) /\ compare_primitive v1 t1 v1 t1 = Ok 0.
Proof.
  intros V1 V2 V3. rewrite !C42_compare_is_order by assumption. do 4 eexists. repeat (split; [reflexivity|]).
  split; [destruct (null_order (number_of v1) (number_of v2)); cbn; lia|]. split; [rewrite <- sign_opp, <- null_anti; reflexivity|].
  split; [rewrite !sign_le; apply null_trans|]. f_equal. pose proof (null_anti (number_of v1) (number_of v1)) as A.
  destruct (null_order (number_of v1) (number_of v1)); try discriminate; reflexivity.
Qed.
Print Assumptions C42_total_order.

(** integers of any two types by their values, NULL first, NaN last *)
Theorem C42_integers t1 v1 z1 t2 v2 z2 : is_value t1 v1 -> is_value t2 v2 -> integer_of v1 = Some z1 -> integer_of v2 = Some z2 ->
  compare_primitive v1 t1 v2 t2 = Ok (sign (z1 ?= z2)).
Proof.
  intros V1 V2 E1 E2. rewrite C42_compare_is_order by assumption.
  replace (number_of v1) with (Some (integer z1)) by (destruct v1; try discriminate; injection E1 as ->; reflexivity).
  replace (number_of v2) with (Some (integer z2)) by (destruct v2; try discriminate; injection E2 as ->; reflexivity).
  cbn [null_order]. rewrite <- compare_numbers_spec. f_equal. unfold compare_numbers.
  destruct (Z.compare_spec z1 z2); cbn [sign]; destruct (Z.ltb_spec z1 z2); destruct (Z.ltb_spec z2 z1); lia.
Qed.
Print Assumptions C42_integers.
Theorem C42_null_least_nan_greatest t1 t2 v x : is_nullable t1 = true -> is_value t2 v ->
  (v <> DNull -> compare_primitive DNull t1 v t2 = Ok (-1))
  /\ (is_value t1 x -> number_of x = Some NaN -> compare_primitive x t1 v t2 = Ok (match number_of v with Some NaN => 0 | _ => 1 end)).
Proof.
  intros N V. split.
  - intro NN. rewrite C42_compare_is_order by assumption. destruct v; try contradiction; try congruence; reflexivity.
  - intros X E. rewrite C42_compare_is_order by assumption. rewrite E. destruct (number_of v) as [[| | |]|]; reflexivity.
Qed.
Print Assumptions C42_null_least_nan_greatest.

(** ** C44 for numerals: the specialised comparison *)
Theorem C44_numerals t v1 v2 : is_value t v1 -> is_value t v2 -> compare_primitive2 v1 v2 t = compare_primitive v1 t v2 t.
Proof.
  intros V1 V2. unfold compare_primitive, compare_primitive2. destruct (is_datum_NULL v1 && is_datum_NULL v2); [reflexivity|].
  destruct (is_datum_NULL v1 && negb (is_datum_NULL v2)); [reflexivity|]. destruct (negb (is_datum_NULL v1) && is_datum_NULL v2); [reflexivity|].
  destruct (type t); try reflexivity. unfold float_member. destruct (size t =? 4) eqn:S4.
  - destruct (float_value v1); [|reflexivity]. cbn [bind]. destruct (float_value v2); reflexivity.
  - destruct (size t =? 8) eqn:S8; [|reflexivity]. destruct (double_value v1); [|reflexivity]. cbn [bind]. destruct (double_value v2); reflexivity.
Qed.
Print Assumptions C44_numerals.

(** ** C46: MIN and MAX are values of the type and bound all its values *)
Lemma pow256 n : 0 <= n -> 256 ^ n = 2 ^ (8 * n).
Proof. intro. change 256 with (2 ^ 8). rewrite <- Z.pow_mul_r by lia. reflexivity. Qed.
Lemma half_pow n : 1 <= n -> 2 ^ (8 * n) / 2 = 2 ^ (8 * n - 1).
Proof. intro. replace (2 ^ (8 * n)) with (2 * 2 ^ (8 * n - 1)); [rewrite Z.mul_comm; apply Z.div_mul; lia|]. rewrite <- Z.pow_succ_r by lia. f_equal. lia. Qed.
Lemma min_is_value t : numeral_type_ok t -> is_variable_sized_ t = false -> is_value t (min_value t).
Proof.
  intros OK V. unfold min_value, is_nullable_type_info, is_variable_sized_type_info. rewrite V. cbn [orb]. destruct (is_nullable t) eqn:N; [exact N|].
  unfold numeral_type_ok in OK. destruct (type t) eqn:T; try contradiction; cbn [is_value].
  - split; [exact T|]. split; [lia|]. apply Z.pow_pos_nonneg; lia.
  - split; [exact T|]. split; [lia|]. apply Z.pow_pos_nonneg; lia.
  - split; [exact T|]. rewrite pow256, half_pow by lia. pose proof (Z.pow_pos_nonneg 2 (8 * size t - 1) ltac:(lia) ltac:(lia)). lia.
  - destruct OK as [S0|S0]; rewrite S0; cbn [Z.eqb Pos.eqb is_value]; (split; [exact T|]); (split; [exact S0|]); lia.
  - split; [exact T|]. split; [lia|]. apply Z.pow_pos_nonneg; lia.
  - split; [exact T|]. rewrite pow256, half_pow by lia. pose proof (Z.pow_pos_nonneg 2 (8 * size t - 1) ltac:(lia) ltac:(lia)). lia.
Qed.

Lemma max_is_value t : numeral_type_ok t -> is_value t (max_value t).
Proof.
  intros OK. unfold max_value. unfold numeral_type_ok in OK. destruct (type t) eqn:T; try contradiction; cbn [is_value].
  - split; [exact T|]. destruct (size t =? 64) eqn:E; [assert (size t = 64) as -> by lia; lia|]. pose proof (Z.pow_pos_nonneg 2 (size t) ltac:(lia) ltac:(lia)). lia.
  - split; [exact T|]. rewrite pow256 by lia. pose proof (Z.pow_pos_nonneg 2 (8 * size t) ltac:(lia) ltac:(lia)). lia.
  - split; [exact T|]. rewrite pow256, half_pow by lia. pose proof (Z.pow_pos_nonneg 2 (8 * size t - 1) ltac:(lia) ltac:(lia)). lia.
  - destruct OK as [S0|S0]; rewrite S0; cbn [Z.eqb Pos.eqb is_value]; (split; [exact T|]); (split; [exact S0|]); lia.
  - split; [exact T|]. rewrite pow256 by lia. pose proof (Z.pow_pos_nonneg 2 (8 * size t) ltac:(lia) ltac:(lia)). lia.
  - split; [exact T|]. rewrite pow256, half_pow by lia. pose proof (Z.pow_pos_nonneg 2 (8 * size t - 1) ltac:(lia) ltac:(lia)). lia.
Qed.
Lemma integer_le a b : a <= b -> number_order (integer a) (integer b) <> Gt.
Proof. intro H. unfold integer, number_order. pose proof (Z.pow_pos_nonneg 2 1074 ltac:(lia) ltac:(lia)). rewrite Z.compare_gt_iff. nia. Qed.
Lemma nan_top x : number_order x NaN <> Gt.
Proof. destruct x; discriminate. Qed.
Lemma neg_inf_bottom x : number_order NegInf x <> Gt.
Proof. destruct x; discriminate. Qed.
Lemma numeral_ok d : wf d -> is_primitive_numeral d = true -> numeral_type_ok d /\ is_variable_sized_ d = false.
Proof.
  intros W P. pose proof (wf_node d W) as (_ & _ & _ & _ & _ & _ & N). unfold is_primitive_numeral, numeral_type_ok in *. destruct (type d); try discriminate; destruct N as (V & N); split; auto; try lia.
Qed.
Theorem C46_min_max_bound t d v : type_built t -> finalize t = (true, d) -> is_primitive_numeral d = true -> is_value d v ->
  is_value d (min_value d) /\ is_value d (max_value d)
  /\ exists a b, compare_primitive (min_value d) d v d = Ok a /\ a <= 0 /\ compare_primitive v d (max_value d) d = Ok b /\ b <= 0.
Proof.
  intros B E P V. destruct (built_finalized t d B E) as [W _]. destruct (numeral_ok d W P) as [OK VS].
  pose proof (min_is_value d OK VS) as MI. pose proof (max_is_value d OK) as MA. split; [exact MI|]. split; [exact MA|].
  do 2 eexists. split; [apply C42_compare_is_order; assumption|]. split; [rewrite sign_le|split; [apply C42_compare_is_order; assumption|]; rewrite sign_le].
  - unfold min_value, is_nullable_type_info, is_variable_sized_type_info in *. rewrite VS in *. cbn [orb] in *. destruct (is_nullable d) eqn:N; [destruct (number_of v); discriminate|].
    destruct v; try contradiction; cbn [is_value] in V; try congruence; destruct V as [T V]; rewrite T in *; cbn [number_of null_order].
    + apply integer_le. lia.
    + apply integer_le. lia.
    + unfold numeral_type_ok in OK. rewrite T in OK. rewrite pow256, half_pow in V by lia. apply integer_le. lia.
    + destruct V as [-> V]. cbn [Z.eqb Pos.eqb number_of null_order]. change (float_number 4286578688) with NegInf. apply neg_inf_bottom.
    + destruct V as [-> V]. cbn [Z.eqb Pos.eqb number_of null_order]. change (double_number 18442240474082181120) with NegInf. apply neg_inf_bottom.
    + apply integer_le. lia.
    + unfold numeral_type_ok in OK. rewrite T in OK. rewrite pow256, half_pow in V by lia. apply integer_le. lia.
  - unfold max_value in *. unfold numeral_type_ok in OK. destruct v; try contradiction; cbn [is_value] in V;
      [ destruct (type d); try contradiction; cbn [number_of null_order]; try discriminate; destruct OK as [->| ->]; discriminate | .. ];
      destruct V as [T V]; rewrite T in *; cbn [number_of null_order].
    + apply integer_le. destruct (size d =? 64) eqn:S64; [assert (size d = 64) as S0 by lia; rewrite S0 in V|]; lia.
    + rewrite pow256 in V by lia. apply integer_le. lia.
    + rewrite pow256, half_pow in V by lia. apply integer_le. lia.
    + destruct V as [-> V]. cbn [Z.eqb Pos.eqb number_of null_order]. change (float_number 2143289344) with NaN. apply nan_top.
    + destruct V as [-> V]. cbn [Z.eqb Pos.eqb number_of null_order]. change (double_number 9221120237041090560) with NaN. apply nan_top.
    + rewrite pow256 in V by lia. apply integer_le. lia.
    + rewrite pow256, half_pow in V by lia. apply integer_le. lia.
Qed.
Print Assumptions C46_min_max_bound.
(** MIN and MAX of integer types that have no NULL are the ends of the range *)
Theorem C46_min_max_are_ends t d : type_built t -> finalize t = (true, d) -> integer_type d -> is_nullable d = false ->
  exists lo hi, integer_of (min_value d) = Some lo /\ integer_of (max_value d) = Some hi /\ forall z, in_range d z <-> lo <= z <= hi.
Proof.
  intros B E I N. destruct (built_finalized t d B E) as [W _].
  assert (P : is_primitive_numeral d = true) by (unfold integer_type, is_primitive_numeral in *; destruct (type d); try contradiction; reflexivity).
  destruct (numeral_ok d W P) as [OK VS]. unfold min_value, max_value, is_nullable_type_info, is_variable_sized_type_info, in_range, numeral_type_ok, integer_type in *.
  rewrite VS, N. cbn [orb]. destruct (type d) eqn:T; try contradiction; cbn [integer_of]; do 2 eexists; (split; [reflexivity|]); (split; [reflexivity|]); intro z;
    rewrite ?pow256, ?half_pow by lia; try lia.
  destruct (size d =? 64) eqn:S64; [assert (size d = 64) as S0 by lia; rewrite S0|]; lia.
Qed.
Print Assumptions C46_min_max_are_ends.

(** ** C47: casts between integer types keep the value if the target has it;
    NULL stays NULL, or becomes 0 if the target has no NULL; a float becomes a
    double of the same value, and the same type changes nothing *)
Lemma to_signed_id b z : 1 <= b -> - 2 ^ (b - 1) <= z < 2 ^ (b - 1) -> to_signed b z = z.
Proof.
  intros B R. unfold to_signed. assert (P : 2 ^ b = 2 * 2 ^ (b - 1)) by (rewrite <- Z.pow_succ_r by lia; f_equal; lia).
  destruct (Z_lt_le_dec z 0).
  - replace (z mod 2 ^ b) with (z + 2 ^ b) by (rewrite <- (Z.mod_small (z + 2 ^ b) (2 ^ b)) by lia; rewrite <- (Z.mul_1_l (2 ^ b)) at 1; rewrite Z.mod_add by lia; reflexivity). replace (z + 2 ^ b <? 2 ^ (b - 1)) with false by lia. lia.
  - rewrite Z.mod_small by lia. replace (z <? 2 ^ (b - 1)) with true by lia. reflexivity.
Qed.
Lemma pow_le2 a b : 0 <= a <= b -> 2 ^ a <= 2 ^ b.
Proof. intro. apply Z.pow_le_mono_r; lia. Qed.
Lemma integer_member_value t v z : is_value t v -> integer_of v = Some z -> integer_member t v = Ok (Some z).
Proof. intros V E. destruct v; try discriminate; injection E as ->; destruct V as [T _]; unfold integer_member; rewrite T; reflexivity. Qed.
Theorem C47_integers cv t d d_from v z : type_built t -> finalize t = (true, d) -> integer_type d -> is_value d_from v ->
  integer_of v = Some z -> in_range d z ->
  exists w, type_cast cv d v d_from = Ok (Some w) /\ is_value d w /\ integer_of w = Some z.
Proof.
  intros B E I V IO R. destruct (built_finalized t d B E) as [W _].
  assert (P : is_primitive_numeral d = true) by (unfold integer_type, is_primitive_numeral in *; destruct (type d); try contradiction; reflexivity).
  destruct (numeral_ok d W P) as [OK _]. unfold type_cast. replace (is_datum_NULL v) with false by (destruct v; try discriminate; reflexivity).
  rewrite (integer_member_value d_from v z V IO). cbn [bind]. unfold integer_type, in_range, numeral_type_ok in *. destruct (type d) eqn:T; try contradiction.
  - pose proof (pow_le2 (size d) 64 ltac:(lia)). rewrite Z.mod_small by lia. exists (DBits z). split; [reflexivity|]. split; [split; [exact T|exact R]|reflexivity].
  - assert (Q : z < 2 ^ 64) by (rewrite pow256 in R by lia; pose proof (pow_le2 (8 * size d) 64 ltac:(lia)); lia). rewrite Z.mod_small by lia.
    exists (DUint z). split; [reflexivity|]. split; [split; [exact T|exact R]|reflexivity].
  - assert (Q : - 2 ^ (64 - 1) <= z < 2 ^ (64 - 1)) by (rewrite pow256, half_pow in R by lia; pose proof (pow_le2 (8 * size d - 1) (64 - 1) ltac:(lia)); lia).
    rewrite to_signed_id by lia. exists (DInt z). split; [reflexivity|]. split; [split; [exact T|exact R]|reflexivity].
  - assert (Q : z < 2 ^ 256) by (rewrite pow256 in R by lia; pose proof (pow_le2 (8 * size d) 256 ltac:(lia)); lia). rewrite Z.mod_small by lia.
    exists (DLargeUint z). split; [reflexivity|]. split; [split; [exact T|exact R]|reflexivity].
  - assert (Q : - 2 ^ (256 - 1) <= z < 2 ^ (256 - 1)) by (rewrite pow256, half_pow in R by lia; pose proof (pow_le2 (8 * size d - 1) (256 - 1) ltac:(lia)); lia).
    rewrite to_signed_id by lia. exists (DLargeInt z). split; [reflexivity|]. split; [split; [exact T|exact R]|reflexivity].
Qed.
Print Assumptions C47_integers.
Theorem C47_null cv t d d_from : type_built t -> finalize t = (true, d) -> is_primitive_numeral d = true ->
  exists w, type_cast cv d DNull d_from = Ok (Some w) /\ is_value d w
  /\ (is_nullable d = true -> w = DNull) /\ (is_nullable d = false -> number_of w = Some (integer 0)).
Proof.
  intros B E P. destruct (built_finalized t d B E) as [W _]. destruct (numeral_ok d W P) as [OK VS].
  unfold type_cast. cbn [is_datum_NULL]. unfold is_nullable_type_info, is_variable_sized_type_info. rewrite VS. cbn [orb]. eexists. split; [reflexivity|].
  destruct (is_nullable d) eqn:N; [split; [exact N|]; split; [reflexivity|discriminate]|]. split; [|split; [discriminate|intros _]].
  - unfold zero_datum, numeral_type_ok in *. destruct (type d) eqn:T; try contradiction; cbn [is_value]; try (split; [exact T|]; split; [lia|]; apply Z.pow_pos_nonneg; lia).
    + split; [exact T|]. rewrite pow256, half_pow by lia. pose proof (Z.pow_pos_nonneg 2 (8 * size d - 1) ltac:(lia) ltac:(lia)). lia.
    + destruct OK as [S0|S0]; rewrite S0; cbn [Z.eqb Pos.eqb is_value]; (split; [exact T|]); (split; [exact S0|]); lia.
    + split; [exact T|]. rewrite pow256, half_pow by lia. pose proof (Z.pow_pos_nonneg 2 (8 * size d - 1) ltac:(lia) ltac:(lia)). lia.
  - unfold zero_datum, numeral_type_ok in *. destruct (type d); try contradiction; try reflexivity. destruct OK as [->| ->]; reflexivity.
Qed.
Print Assumptions C47_null.

Lemma double_fields s e f : 0 <= s <= 1 -> 0 <= e < 2 ^ 11 -> 0 <= f < 2 ^ 52 ->
  double_number (s * 2 ^ 63 + e * 2 ^ 52 + f)
  = if e =? 2047 then if f =? 0 then (if 0 <? s then NegInf else PosInf) else NaN
    else let z := if e =? 0 then f else (2 ^ 52 + f) * 2 ^ (e - 1) in Fin (if 0 <? s then - z else z).
Proof.
  intros S0 E F. unfold double_number, ieee. change (52 + 11) with 63. change (2 ^ 11 - 1) with 2047. change (1074 + 2 - 52 - 2 ^ (11 - 1)) with 0.
  replace ((s * 2 ^ 63 + e * 2 ^ 52 + f) / 2 ^ 63) with s by lia.
  replace ((s * 2 ^ 63 + e * 2 ^ 52 + f) / 2 ^ 52) with (s * 2 ^ 11 + e) by lia.
  replace ((s * 2 ^ 63 + e * 2 ^ 52 + f) mod 2 ^ 52) with f by lia.
  replace ((s * 2 ^ 11 + e) mod 2 ^ 11) with e by lia. rewrite Z.add_0_r. change (2 ^ 0) with 1. rewrite Z.mul_1_r. reflexivity.
Qed.
Theorem widen_value b : 0 <= b < 2 ^ 32 -> double_number (widen b) = float_number b.
Proof.
  intro B. unfold widen, float_number, ieee. change (23 + 8) with 31. change (2 ^ 8 - 1) with 255. change (1074 + 2 - 23 - 2 ^ (8 - 1)) with 925.
  set (s := b / 2 ^ 31). set (e := (b / 2 ^ 23) mod 2 ^ 8). set (f := b mod 2 ^ 23).
  assert (S0 : 0 <= s <= 1) by (unfold s; lia). assert (E : 0 <= e < 256) by (unfold e; lia). assert (F : 0 <= f < 2 ^ 23) by (unfold f; lia).
  clearbody s e f. destruct (e =? 255) eqn:E255.
  - rewrite double_fields by lia. cbn [Z.eqb Pos.eqb]. replace (f * 2 ^ 29 =? 0) with (f =? 0) by lia. reflexivity.
  - destruct (e =? 0) eqn:E0.
    + destruct (f =? 0) eqn:F0.
      * replace (s * 2 ^ 63) with (s * 2 ^ 63 + 0 * 2 ^ 52 + 0) by lia. rewrite double_fields by lia. cbn [Z.eqb]. assert (f = 0) as -> by lia. reflexivity.
      * assert (K : 0 <= Z.log2 f < 23) by (split; [apply Z.log2_nonneg|apply Z.log2_lt_pow2; lia]). pose proof (Z.log2_spec f ltac:(lia)) as LS. set (k := Z.log2 f) in *. clearbody k.
        assert (P1 : 2 ^ (Z.succ k) = 2 * 2 ^ k) by (apply Z.pow_succ_r; lia).
        assert (P2 : 2 ^ k * 2 ^ (52 - k) = 2 ^ 52) by (rewrite <- Z.pow_add_r by lia; f_equal; lia).
        assert (P3 : 0 < 2 ^ (52 - k)) by (apply Z.pow_pos_nonneg; lia).
        rewrite double_fields by nia. replace (k + 874 =? 2047) with false by lia. replace (k + 874 =? 0) with false by lia. cbv zeta.
        assert (V : (2 ^ 52 + (f - 2 ^ k) * 2 ^ (52 - k)) * 2 ^ (k + 874 - 1) = f * 2 ^ 925).
        { replace (2 ^ 52 + (f - 2 ^ k) * 2 ^ (52 - k)) with (f * 2 ^ (52 - k)) by nia. rewrite <- Z.mul_assoc, <- Z.pow_add_r by lia. do 2 f_equal. lia. }
        rewrite V. reflexivity.
    + rewrite double_fields by lia. replace (e + 896 =? 2047) with false by lia. replace (e + 896 =? 0) with false by lia. cbv zeta.
      assert (V : (2 ^ 52 + f * 2 ^ 29) * 2 ^ (e + 896 - 1) = (2 ^ 23 + f) * 2 ^ (e - 1 + 925)).
      { replace (2 ^ 52 + f * 2 ^ 29) with ((2 ^ 23 + f) * 2 ^ 29) by lia. rewrite <- Z.mul_assoc, <- Z.pow_add_r by lia. do 2 f_equal. lia. }
      rewrite V. reflexivity.
Qed.
Theorem C47_float_to_double cv d d_from b : type d = FLOAT -> size d = 8 -> is_value d_from (DFloat b) ->
  exists w, type_cast cv d (DFloat b) d_from = Ok (Some (DDouble w)) /\ number_of (DDouble w) = number_of (DFloat b).
Proof.
  intros T S8 (T' & S4 & R). exists (widen b). unfold type_cast, integer_member. rewrite T, T', S8, S4. split; [reflexivity|]. cbn [number_of]. f_equal. apply widen_value. exact R.
Qed.
Print Assumptions C47_float_to_double.
Lemma same_type_aux cv d v : is_value d v -> (v = DNull -> is_nullable_type_info d = true) -> numeral_type_ok d ->
  exists w, type_cast cv d v d = Ok (Some w) /\ w = v.
Proof.
  intros V N OK. unfold type_cast. destruct v; try contradiction; cbn [is_datum_NULL].
  - rewrite (N eq_refl). eauto.
  - destruct V as [T V]. unfold numeral_type_ok, integer_member in *. rewrite T in *. cbn [bit_field_value bind]. eexists. split; [reflexivity|]. f_equal. apply Z.mod_small. pose proof (pow_le2 (size d) 64 ltac:(lia)). lia.
  - destruct V as [T V]. unfold numeral_type_ok, integer_member in *. rewrite T in *. cbn [uint_value bind]. eexists. split; [reflexivity|]. f_equal. apply Z.mod_small. rewrite pow256 in V by lia. pose proof (pow_le2 (8 * size d) 64 ltac:(lia)). lia.
  - destruct V as [T V]. unfold numeral_type_ok, integer_member in *. rewrite T in *. cbn [int_value bind]. eexists. split; [reflexivity|]. f_equal. apply to_signed_id; [lia|]. rewrite pow256, half_pow in V by lia. pose proof (pow_le2 (8 * size d - 1) (64 - 1) ltac:(lia)). lia.
  - destruct V as (T & S0 & V). unfold integer_member. rewrite T, S0. eexists. split; reflexivity.
  - destruct V as (T & S0 & V). unfold integer_member. rewrite T, S0. eexists. split; reflexivity.
  - destruct V as [T V]. unfold numeral_type_ok, integer_member in *. rewrite T in *. cbn [large_uint_value bind]. eexists. split; [reflexivity|]. f_equal. apply Z.mod_small. rewrite pow256 in V by lia. pose proof (pow_le2 (8 * size d) 256 ltac:(lia)). lia.
  - destruct V as [T V]. unfold numeral_type_ok, integer_member in *. rewrite T in *. cbn [large_int_value bind]. eexists. split; [reflexivity|]. f_equal. apply to_signed_id; [lia|]. rewrite pow256, half_pow in V by lia. pose proof (pow_le2 (8 * size d - 1) (256 - 1) ltac:(lia)). lia.
Qed.
Theorem C47_same_type cv t d v : type_built t -> finalize t = (true, d) -> is_primitive_numeral d = true -> is_value d v ->
  type_cast cv d v d = Ok (Some v).
Proof.
  intros B E P V. destruct (built_finalized t d B E) as [W _]. destruct (numeral_ok d W P) as [OK VS].
  destruct (same_type_aux cv d v V) as (w & C & ->); [|exact OK|exact C].
  intros ->. unfold is_nullable_type_info. cbn in V. rewrite V. apply orb_true_r.
Qed.
Print Assumptions C47_same_type.

(** *** an integer outside the range of the target: the cast still succeeds.  The
    result is the integer reduced to 64 bits, or to 256 bits for the large types,
    not to the size of the target *)
Definition cast_bits (d : dti) : Z := match type d with LARGE_UINT | LARGE_INT => 256 | _ => 64 end.
Definition cast_signed (d : dti) : bool := match type d with INT | LARGE_INT => true | _ => false end.
Theorem C47_any_integer cv d d_from v z : integer_type d -> is_value d_from v -> integer_of v = Some z ->
  exists w z' k, type_cast cv d v d_from = Ok (Some w) /\ integer_of w = Some z' /\ z' = z + k * 2 ^ cast_bits d
  /\ (if cast_signed d then - 2 ^ (cast_bits d - 1) <= z' < 2 ^ (cast_bits d - 1) else 0 <= z' < 2 ^ cast_bits d).
Proof.
  intros I V IO. unfold type_cast. replace (is_datum_NULL v) with false by (destruct v; try discriminate; reflexivity).
  rewrite (integer_member_value d_from v z V IO). cbn [bind].
  assert (MU : forall b, 0 < 2 ^ b -> exists k, z mod 2 ^ b = z + k * 2 ^ b /\ 0 <= z mod 2 ^ b < 2 ^ b).
  { intros b P. exists (- (z / 2 ^ b)). pose proof (Z.div_mod z (2 ^ b)). pose proof (Z.mod_pos_bound z (2 ^ b) P). nia. }
  assert (MS : forall b, 1 <= b -> exists k, to_signed b z = z + k * 2 ^ b /\ - 2 ^ (b - 1) <= to_signed b z < 2 ^ (b - 1)).
  { intros b L. assert (P : 2 ^ b = 2 * 2 ^ (b - 1)) by (rewrite <- Z.pow_succ_r by lia; f_equal; lia). pose proof (Z.pow_pos_nonneg 2 (b - 1) ltac:(lia) ltac:(lia)).
    destruct (MU b ltac:(lia)) as (k & E & R). unfold to_signed. rewrite E in *. destruct (z + k * 2 ^ b <? 2 ^ (b - 1)) eqn:C; [exists k|exists (k - 1)]; lia. }
  unfold integer_type, cast_bits, cast_signed in *. destruct (type d) eqn:T; try contradiction.
  - destruct (MU 64 ltac:(lia)) as (k & E & R). exists (DBits (z mod 2 ^ 64)), (z mod 2 ^ 64), k. auto.
  - destruct (MU 64 ltac:(lia)) as (k & E & R). exists (DUint (z mod 2 ^ 64)), (z mod 2 ^ 64), k. auto.
  - destruct (MS 64 ltac:(lia)) as (k & E & R). exists (DInt (to_signed 64 z)), (to_signed 64 z), k. auto.
  - destruct (MU 256 ltac:(lia)) as (k & E & R). exists (DLargeUint (z mod 2 ^ 256)), (z mod 2 ^ 256), k. auto.
  - destruct (MS 256 ltac:(lia)) as (k & E & R). exists (DLargeInt (to_signed 256 z)), (to_signed 256 z), k. auto.
Qed.
Print Assumptions C47_any_integer.

(** *** the datum that receives the result.  When it is not NULL before the call,
    what it held does not matter *)
Theorem C47_into cv old d v d_from : is_datum_NULL old = false -> type_cast_into cv old d v d_from = type_cast cv d v d_from.
Proof. intro N. unfold type_cast_into. rewrite N. destruct (type_cast cv d v d_from) as [[w|]|]; reflexivity. Qed.
Print Assumptions C47_into.
(** a datum that is NULL before the call stays NULL, although the cast reports
    success and the value was not NULL: [is_NULL] is not cleared *)
Theorem C47_refuted_stale_null cv t d d_from v z : type_built t -> finalize t = (true, d) -> integer_type d -> is_value d_from v ->
  integer_of v = Some z -> in_range d z ->
  type_cast_into cv DNull d v d_from = Ok (Some DNull).
Proof.
  intros B E I V IO R. destruct (C47_integers cv t d d_from v z B E I V IO R) as (w & C & _). unfold type_cast_into. rewrite C. cbn [bind is_datum_NULL andb].
  destruct v; try discriminate; reflexivity.
Qed.
Print Assumptions C47_refuted_stale_null.

(** ** the hypotheses are met *)
Definition ex_i16 : dti := num INT false 2.
Definition ex_f32 : dti := num FLOAT true 4.
Definition ex_f64 : dti := num FLOAT true 8.
Definition ex_large : dti := num LARGE_INT false 20.
Example ex_numerals_built : type_built ex_i16 /\ type_built ex_f32 /\ type_built ex_f64 /\ type_built ex_large.
Proof. unfold ex_i16, ex_f32, ex_f64, ex_large, num. repeat split; build; congruence. Qed.
(** -3, 1.5f, 1.5, -1000000000000000000000 *)
Example ex_values : is_value ex_i16 (DInt (-3)) /\ is_value ex_f32 (DFloat 1069547520) /\ is_value ex_f64 (DDouble 4609434218613702656)
  /\ is_value ex_large (DLargeInt (-1000000000000000000000)) /\ is_value ex_f64 DNull.
Proof. vm_compute. intuition discriminate. Qed.
Example ex_compare : compare_primitive (DInt (-3)) ex_i16 (DFloat 1069547520) ex_f32 = Ok (-1)
  /\ compare_primitive (DFloat 1069547520) ex_f32 (DDouble 4609434218613702656) ex_f64 = Ok 0
  /\ compare_primitive (DFloat 1069547520) ex_f32 (DLargeInt (-1000000000000000000000)) ex_large = Ok 1
  /\ compare_primitive (max_value ex_f32) ex_f32 (DInt 5) ex_i16 = Ok 1.
Proof. vm_compute. auto. Qed.
Definition ex_cv : conversions := mk_conversions (fun _ _ _ => None) (fun _ => 0) (fun _ => 0) (fun _ => 0).
Example ex_cast : type_cast ex_cv ex_large (DInt (-3)) ex_i16 = Ok (Some (DLargeInt (-3)))
  /\ type_cast ex_cv ex_i16 (DLargeInt (-3)) ex_large = Ok (Some (DInt (-3)))
  /\ type_cast ex_cv ex_f64 (DFloat 1069547520) ex_f32 = Ok (Some (DDouble 4609434218613702656)).
Proof. vm_compute. auto. Qed.
(** 70000 does not fit two bytes; the result of the cast still compares as 70000 *)
Example ex_cast_wide : type_cast ex_cv ex_i16 (DLargeInt 70000) ex_large = Ok (Some (DInt 70000))
  /\ type_cast ex_cv ex_i16 (DLargeInt (2 ^ 64 + 5)) ex_large = Ok (Some (DInt 5))
  /\ type_cast_into ex_cv (DInt 7) ex_i16 (DLargeInt (-3)) ex_large = Ok (Some (DInt (-3)))
  /\ type_cast_into ex_cv DNull ex_i16 (DLargeInt (-3)) ex_large = Ok (Some DNull).
Proof. vm_compute. auto. Qed.
Example ex_bounds : min_value ex_i16 = DInt (-32768) /\ max_value ex_i16 = DInt 32767 /\ min_value ex_f64 = DNull.
Proof. vm_compute. auto. Qed.
