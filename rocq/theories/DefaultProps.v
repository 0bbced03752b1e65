(** * The predefined types and the macros that make types

    Property C64 of properties.jsonl. *)
From Verif Require Import Defaults AcceptFacts SizeProps SerdeProps.
From Coq Require Import ZifyBool ZifyNat ZifyN Zify.
Ltac Zify.zify_post_hook ::= Z.div_mod_to_equations.

(** the type can be finalized and is then what a user asked for; [least] and
    [most] are the smallest and the largest size of its data in bytes, as the
    tuple definitions report them *)
Definition makes (t : dti) (ty : data_type) (name : list byte) (nullable variable : bool) (least most : Z) : Prop :=
  exists d, finalize t = (true, d)
    /\ type d = ty /\ type_name d = name /\ is_nullable_type_info d = nullable /\ is_variable_sized_type_info d = variable
    /\ forall sd0, exists sd, initialize_size_def sd0 t = Some sd
       /\ min_tuple_size sd = least /\ max_tuple_size sd = most /\ is_variable_sized sd = variable.
(** a bit field of [n] bits: not a tuple of its own *)
Definition makes_bits (t : dti) (name : list byte) (nullable : bool) (n : Z) : Prop :=
  exists d, finalize t = (true, d)
    /\ type d = BIT_FIELD /\ type_name d = name /\ is_nullable_type_info d = nullable /\ is_variable_sized_type_info d = false
    /\ size d = n /\ forall sd0, initialize_size_def sd0 t = None.

(** entry [n] of the table is a numeral of [n] bytes, there are [k] of them,
    and entry 0 is NULL *)
Definition numeral_table (tab : list (option dti)) (ty : data_type) (nullable : bool) (k : nat) : Prop :=
  length tab = Datatypes.S k /\ nth_error tab 0 = Some None
  /\ forall n, (1 <= n <= k)%nat -> exists t, nth_error tab n = Some (Some t) /\ makes t ty [] nullable false (Z.of_nat n) (Z.of_nat n).
Definition bit_field_table (tab : list (option dti)) (nullable : bool) (k : nat) : Prop :=
  length tab = Datatypes.S k /\ nth_error tab 0 = Some None
  /\ forall n, (1 <= n <= k)%nat -> exists t, nth_error tab n = Some (Some t) /\ makes_bits t [] nullable (Z.of_nat n).

(** the macro makes numerals of the sizes that pass [allowed], and only those *)
Definition numeral_macro (mac : list byte -> Z -> dti) (ty : data_type) (nullable : bool) (allowed : Z -> Prop) : Prop :=
  forall name n, 0 <= n < 4294967296 ->
    (allowed n -> makes (mac name n) ty name nullable false n n) /\ (~ allowed n -> fst (finalize (mac name n)) = false).

Lemma numeral_makes t ty name nullable n :
  finalize t = (true, mk_dti true name ty nullable false n 0 false 0 0 None []) -> type t = ty -> ty <> BIT_FIELD -> n <> 0 ->
  makes t ty name nullable false n n.
Proof.
  intros F T N NZ. eexists. split; [exact F|]. split; [reflexivity|]. split; [reflexivity|]. split; [reflexivity|]. split; [reflexivity|].
  intro sd0. unfold initialize_size_def. rewrite T, F. cbn -[Z.eqb].
  destruct (n =? 0) eqn:E; [lia|]. destruct ty; try congruence; eexists; repeat split; reflexivity.
Qed.
Ltac dec_table :=
  split; [reflexivity|]; split; [reflexivity|]; intros n Hn;
  do 65 (destruct n as [|n]; [first [lia|eexists; split; [reflexivity|]; first [apply numeral_makes; [reflexivity|reflexivity|discriminate|discriminate]|eexists; repeat split; reflexivity]]|]); lia.

Theorem C64_tables :
  bit_field_table BIT_FIELD_NULLABLE true 64 /\ bit_field_table BIT_FIELD_NON_NULLABLE false 64
  /\ numeral_table UINT_NULLABLE UINT true 8 /\ numeral_table UINT_NON_NULLABLE UINT false 8
  /\ numeral_table INT_NULLABLE INT true 8 /\ numeral_table INT_NON_NULLABLE INT false 8
  /\ numeral_table LARGE_UINT_NULLABLE LARGE_UINT true 32 /\ numeral_table LARGE_UINT_NON_NULLABLE LARGE_UINT false 32
  /\ numeral_table LARGE_INT_NULLABLE LARGE_INT true 32 /\ numeral_table LARGE_INT_NON_NULLABLE LARGE_INT false 32
  /\ makes FLOAT_float_NULLABLE FLOAT [] true false 4 4 /\ makes FLOAT_float_NON_NULLABLE FLOAT [] false false 4 4
  /\ makes FLOAT_double_NULLABLE FLOAT [] true false 8 8 /\ makes FLOAT_double_NON_NULLABLE FLOAT [] false false 8 8.
Proof.
  split; [dec_table|]. split; [dec_table|]. split; [dec_table|]. split; [dec_table|]. split; [dec_table|]. split; [dec_table|].
  split; [dec_table|]. split; [dec_table|]. split; [dec_table|]. split; [dec_table|].
  repeat split; (apply numeral_makes; [reflexivity|reflexivity|discriminate|discriminate]).
Qed.
Print Assumptions C64_tables.

Ltac dec_macro :=
  intros name n Hn; unfold define_uint_nullable_type, define_uint_non_nullable_type, define_int_nullable_type, define_int_non_nullable_type,
    define_large_uint_nullable_type, define_large_uint_non_nullable_type, define_large_int_nullable_type, define_large_int_non_nullable_type,
    define_float_nullable_type, define_float_non_nullable_type;
  split; intro A;
  [ apply numeral_makes; [|reflexivity|discriminate|lia]
  | ]; cbn [finalize is_finalized type size has_variable_element_count prefix_bitmap_size_in_bits containee_ containees];
  match goal with |- context [if ?c then _ else _] => destruct c eqn:E end; try reflexivity; exfalso; lia.

Theorem C64_numerals :
  numeral_macro define_uint_nullable_type UINT true (fun n => 1 <= n <= 8)
  /\ numeral_macro define_uint_non_nullable_type UINT false (fun n => 1 <= n <= 8)
  /\ numeral_macro define_int_nullable_type INT true (fun n => 1 <= n <= 8)
  /\ numeral_macro define_int_non_nullable_type INT false (fun n => 1 <= n <= 8)
  /\ numeral_macro define_large_uint_nullable_type LARGE_UINT true (fun n => 1 <= n <= 32)
  /\ numeral_macro define_large_uint_non_nullable_type LARGE_UINT false (fun n => 1 <= n <= 32)
  /\ numeral_macro define_large_int_nullable_type LARGE_INT true (fun n => 1 <= n <= 32)
  /\ numeral_macro define_large_int_non_nullable_type LARGE_INT false (fun n => 1 <= n <= 32)
  /\ numeral_macro define_float_nullable_type FLOAT true (fun n => n = 4 \/ n = 8)
  /\ numeral_macro define_float_non_nullable_type FLOAT false (fun n => n = 4 \/ n = 8)
  /\ (forall name n, 0 <= n < 4294967296 -> 1 <= n <= 64 ->
        makes_bits (define_bit_field_nullable_type name n) name true n /\ makes_bits (define_bit_field_non_nullable_type name n) name false n)
  /\ (forall name n, 0 <= n < 4294967296 -> ~ 1 <= n <= 64 ->
        fst (finalize (define_bit_field_nullable_type name n)) = false /\ fst (finalize (define_bit_field_non_nullable_type name n)) = false).
Proof.
  split; [dec_macro|]. split; [dec_macro|]. split; [dec_macro|]. split; [dec_macro|]. split; [dec_macro|]. split; [dec_macro|].
  split; [dec_macro|]. split; [dec_macro|]. split; [dec_macro|]. split; [dec_macro|].
  split; intros name n Hn A; unfold define_bit_field_nullable_type, define_bit_field_non_nullable_type, makes_bits;
  cbn [finalize is_finalized type size has_variable_element_count prefix_bitmap_size_in_bits containee_ containees];
  (destruct ((n <? 1) || (64 <? n)) eqn:E; [try (exfalso; lia)|try (exfalso; lia)]); cbn [negb]; [|split; reflexivity].
  split; (eexists; split; [reflexivity|]; repeat split; reflexivity).
Qed.
Print Assumptions C64_numerals.
Example C64_numerals_used : makes (define_large_int_nullable_type [z2b 97] 20) LARGE_INT [z2b 97] true false 20 20.
Proof. apply C64_numerals; lia. Qed.

(** ** strings and binaries *)
Definition fixed_string_macro (mac : list byte -> Z -> bool -> dti) (ty : data_type) : Prop :=
  forall name n nullable, 0 <= n <= max_bytes ->
    (n <> 0 -> makes (mac name n nullable) ty name nullable false n n) /\ (n = 0 -> fst (finalize (mac name n nullable)) = false).
(** a variable length string needs room for its length in front of its
    characters: [bytes_for ms] bytes *)
Definition bytes_for (ms : Z) : Z := if ms <=? 256 then 1 else if ms <=? 65536 then 2 else if ms <=? 16777216 then 3 else 4.
Definition variable_string_macro (mac : list byte -> Z -> dti) (ty : data_type) : Prop :=
  forall name ms, 0 <= ms <= max_bytes ->
    (ms <> 0 -> makes (mac name ms) ty name true true (bytes_for ms) ms) /\ (ms = 0 -> fst (finalize (mac name ms)) = false).
Lemma bytes_for_eq ms : value_size ms = bytes_for ms.
Proof. unfold value_size, bytes_for. destruct (ms <=? 256) eqn:A, (ms <=? 65536) eqn:B, (ms <=? 16777216) eqn:C; lia. Qed.

Theorem C64_strings :
  fixed_string_macro get_fixed_length_string_type STRING /\ fixed_string_macro get_fixed_length_binary_type BINARY
  /\ variable_string_macro get_variable_length_string_type STRING /\ variable_string_macro get_variable_length_binary_type BINARY.
Proof.
  unfold fixed_string_macro, variable_string_macro, makes, initialize_size_def, get_fixed_length_string_type, get_fixed_length_binary_type,
    get_variable_length_string_type, get_variable_length_binary_type.
  repeat split.
  1,3: intro N;
    cbn [finalize is_finalized type has_variable_element_count element_count_ negb andb];
    (destruct (n =? 0) eqn:E; [lia|]); eexists; (split; [reflexivity|]); repeat split;
    intro sd0; cbn -[Z.eqb]; rewrite E; eexists; repeat split; reflexivity.
  1,2: intros ->; reflexivity.
  1,3: intro N; rewrite <- bytes_for_eq; pose proof (value_size_range ms);
    assert (LE : (ms <? value_size ms) = false) by (rewrite bytes_for_eq; unfold bytes_for; destruct (ms <=? 256) eqn:?, (ms <=? 65536) eqn:?, (ms <=? 16777216) eqn:?; lia);
    cbn [finalize is_finalized type has_variable_element_count element_count_ max_size negb andb]; rewrite LE; cbn [negb];
    eexists; (split; [reflexivity|]); repeat split;
    intro sd0; cbn; eexists; repeat split; reflexivity.
  1,2: intros ->; reflexivity.
Qed.
Print Assumptions C64_strings.
Example C64_strings_used : makes (get_variable_length_string_type [z2b 115] 300) STRING [z2b 115] true true 2 300
  /\ makes (get_fixed_length_binary_type [] 7 true) BINARY [] true false 7 7.
Proof. split; apply C64_strings; unfold max_bytes; lia. Qed.

(** ** arrays and tuples *)

(** a container can be finalized when its elements can, when it has an element
    if their number is fixed, and when its smallest value fits; [t_size] and
    [t_variable] are the sizes of [TypeSpec] *)
Lemma container_makes t :
  type_built t -> (type t = ARRAY \/ type t = TUPLE) -> acceptable t ->
  makes t (type t) (type_name t) (t_variable t || is_nullable t) (t_variable t) (t_size t) (if t_variable t then max_size t else t_size t).
Proof.
  intros B K A. pose proof (proj2 (C50_finalize_iff_acceptable t B) A) as F.
  destruct (finalize t) as [ok d] eqn:E. cbn in F. subst ok. exists d. split; [exact E|].
  destruct (built_finalized t d B E) as [W (S1 & S2 & S3 & S4 & S5 & S6 & S7)].
  destruct (wf_spec d W) as [V Z0]. unfold is_nullable_type_info, is_variable_sized_type_info.
  split; [exact S1|]. split; [exact S3|]. split; [congruence|]. split; [congruence|].
  pose proof (wf_node d W) as (_ & _ & _ & _ & SZ & _ & Wn).
  assert (BF : is_bit_field d = false) by (unfold is_bit_field; rewrite S1; destruct K as [K|K]; rewrite K; reflexivity).
  specialize (SZ BF).
  assert (V' : is_variable_sized_ d = t_variable t) by congruence.
  assert (Z' : size d = t_size t) by congruence.
  assert (P : is_variable_sized_ d = true -> has_size_in_prefix d = false -> has_element_count_in_prefix d = true).
  { intros Vd. unfold has_size_in_prefix, has_element_count_in_prefix, is_variable_element_count, is_container_type_info, is_variable_sized_type_info.
    rewrite Vd. rewrite S1 in *. destruct K as [K|K]; rewrite K in *; cbn; [|discriminate].
    destruct Wn as (c & C & Vc & _). unfold containee. rewrite C. rewrite Vd in Vc.
    destruct (has_variable_element_count d); [reflexivity|]. cbn in Vc. congruence. }
  intro sd0. unfold initialize_size_def. rewrite E. unfold is_variable_sized_type_info. rewrite <- V', <- Z', <- S7.
  assert (NB : type t <> BIT_FIELD) by (destruct K as [K|K]; rewrite K; discriminate).
  destruct (is_variable_sized_ d) eqn:Vd; cbn [negb].
  - destruct (has_size_in_prefix d) eqn:HS, (has_element_count_in_prefix d) eqn:HC; cbn [negb andb];
    try (specialize (P eq_refl eq_refl); discriminate);
    (destruct (type t); try congruence; eexists; (split; [reflexivity|]); repeat split; reflexivity).
  - destruct (size d =? 0) eqn:Q; [lia|].
    destruct (type t); try congruence; eexists; (split; [reflexivity|]); repeat split; reflexivity.
Qed.

Theorem C64_arrays name n ms nullable c : type_built c ->
  let t := get_fixed_element_count_array_type name n ms nullable c in
  let least := if t_variable c then bytes_for ms + n * bytes_for ms else bytes_of_bits (n * bits_in_bitmap c) + n * (if is_bit_field c then 0 else t_size c) in
  0 <= n < 4294967296 -> 0 <= ms <= max_bytes -> least <= max_bytes ->
  if (fst (finalize c) : bool) && negb (n =? 0) && (negb (t_variable c) || (least <=? ms))
  then makes t ARRAY name (t_variable c || nullable) (t_variable c) least (if t_variable c then ms else least)
  else fst (finalize t) = false.
Proof.
  intros B t least Hn Hms Hl.
  assert (TV : t_variable t = t_variable c) by reflexivity.
  assert (TS : t_size t = least).
  { unfold t, least. cbn. rewrite !bytes_for_eq. unfold slot_bytes, bits_in_bitmap, validity_bits.
    destruct (t_variable c) eqn:V; cbn [negb andb].
    - assert (BF : is_bit_field c = false) by (unfold is_bit_field; destruct c as [fin nm ty nu vr sz ms' hv ec pb ce cs]; cbn in *; destruct ty; try discriminate; reflexivity).
      rewrite BF. replace (n * (0 + 0)) with 0 by lia. change (bytes_of_bits 0) with 0. rewrite bytes_for_eq. lia.
    - destruct (is_bit_field c); lia. }
  assert (Bt : type_built t).
  { destruct (built_good c B) as [_ Lc]. apply tb_new; try reflexivity; try discriminate.
    - apply limits_unfold. cbn -[t_size]. split; [lia|]. split; [exact Hms|]. split; [split; [exact Hn|reflexivity]|]. split; [intros _; rewrite TS; exact Hl|].
      intros c' E. injection E as <-. exact Lc.
    - intros c' _ E. injection E as <-. exact B. }
  pose proof (C50_finalize_iff_acceptable t Bt) as I.
  pose proof (C50_finalize_iff_acceptable c B) as Ic.
  assert (At : acceptable t <-> (t_variable c = true -> least <= ms) /\ n <> 0 /\ acceptable c).
  { rewrite acc_unfold. rewrite TV, TS. unfold t at 2. cbn [type]. unfold t; cbn. split.
    - intros (P & Q & c' & E & R). injection E as <-. auto.
    - intros (P & Q & R). split; [exact P|]. split; [auto|]. exists c. auto. }
  destruct (fst (finalize c) && negb (n =? 0) && (negb (t_variable c) || (least <=? ms))) eqn:G.
  - assert (A : acceptable t).
    { apply At. destruct (fst (finalize c)); [|discriminate]. repeat split; [intro V; rewrite V in G; cbn in G|..|apply Ic; reflexivity]; lia. }
    rewrite <- TS, <- TV. exact (container_makes t Bt (or_introl eq_refl) A).
  - destruct (fst (finalize t)) eqn:Ft; [|reflexivity]. exfalso. destruct (proj1 At (proj1 I eq_refl)) as (P & Q & R). apply Ic in R. rewrite R in G.
    destruct (t_variable c); cbn in G; [specialize (P eq_refl)|]; lia.
Qed.
Print Assumptions C64_arrays.
Theorem C64_variable_arrays name ms c : type_built c ->
  let t := get_variable_element_count_array_type name ms c in
  let least := if t_variable c then 2 * bytes_for ms else bytes_for ms in
  0 <= ms <= max_bytes ->
  if (fst (finalize c) : bool) && (least <=? ms)
  then makes t ARRAY name true true least ms
  else fst (finalize t) = false.
Proof.
  intros B t least Hms.
  assert (TV : t_variable t = true) by reflexivity.
  assert (TS : t_size t = least).
  { unfold t, least. rewrite <- bytes_for_eq. cbn [t_size type containee_ get_variable_element_count_array_type has_variable_element_count max_size]. destruct (t_variable c); lia. }
  assert (Bt : type_built t).
  { destruct (built_good c B) as [_ Lc]. apply tb_new; try reflexivity; try discriminate.
    - apply limits_unfold. cbn -[t_size]. split; [lia|]. split; [exact Hms|]. split; [split; [lia|reflexivity]|]. split.
      + intros _. rewrite TS. unfold least. pose proof (value_size_range ms). rewrite <- bytes_for_eq. unfold max_bytes. destruct (t_variable c); lia.
      + intros c' E. injection E as <-. exact Lc.
    - intros c' _ E. injection E as <-. exact B. }
  pose proof (C50_finalize_iff_acceptable t Bt) as I.
  pose proof (C50_finalize_iff_acceptable c B) as Ic.
  assert (At : acceptable t <-> least <= ms /\ acceptable c).
  { rewrite acc_unfold. rewrite TV, TS. unfold t; cbn. split.
    - intros (P & Q & c' & E & R). injection E as <-. auto.
    - intros (P & R). split; [auto|]. split; [discriminate|]. exists c. auto. }
  destruct (fst (finalize c) && (least <=? ms)) eqn:G.
  - assert (A : acceptable t) by (apply At; destruct (fst (finalize c)); [|discriminate]; split; [lia|apply Ic; reflexivity]).
    rewrite <- TS. exact (container_makes t Bt (or_introl eq_refl) A).
  - destruct (fst (finalize t)) eqn:Ft; [|reflexivity]. exfalso. destruct (proj1 At (proj1 I eq_refl)) as (P & R). apply Ic in R. rewrite R in G. lia.
Qed.
Print Assumptions C64_variable_arrays.
Example C64_arrays_used : makes (get_fixed_element_count_array_type [] 10 0 true (define_bit_field_nullable_type [] 3)) ARRAY [] true false 5 5
  /\ makes (get_variable_element_count_array_type [] 1000 (get_variable_length_string_type [] 200)) ARRAY [] true true 4 1000.
Proof.
  split.
  - refine (C64_arrays [] 10 0 true (define_bit_field_nullable_type [] 3) _ _ _ _); unfold define_bit_field_nullable_type; [build|lia|unfold max_bytes; lia|vm_compute; discriminate].
  - refine (C64_variable_arrays [] 1000 (get_variable_length_string_type [] 200) _ _); unfold get_variable_length_string_type; [build|unfold max_bytes; lia].
Qed.

(** a tuple: its fields one after the other; nothing in it depends on what the
    memory held before *)
Definition sum (f : dti -> Z) (l : list (list byte * dti)) : Z := fold_right (fun x a => f (snd x) + a) 0 l.
Theorem C64_tuples d0 junk name nullable ms fields : (forall f c, In (f, c) fields -> type_built c) ->
  let t := initialize_tuple_type d0 junk name nullable ms fields in
  let variable := existsb (fun x => t_variable (snd x)) fields in
  let least := (if variable then bytes_for ms else 0) + bytes_of_bits (sum bits_in_bitmap fields)
               + sum (fun c => if is_bit_field c then 0 else if t_variable c then bytes_for ms else t_size c) fields in
  0 <= size d0 < 4294967296 -> 0 <= ms <= max_bytes -> zlen fields < 4294967296 -> least <= max_bytes ->
  if negb (zlen fields =? 0) && forallb (fun x => fst (finalize (snd x))) fields && (negb variable || (least <=? ms))
  then makes t TUPLE (firstn 64 name) (variable || nullable) variable least (if variable then ms else least)
  else fst (finalize t) = false.
Proof.
  intros B t variable least Hs Hms Hz Hl.
  set (g := fun '(i, (f, t)) => (mk_position f (p_off (junk i)) (p_valid (junk i)), t) : position * dti).
  assert (CT : containees t = map g (combine (map Z.of_nat (seq 0 (length fields))) fields)) by reflexivity.
  assert (ALL : forall (P : list byte -> dti -> Prop) l k, (forall p c, In (p, c) (map g (combine (map Z.of_nat (seq k (length l))) l)) -> P (field_name p) c) <-> (forall f c, In (f, c) l -> P f c)).
  { intros P l. induction l as [|[f c] l IH]; intro k; cbn; [split; intros; contradiction|]. split.
    - intros H f' c' [E|E]; [injection E as <- <-; exact (H _ c (or_introl eq_refl))|].
      apply (IH (Datatypes.S k)) with (f := f'); [|exact E]. intros p c0 I. apply H. right. exact I.
    - intros H p c' [E|E]; [injection E as <- <-; apply H; left; reflexivity|]. refine (proj2 (IH (Datatypes.S k)) _ p c' E). intros; apply H; right; assumption. }
  assert (TV : t_variable t = variable).
  { unfold t, variable. clear. cbn. generalize 0%nat. induction fields as [|[f c] l IH]; intro k; cbn; [reflexivity|]. rewrite IH. reflexivity. }
  assert (TS : t_size t = least).
  { unfold least. rewrite <- TV. clear - g. 
    assert (E1 : forall ms l k, (fix go cs := match cs with [] => 0 | (_, c) :: cs' => bits_in_bitmap c + go cs' end) (map g (combine (map Z.of_nat (seq k (length l))) l)) = sum bits_in_bitmap l
       /\ (fix go cs := match cs with [] => 0 | (_, c) :: cs' => slot_bytes ms c (t_size c) + go cs' end) (map g (combine (map Z.of_nat (seq k (length l))) l))
          = sum (fun c => if is_bit_field c then 0 else if t_variable c then bytes_for ms else t_size c) l).
    { intros ms' l. induction l as [|[f c] l IH]; intro k; [split; reflexivity|]. destruct (IH (Datatypes.S k)) as [I1 I2]. cbn [length seq map combine g sum fold_right snd].
      split; f_equal; [exact I1| |exact I2]. unfold slot_bytes. rewrite bytes_for_eq. reflexivity. }
    destruct (E1 ms fields 0%nat) as [F1 F2]. rewrite <- F1, <- F2, <- bytes_for_eq. reflexivity. }
  assert (LC : zlen (containees t) = zlen fields).
  { rewrite CT. unfold zlen. rewrite map_length, combine_length, map_length, seq_length, Nat.min_id. reflexivity. }
  assert (Bt : type_built t).
  { apply tb_new; try reflexivity; try discriminate.
    - apply limits_unfold. split; [exact Hs|]. split; [exact Hms|]. split; [rewrite LC; unfold t; cbn; pose proof (zlen_nonneg fields); lia|]. split; [intros _; rewrite TS; exact Hl|].
      change (type t) with TUPLE. cbv iota. rewrite CT.
      refine (proj2 (ALL (fun _ => within_limits) fields 0%nat) _). intros f c I. exact (proj2 (built_good c (B f c I))).
    - intros p c _. rewrite CT. exact (proj2 (ALL (fun _ => type_built) fields 0%nat) B p c). }
  pose proof (C50_finalize_iff_acceptable t Bt) as I.
  assert (At : acceptable t <-> (variable = true -> least <= ms) /\ fields <> [] /\ (forall f c, In (f, c) fields -> acceptable c)).
  { rewrite acc_unfold. rewrite TV, TS. change (type t) with TUPLE. cbv iota.
    assert (NE : containees t <> [] <-> fields <> []) by (unfold zlen in LC; destruct (containees t), fields; cbn in LC; split; try discriminate; try lia; congruence).
    rewrite NE. rewrite CT. rewrite <- (ALL (fun _ => acceptable) fields 0%nat). reflexivity. }
  assert (Af : forallb (fun x => fst (finalize (snd x))) fields = true <-> (forall f c, In (f, c) fields -> acceptable c)).
  { rewrite forallb_forall. split.
    - intros H f c In'. apply (C50_finalize_iff_acceptable c (B f c In')). exact (H (f, c) In').
    - intros H [f c] In'. apply (C50_finalize_iff_acceptable c (B f c In')). exact (H f c In'). }
  destruct (negb (zlen fields =? 0) && forallb (fun x => fst (finalize (snd x))) fields && (negb variable || (least <=? ms))) eqn:G.
  - assert (A : acceptable t).
    { apply At. destruct (forallb (fun x => fst (finalize (snd x))) fields); [|rewrite andb_false_r in G; discriminate].
      repeat split; [intro V; rewrite V in G; cbn in G; lia| |apply Af; reflexivity]. intros ->. discriminate. }
    rewrite <- TS, <- TV. exact (container_makes t Bt (or_intror eq_refl) A).
  - destruct (fst (finalize t)) eqn:Ft; [|reflexivity]. exfalso. destruct (proj1 At (proj1 I eq_refl)) as (P & Q & R). apply Af in R. rewrite R in G.
    assert (zlen fields <> 0) by (destruct fields; [congruence|rewrite zlen_cons; pose proof (zlen_nonneg fields); lia]).
    destruct variable; cbn in G; [specialize (P eq_refl)|]; lia.
Qed.
Print Assumptions C64_tuples.
Definition ex_fields : list (list byte * dti) :=
    [([z2b 105], define_uint_non_nullable_type [] 4); ([z2b 110], get_variable_length_string_type [] 100); ([z2b 109], define_bit_field_nullable_type [] 1)].
Definition ex_person (d0 : dti) (junk : Z -> position) : dti := initialize_tuple_type d0 junk [z2b 112] false 1000 ex_fields.
Example C64_tuples_used d0 junk : 0 <= size d0 < 4294967296 -> makes (ex_person d0 junk) TUPLE [z2b 112] true true 9 1000.
Proof.
  intro H. refine (C64_tuples d0 junk [z2b 112] false 1000 ex_fields _ H _ _ _).
  - intros f c [E|[E|[E|[]]]]; injection E as _ <-; unfold define_uint_non_nullable_type, get_variable_length_string_type, define_bit_field_nullable_type; build.
  - unfold max_bytes. lia.
  - reflexivity.
  - vm_compute. discriminate.
Qed.

(** what the memory of the struct held before does not matter: it is either
    refused both times, or the two finalized types place every element alike *)
Definition same_place (a b : position * dti) : Prop :=
  snd a = snd b /\ field_name (fst a) = field_name (fst b) /\ p_off (fst a) = p_off (fst b)
  /\ (needs_is_valid_bit (snd a) = true -> p_valid (fst a) = p_valid (fst b)).
Theorem C64_tuples_uninitialised d0 d1 junk0 junk1 name nullable ms fields :
  let a := finalize (initialize_tuple_type d0 junk0 name nullable ms fields) in
  let b := finalize (initialize_tuple_type d1 junk1 name nullable ms fields) in
  fst a = fst b
  /\ (fst a = true ->
      type_name (snd a) = type_name (snd b) /\ is_nullable (snd a) = is_nullable (snd b) /\ is_variable_sized_ (snd a) = is_variable_sized_ (snd b)
      /\ size (snd a) = size (snd b) /\ max_size (snd a) = max_size (snd b) /\ element_count (snd a) = element_count (snd b)
      /\ prefix_bitmap_size_in_bits (snd a) = prefix_bitmap_size_in_bits (snd b)
      /\ Forall2 same_place (containees (snd a)) (containees (snd b))).
Proof.
  intros a b.
  set (g := fun (junk : Z -> position) '(i, (f, t)) => (mk_position f (p_off (junk i)) (p_valid (junk i)), t) : position * dti).
  set (pre := fun x y : position * dti => snd x = snd y /\ field_name (fst x) = field_name (fst y)).
  set (mid := fun x y : position * dti => snd x = snd y /\ field_name (fst x) = field_name (fst y)
                /\ (is_bit_field (snd x) = true -> p_off (fst x) = p_off (fst y))
                /\ (needs_is_valid_bit (snd x) = true -> p_valid (fst x) = p_valid (fst y))).
  assert (P : forall l k, Forall2 pre (map (g junk0) (combine (map Z.of_nat (seq k (length l))) l)) (map (g junk1) (combine (map Z.of_nat (seq k (length l))) l))).
  { induction l as [|[f c] l IH]; intro k; cbn; constructor; [split; reflexivity|apply IH]. }
  assert (E : forall l r, Forall2 pre l r -> forall vs bits, match finalize_elements l vs bits, finalize_elements r vs bits with
     (ok, v1, b1, l1), (ok', v2, b2, r1) => ok = ok' /\ (ok = true -> v1 = v2 /\ b1 = b2 /\ Forall2 mid l1 r1) end).
  { induction 1 as [|[p t] [q u] l r [H1 H2] F IH]; intros vs bits; cbn [finalize_elements]; [repeat split; constructor|].
    cbn [fst snd] in H1, H2. subst u. destruct (finalize t) as [ok t1]. destruct ok; cbn [negb]; [|split; [reflexivity|discriminate]].
    assert (AB : snd (assign_bits p t1 bits) = snd (assign_bits q t1 bits) /\ mid (fst (assign_bits p t1 bits), t1) (fst (assign_bits q t1 bits), t1)).
    { unfold mid. cbn [fst snd]. unfold assign_bits, is_bit_field. destruct (needs_is_valid_bit t1) eqn:N, (type t1); cbn; repeat split; auto; try discriminate; try congruence. }
    destruct (assign_bits p t1 bits) as [p1 x], (assign_bits q t1 bits) as [q1 y]. cbn [fst snd] in AB. destruct AB as [<- M].
    specialize (IH (if is_variable_sized_type_info t1 then true else vs) x).
    destruct (finalize_elements l _ x) as [[[ok v1] b1] l1], (finalize_elements r _ x) as [[[ok' v2] b2] r1].
    destruct IH as [<- K]. split; [reflexivity|]. intro O. destruct (K O) as (K1 & K2 & K3). repeat split; auto. }
  assert (O : forall l r, Forall2 mid l r -> forall sz, fst (assign_offsets ms l sz) = fst (assign_offsets ms r sz)
     /\ Forall2 same_place (snd (assign_offsets ms l sz)) (snd (assign_offsets ms r sz))).
  { induction 1 as [|[p t] [q u] l r (H1 & H2 & H3 & H4) F IH]; intros sz; cbn [assign_offsets]; [repeat split; constructor|].
    cbn [fst snd] in H1, H2, H3, H4. subst u. unfold is_bit_field in H3.
    destruct (type t); cbn [data_type_eqb] in H3;
    try (destruct (is_variable_sized_type_info t) eqn:V);
    match goal with |- context [assign_offsets ms l ?s] => specialize (IH s); destruct (assign_offsets ms l s), (assign_offsets ms r s) end;
    cbn [fst snd] in *; destruct IH as [-> G]; split; try reflexivity; constructor; auto; repeat split; auto. }
  unfold a, b; clear a b. rewrite !finalize_tuple_eq by reflexivity.
  change (containees (initialize_tuple_type d0 junk0 name nullable ms fields)) with (map (g junk0) (combine (map Z.of_nat (seq 0 (length fields))) fields)).
  change (containees (initialize_tuple_type d1 junk1 name nullable ms fields)) with (map (g junk1) (combine (map Z.of_nat (seq 0 (length fields))) fields)).
  specialize (P fields 0%nat).
  destruct (map (g junk0) (combine (map Z.of_nat (seq 0 (length fields))) fields)) as [|x l], (map (g junk1) (combine (map Z.of_nat (seq 0 (length fields))) fields)) as [|y r];
    try (inversion P; fail); [split; [reflexivity|discriminate]|].
  specialize (E _ _ P false 0).
  destruct (finalize_elements (x :: l) false 0) as [[[ok v1] b1] l1], (finalize_elements (y :: r) false 0) as [[[ok' v2] b2] r1].
  destruct E as [<- E]. destruct ok; cbn [negb]; [|split; [reflexivity|discriminate]].
  destruct (E eq_refl) as (<- & <- & M). unfold finalize_tuple.
  change (max_size (initialize_tuple_type d0 junk0 name nullable ms fields)) with ms.
  change (max_size (initialize_tuple_type d1 junk1 name nullable ms fields)) with ms.
  match goal with |- context [assign_offsets ms l1 ?s] => destruct (O _ _ M s) as [O1 O2]; destruct (assign_offsets ms l1 s) as [z1 l2], (assign_offsets ms r1 s) as [z2 r2] end.
  cbn [fst snd] in O1, O2. subst z2. destruct (v1 && (ms <? z1)); cbn [fst snd]; (split; [reflexivity|]); [discriminate|]. intros _.
  repeat split; try exact O2. unfold element_count, set_fin. cbn. unfold zlen. clear - O2. induction O2; cbn [length]; lia.
Qed.
Print Assumptions C64_tuples_uninitialised.
Example C64_tuples_uninitialised_used : let junk := mk_dti true [] UINT true true 77 88 true 99 111 None [] in
  containees (snd (finalize (ex_person junk (fun i => mk_position [] (i + 1000) (i + 2000)))))
  <> containees (snd (finalize (ex_person uint8_type (fun _ => mk_position [] 0 0))))
  /\ fst (finalize (ex_person junk (fun i => mk_position [] (i + 1000) (i + 2000)))) = true.
Proof. split; [vm_compute; discriminate|reflexivity]. Qed.
