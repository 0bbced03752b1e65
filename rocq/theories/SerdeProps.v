(** * Serialized type descriptions, comparison of types, field names

    C39, C40, C41, C50, C51 of properties.jsonl.  [same_description],
    [description_length], [acceptable] and [c_string] are defined in SerdeSpec.v,
    [type_built] in TypeSpec.v, [observe] in TupleSpec.v. *)
From Coq Require Import String.
From Verif Require Import SizeProps TupleProps DeserFacts IdentFacts AlikeFacts SafeFacts.
From Coq Require Import ZifyBool ZifyNat ZifyN Zify.
Ltac Zify.zify_post_hook ::= Z.div_mod_to_equations.
Open Scope string_scope.
Open Scope list_scope.
Open Scope Z_scope.

Lemma short_sd f a : forall b, same_description f a b -> short_names a -> short_names b.
Proof.
  induction a as [a IHc IHs] using dti_induction. intros b H SN. apply sd_unfold in H. destruct H as [(T & NM & V & M) K].
  apply sn_unfold in SN. destruct SN as [N SN]. apply sn_unfold. rewrite <- NM, <- T. split; [exact N|].
  destruct (type a) eqn:Ta; auto.
  - clear - IHs K SN. induction K as [|[p x] [q y] l r [_ A] F IH]; [intros ? ? []|].
    intros p0 c0 [E|I]; [injection E as <- <-; eapply IHs; [left; reflexivity|exact A|eapply SN; left; reflexivity]|].
    eapply IH; [intros; eapply IHs; [right; eassumption|eassumption|assumption]|intros; eapply SN; right; eassumption|exact I].
  - destruct K as (_ & _ & x & y & Ea & Eb & K). intros c E. rewrite Eb in E. injection E as <-. eapply IHc; [exact Ea|exact K|apply SN; exact Ea].
Qed.
Lemma finalized_wf t d : type_built t -> finalize t = (true, d) -> wf d.
Proof. intros B E. exact (proj1 (built_finalized t d B E)). Qed.
(** ** C39: type descriptions survive serialization

    [serialize_type_info] writes exactly [get_byte_count_for_serialized_type_info]
    bytes and touches no others.  Reading any input that starts with those
    bytes, anywhere in any memory, succeeds; the type finalizes, has the same
    description (with field names), occupies as many bytes when serialized
    again, and [are_identical_type_info] says so. *)
Theorem C39_round_trip t d m o : type_built t -> finalize t = (true, d) -> description_length d < 4294967296 ->
  0 <= o -> o + description_length d <= zlen m ->
  exists bs, zlen bs = description_length d /\ byte_count d = zlen bs
  /\ serialize_type_info d m o = Ok (zlen bs, upd m o bs)
  /\ forall e m2 o2 n, valid_environment e -> 0 <= o2 -> o2 + n <= zlen m2 -> slice m2 o2 (zlen bs) = bs -> zlen bs <= n < 4294967296 ->
     exists t' d', deserialize_type_info e m2 o2 n = Ok (Some t') /\ type_built t' /\ finalize t' = (true, d')
     /\ same_description true d d' /\ byte_count d' = zlen bs
     /\ (short_names d -> are_identical d d' = Ok true /\ are_identical d' d = Ok true).
Proof.
  intros B E L O R. pose proof (finalized_wf t d B E) as W. pose proof (zlen_ser d W) as Z.
  exists (ser d). split; [exact Z|]. split; [rewrite Z; apply byte_count_ok; assumption|]. split; [apply serialize_ok; rewrite ?Z; auto|].
  intros e m2 o2 n VE O2 I2 SL N. assert (H : present m2 o2 (ser d)) by (apply present_slice; [lia|lia|exact SL]).
  destruct (deserialize_ok e d VE W m2 o2 n (S (List.length m2)) H N) as (t' & D' & SD & TB); [pose proof (present_bounds _ _ _ H); unfold zlen in *; lia|].
  destruct (reread d t' W SD TB L) as (d' & E' & W' & SD' & _ & BC).
  exists t', d'. split; [unfold deserialize_type_info; rewrite D'; reflexivity|]. split; [exact TB|]. split; [exact E'|]. split; [exact SD'|]. split; [rewrite Z; exact BC|].
  intro SN. split.
  - apply identical_true; auto. apply sd_weaken. exact SD'.
  - apply identical_true; auto; [eapply short_sd; [exact SD'|exact SN]|]. apply sd_weaken, sd_sym. exact SD'.
Qed.
Print Assumptions C39_round_trip.

(** data written under the type reads the same under the type read back *)
Theorem C39_same_data t d m o m1 e n t' d' : type_built t -> finalize t = (true, d) -> description_length d < 4294967296 ->
  0 <= o -> o + n <= zlen m -> description_length d <= n < 4294967296 -> valid_environment e ->
  serialize_type_info d m o = Ok (description_length d, m1) -> deserialize_type_info e m1 o n = Ok (Some t') -> finalize t' = (true, d') ->
  forall m2 o2, get_size d' m2 o2 = get_size d m2 o2
  /\ forall pa, observe d' pa m2 o2 = observe d pa m2 o2 /\ element_count_of d' pa m2 o2 = element_count_of d pa m2 o2.
Proof.
  intros B E L O R N VE SE DE FE m2 o2. destruct (C39_round_trip t d m o B E L O ltac:(lia)) as (bs & Z & _ & S1 & RT).
  rewrite S1 in SE. injection SE as _ <-. pose proof (zlen_nonneg bs).
  destruct (RT e (upd m o bs) o n VE O) as (t1 & d1 & D1 & TB & F1 & SD & _); [rewrite zlen_upd; lia|apply slice_upd_same'; lia|lia|].
  rewrite D1 in DE. injection DE as <-. rewrite F1 in FE. injection FE as <-.
  assert (A : alike d1 d). { split; [exact (finalized_wf _ _ TB F1)|]. split; [exact (finalized_wf _ _ B E)|]. apply sd_weaken, sd_sym, SD. }
  split; [apply alike_size; exact A|]. intro pa. split; [apply alike_observe|apply alike_count_of]; exact A.
Qed.
Print Assumptions C39_same_data.

(** two types are written as the same bytes only if they have the same description *)
Theorem C39_injective t1 d1 t2 d2 m o m' n1 n2 : type_built t1 -> finalize t1 = (true, d1) -> type_built t2 -> finalize t2 = (true, d2) ->
  description_length d1 < 4294967296 -> description_length d2 < 4294967296 ->
  0 <= o -> o + description_length d1 <= zlen m -> o + description_length d2 <= zlen m ->
  serialize_type_info d1 m o = Ok (n1, m') -> serialize_type_info d2 m o = Ok (n2, m') ->
  same_description true d1 d2.
Proof.
  intros B1 E1 B2 E2 L1 L2 O R1 R2 S1 S2.
  destruct (C39_round_trip t1 d1 m o B1 E1 L1 O R1) as (b1 & Z1 & _ & X1 & RT1). destruct (C39_round_trip t2 d2 m o B2 E2 L2 O R2) as (b2 & Z2 & _ & X2 & RT2).
  rewrite X1 in S1. injection S1 as _ <-. rewrite X2 in S2. injection S2 as _ S2. pose proof (zlen_nonneg b1). pose proof (zlen_nonneg b2).
  set (e := mk_environment (fun _ => uint8_type) (fun _ => mk_position [] 0 0) (fun _ _ _ => false)).
  assert (VE : valid_environment e) by (intro; cbn; lia).
  set (n := Z.max (zlen b1) (zlen b2)).
  destruct (RT1 e (upd m o b1) o n VE O) as (t1' & d1' & D1 & _ & F1 & SD1 & _); [rewrite zlen_upd; lia|apply slice_upd_same'; lia|lia|].
  destruct (RT2 e (upd m o b1) o n VE O) as (t2' & d2' & D2 & _ & F2 & SD2 & _); [rewrite zlen_upd; lia|rewrite <- S2; apply slice_upd_same'; lia|lia|].
  rewrite D1 in D2. injection D2 as <-. rewrite F1 in F2. injection F2 as <-. eapply sd_trans; [exact SD1|apply sd_sym; exact SD2].
Qed.
Print Assumptions C39_injective.

(** the hypotheses are met: a tuple with named fields and a named type *)
Definition named (n : string) (t : dti) : dti :=
  mk_dti (is_finalized t) (list_byte_of_string n) (type t) (is_nullable t) (is_variable_sized_ t) (size t) (max_size t)
    (has_variable_element_count t) (element_count_ t) (prefix_bitmap_size_in_bits t) (containee_ t) (containees t).
Definition field (n : string) (t : dti) : position * dti := (mk_position (list_byte_of_string n) 0 0, t).
Definition record (ms : Z) (fs : list (position * dti)) : dti := mk_dti false [] TUPLE false false 0 ms false 0 0 None fs.
Definition ex_record : dti :=
  named "person" (record 1000 [field "age" (num UINT true 2); field "name" (named "varchar" (var_string 300));
                               field "flags" (num BIT_FIELD false 5); field "scores" (var_array 200 (num FLOAT true 8))]).
Example ex_record_built : type_built ex_record.
Proof. unfold ex_record, named, record, field, num, var_string, var_array. cbn -[list_byte_of_string]. build; congruence. Qed.
Example ex_record_finalizes : fst (finalize ex_record) = true.
Proof. vm_compute. reflexivity. Qed.
Example ex_record_bytes : serialize_type_info (final ex_record) (zmem 67) 1
  = Ok (65, z2b 0 :: map z2b ([128; 4; 0; 0; 0; 232; 3; 0; 0] ++ [112; 101; 114; 115; 111; 110; 0]
      ++ [97; 103; 101; 0; 2; 2; 0] ++ [110; 97; 109; 101; 0; 122; 44; 1; 0; 0; 118; 97; 114; 99; 104; 97; 114; 0]
      ++ [102; 108; 97; 103; 115; 0; 1; 5; 0] ++ [115; 99; 111; 114; 101; 115; 0; 132; 200; 0; 0; 0; 0; 7; 0]) ++ [z2b 0]).
Proof. vm_compute. reflexivity. Qed.
Definition ex_env : environment := mk_environment (fun _ => uint8_type) (fun _ => mk_position [] 7 7) (fun _ _ _ => true).
Example ex_env_valid : valid_environment ex_env.
Proof. intro. cbn. lia. Qed.
Example ex_record_short : short_names (final ex_record).
Proof. vm_compute. intuition. Qed.

(** ** C40: [deserialize_type_info] never reads past its input

    Here the input is the last [n] bytes of the memory, so that reading past it
    is [UB]; [m ++ ext] is the same input with other bytes behind it.  The full
    claim, for the code ([check = fun _ => true], which never gives [Rejected]):

      forall e m o n ext, 0 <= o -> 0 <= n < 2^32 -> o + n = zlen m ->
      exists r, deserialize_type_info e m o n = Ok r
        /\ deserialize_type_info e (m ++ ext) o n = Ok r
        /\ (forall t d, r = Some t -> finalize t = (true, d) -> description_length d <= n)

    is false, see C40_refuted.  It is proved for every input in which each type
    nested in a TUPLE is one that [finalize_type_info] accepts (without sizes
    beyond the limit): [check] is any test of that, and inputs with other nested
    types are [Rejected].  The code ignores what [finalize_type_info] returns. *)
Theorem C40_reads_within_input_partial check e m o n : checks_finalize check ->
  0 <= o -> 0 <= n < 4294967296 -> o + n = zlen m ->
  exists r, deserialize check e m (S (List.length m)) o n = Ok r
  /\ (r <> Rejected -> forall ext, deserialize_type_info e (m ++ ext) o n = Ok (match r with Parsed t => Some t | _ => None end))
  /\ (forall t d, r = Parsed t -> within_limits t -> finalize t = (true, d) -> description_length d <= n).
Proof.
  intros CF O N E. destruct (deserialize_safe check e m CF (S (List.length m)) o n O N ltac:(lia)) as (r & D & SR); [unfold zlen in *; lia|].
  exists r. split; [exact D|]. split.
  - intros NR ext. unfold deserialize_type_info. rewrite (deserialize_more check e m ext (S (List.length m)) (S (List.length (m ++ ext))) o n r ltac:(rewrite app_length; lia) D NR). reflexivity.
  - intros t d -> L F. destruct (SR t eq_refl) as [SO PL]. assert (AC : acceptable t) by (apply (finalize_iff t SO L); rewrite F; reflexivity).
    rewrite <- (sd_length t d (finalize_sd true t d SO L F)). auto.
Qed.
Print Assumptions C40_reads_within_input_partial.

(** without any type code of a TUPLE in the input the claim holds as it is *)
Lemma never_rejected e m o n fuel : (forall k b, 0 <= k -> rd m k 1 = Ok b -> ~ 126 <= dec b <= 128) -> 0 <= o ->
  deserialize finalizes e m fuel o n <> Ok Rejected.
Proof.
  intros NT. revert o n. induction fuel as [|fuel IH]; intros o n O; [discriminate|]. cbn [deserialize]. destruct (n <? 1); [discriminate|].
  destruct (rd m o 1) as [b|] eqn:R; [|discriminate]. pose proof (NT o b O R) as C. cbn [bind].
  destruct (if 2 <=? n then numeral_code (dec b) else None) as [[[ty nu] lim]|].
  - unfold deserialize_numeral. destruct (rd m (o + 1) 1); [|discriminate]. cbn [bind]. destruct ((dec a <? 1) || (lim <? dec a)); [discriminate|].
    destruct (deserialize_name m (o + 2) (u32 (n - 2))) as [[[? ?]|]|]; discriminate.
  - destruct ((5 <? dec b) && (dec b <=? 11)); [destruct (deserialize_name m (o + 1) (u32 (n - 1))) as [[[? ?]|]|]; discriminate|].
    assert (DS : forall ty c, deserialize_string m ty c o n <> Ok Rejected).
    { intros ty c. unfold deserialize_string. destruct (read_u32 m o n 1) as [[v|]|]; try discriminate. cbn [bind].
      destruct (deserialize_name m (o + 5) (u32 (n - 5))) as [[[? ?]|]|]; discriminate. }
    destruct ((120 <=? dec b) && (dec b <=? 122)); [apply DS|]. destruct ((123 <=? dec b) && (dec b <=? 125)); [apply DS|].
    replace ((126 <=? dec b) && (dec b <=? 128)) with false by lia.
    destruct ((129 <=? dec b) && (dec b <=? 132)); [|discriminate].
    destruct (read_header m o n (dec b =? 131)) as [[[[[v1 v2] name] c]|]|] eqn:RH; try discriminate. cbn [bind].
    assert (C0 : 0 <= c).
    { unfold read_header in RH. destruct (read_u32 m o n 1) as [[?|]|]; try discriminate. cbn [bind] in RH.
      destruct (if dec b =? 131 then read_u32 m o n 5 else Ok (Some 0)) as [[?|]|]; try discriminate. cbn [bind] in RH.
      match type of RH with (let* _ := ?x in _) = _ => destruct x as [[[? ?]|]|]; try discriminate end. cbn [bind] in RH.
      injection RH as _ _ _ <-. unfold u32. lia. }
    specialize (IH (o + c) (u32 (n - c)) ltac:(lia)). destruct (deserialize finalizes e m fuel (o + c) (u32 (n - c))) as [[t| |]|]; try discriminate; congruence.
Qed.
Theorem C40_reads_within_input_without_tuples e m o n : (forall b, In b m -> ~ 126 <= b2z b <= 128) ->
  0 <= o -> 0 <= n < 4294967296 -> o + n = zlen m ->
  exists r, deserialize_type_info e m o n = Ok r
  /\ (forall ext, deserialize_type_info e (m ++ ext) o n = Ok r)
  /\ (forall t d, r = Some t -> within_limits t -> finalize t = (true, d) -> description_length d <= n).
Proof.
  intros NT O N E. destruct (C40_reads_within_input_partial finalizes e m o n finalizes_check O N E) as (r & D & X & L).
  assert (NR : r <> Rejected).
  { intros ->. refine (never_rejected e m o n _ _ O D). intros k b K R. apply rd_inv in R. destruct R as (R1 & R2 & R3 & R4). subst b.
    assert (Ls : zlen (slice m k 1) = 1) by (apply zlen_slice; lia).
    destruct (slice m k 1) as [|x [|y l]] eqn:Q; unfold zlen in Ls; cbn in Ls; try lia. cbn [dec].
    assert (I : In x m). { assert (I : In x (slice m k 1)) by (rewrite Q; left; reflexivity). unfold slice in I.
      rewrite <- (firstn_skipn (Z.to_nat k) m). apply in_or_app. right. rewrite <- (firstn_skipn (Z.to_nat 1) (skipn (Z.to_nat k) m)). apply in_or_app. left. exact I. }
    pose proof (NT x I). pose proof (b2z_range x). lia. }
  exists (match r with Parsed t => Some t | _ => None end). split; [rewrite <- (app_nil_r m); apply X; exact NR|]. split; [apply X; exact NR|].
  intros t d Et. destruct r as [t0| |]; try discriminate. injection Et as <-. eauto.
Qed.
Print Assumptions C40_reads_within_input_without_tuples.

(** the hypotheses are met: an input with a nested tuple that passes the test,
    and one without tuples *)
Definition ex_input : mem := map z2b ([127; 2; 0; 0; 0; 0] ++ [97; 0; 2; 4; 0] ++ [98; 0] ++ [126; 1; 0; 0; 0; 0; 0; 4; 2; 0]).
Definition type_of (r : res (option dti)) : dti := match r with Ok (Some t) => t | _ => uint8_type end.
Example ex_input_accepted :
  match deserialize finalizes ex_env ex_input (S (List.length ex_input)) 0 23 with Ok (Parsed t) => fst (finalize t) && (element_count t =? 2) | _ => false end = true.
Proof. vm_compute. reflexivity. Qed.
Example ex_input_no_tuple : deserialize_type_info ex_env (map z2b [132; 200; 0; 0; 0; 0; 2; 4; 0]) 0 9
  = Ok (Some (mk_dti false [] ARRAY false false 0 200 true 0 0 (Some (mk_dti true [] UINT true false 4 0 false 0 0 None [])) [])).
Proof. vm_compute. reflexivity. Qed.

(** a tuple of two elements, the first with type code 8: that element is read
    as a bit field of 0 bits from 2 bytes and counted as 3, which is one more
    than there are; the second element is then read from behind the input, and
    it decides about the result *)
Definition bad_input : mem := map z2b [127; 2; 0; 0; 0; 0; 0; 8; 0].
Theorem C40_refuted : exists e ext1 ext2 t, valid_environment e
  /\ deserialize_type_info e bad_input 0 (zlen bad_input) = UB
  /\ deserialize_type_info e (bad_input ++ ext1) 0 (zlen bad_input) = Ok (Some t)
  /\ deserialize_type_info e (bad_input ++ ext2) 0 (zlen bad_input) = Ok None.
Proof.
  exists ex_env, (map z2b [0; 0; 2; 1; 0]), (map z2b [0; 0; 255; 1; 0]),
    (type_of (deserialize_type_info ex_env (bad_input ++ map z2b [0; 0; 2; 1; 0]) 0 (zlen bad_input))). split; [apply ex_env_valid|]. split; [vm_compute; reflexivity|].
  split; vm_compute; reflexivity.
Qed.
Print Assumptions C40_refuted.
(** the same for a nested tuple that is encoded as one of fixed size (code 127)
    although its element is a string of variable length (code 122): the nested
    tuple is read from 14 bytes and counted as 18 *)
Definition bad_nested : mem := map z2b ([127; 2; 0; 0; 0; 0] ++ [0; 127; 1; 0; 0; 0; 0] ++ [0; 122; 10; 0; 0; 0; 0]).
Theorem C40_refuted_nested : exists e ext1 ext2 t, valid_environment e
  /\ deserialize_type_info e bad_nested 0 (zlen bad_nested) = UB
  /\ deserialize_type_info e (bad_nested ++ ext1) 0 (zlen bad_nested) = Ok (Some t)
  /\ deserialize_type_info e (bad_nested ++ ext2) 0 (zlen bad_nested) = Ok None.
Proof.
  exists ex_env, (map z2b [0; 0; 0; 0; 0; 2; 1; 0]), (map z2b [0; 0; 0; 0; 0; 255; 1; 0]),
    (type_of (deserialize_type_info ex_env (bad_nested ++ map z2b [0; 0; 0; 0; 0; 2; 1; 0]) 0 (zlen bad_nested))). split; [apply ex_env_valid|]. split; [vm_compute; reflexivity|].
  split; vm_compute; reflexivity.
Qed.
Print Assumptions C40_refuted_nested.

(** ** C41: [are_identical_type_info] decides whether two finalized types have
    the same description (field names left out), is an equivalence, and
    identical types read the same from the same bytes *)
Theorem C41_identical_iff_partial t1 a t2 b : type_built t1 -> finalize t1 = (true, a) -> type_built t2 -> finalize t2 = (true, b) -> short_names a ->
  (are_identical a b = Ok true <-> same_description false t1 t2) /\ (are_identical a b = Ok false <-> ~ same_description false t1 t2).
Proof.
  intros B1 E1 B2 E2 SN. pose proof (finalized_wf _ _ B1 E1) as Wa. pose proof (finalized_wf _ _ B2 E2) as Wb.
  assert (D : same_description false t1 t2 <-> same_description false a b).
  { destruct (built_good _ B1) as [S1 L1]. destruct (built_good _ B2) as [S2 L2].
    pose proof (finalize_sd false t1 a S1 L1 E1) as D1. pose proof (finalize_sd false t2 b S2 L2 E2) as D2.
    split; intro H; [eapply sd_trans; [apply sd_sym; exact D1|eapply sd_trans; [exact H|exact D2]]|eapply sd_trans; [exact D1|eapply sd_trans; [exact H|apply sd_sym; exact D2]]]. }
  rewrite D. destruct (are_identical_spec a b Wa Wb SN) as (r & -> & R). rewrite <- R. destruct r; split; split; congruence.
Qed.
Print Assumptions C41_identical_iff_partial.

Theorem C41_equivalence_partial t1 a t2 b t3 c : type_built t1 -> finalize t1 = (true, a) -> type_built t2 -> finalize t2 = (true, b) ->
  type_built t3 -> finalize t3 = (true, c) -> short_names a -> short_names b ->
  are_identical a a = Ok true
  /\ (are_identical a b = Ok true <-> are_identical b a = Ok true)
  /\ (are_identical a b = Ok true -> are_identical b c = Ok true -> are_identical a c = Ok true).
Proof.
  intros B1 E1 B2 E2 B3 E3 Sa Sb. pose proof (finalized_wf _ _ B1 E1) as Wa. pose proof (finalized_wf _ _ B2 E2) as Wb. pose proof (finalized_wf _ _ B3 E3) as Wc.
  rewrite !identical_true by assumption. split; [apply wf_sd_refl; exact Wa|]. split; [split; apply sd_sym|apply sd_trans].
Qed.
Print Assumptions C41_equivalence_partial.

Theorem C41_same_data_partial t1 a t2 b : type_built t1 -> finalize t1 = (true, a) -> type_built t2 -> finalize t2 = (true, b) -> short_names a ->
  are_identical a b = Ok true ->
  forall m o, get_size a m o = get_size b m o
  /\ forall pa, observe a pa m o = observe b pa m o /\ element_count_of a pa m o = element_count_of b pa m o.
Proof.
  intros B1 E1 B2 E2 SN I m o. pose proof (finalized_wf _ _ B1 E1) as Wa. pose proof (finalized_wf _ _ B2 E2) as Wb.
  apply identical_true in I; auto. assert (A : alike a b) by (split; [|split]; assumption).
  split; [apply alike_size; exact A|]. intro pa. split; [apply alike_observe|apply alike_count_of]; exact A.
Qed.
Print Assumptions C41_same_data_partial.

(** the hypotheses are met *)
Definition ex_renamed : dti :=
  named "person" (record 1000 [field "x" (num UINT true 2); field "y" (named "varchar" (var_string 300));
                               field "z" (num BIT_FIELD false 5); field "t" (var_array 200 (num FLOAT true 8))]).
Example ex_renamed_built : type_built ex_renamed.
Proof. unfold ex_renamed, named, record, field, num, var_string, var_array. cbn -[list_byte_of_string]. build; congruence. Qed.
Example ex_identical : are_identical (final ex_record) (final ex_renamed) = Ok true.
Proof. vm_compute. reflexivity. Qed.
Example ex_not_identical : are_identical (final ex_record) (final ex_tuple) = Ok false.
Proof. vm_compute. reflexivity. Qed.

(** data_type_info.h says the answer is right also before finalization.  It is
    not: the fields it compares are set by the finalization.  Two strings with
    different maximum sizes are said to be identical. *)
Theorem C41_refuted_unfinalized : exists t1 t2, type_built t1 /\ type_built t2 /\ short_names t1
  /\ are_identical t1 t2 = Ok true /\ ~ same_description false t1 t2.
Proof.
  exists (var_string 300), (var_string 100). split; [unfold var_string; build; congruence|]. split; [unfold var_string; build; congruence|].
  split; [vm_compute; auto|]. split; [vm_compute; reflexivity|]. cbn. intros (_ & _ & _ & H & _). discriminate.
Qed.
Print Assumptions C41_refuted_unfinalized.
(** a name may fill all its 64 bytes; comparing the names of two copies of such
    a type (equal pointers are not compared further) with [strcmp]
    reads past them *)
Definition name64 : list byte := repeat (z2b 97) 64.
Theorem C41_refuted_long_names : exists t, type_built t /\ fst (finalize t) = true /\ are_identical (final t) (final t) = UB.
Proof.
  exists (mk_dti false name64 UINT true false 4 0 false 0 0 None []). split; [unfold name64; build; congruence|]. split; vm_compute; reflexivity.
Qed.
Print Assumptions C41_refuted_long_names.

(** ** C50: [finalize_type_info] accepts exactly the types that make sense, and
    keeps their description *)
Theorem C50_finalize_iff_acceptable t : type_built t -> (fst (finalize t) = true <-> acceptable t).
Proof. intro B. destruct (built_good _ B) as [S1 L1]. apply finalize_iff; assumption. Qed.
Print Assumptions C50_finalize_iff_acceptable.
Theorem C50_finalize_keeps_description t d : type_built t -> finalize t = (true, d) ->
  same_description true t d /\ finalize d = (true, d).
Proof. intros B E. destruct (built_good _ B) as [S1 L1]. split; [apply finalize_sd; assumption|apply finalize_again; eapply finalized_wf; eassumption]. Qed.
Print Assumptions C50_finalize_keeps_description.
Example ex_acceptable : acceptable ex_record.
Proof. apply C50_finalize_iff_acceptable; [apply ex_record_built|apply ex_record_finalizes]. Qed.
Example ex_tight : acceptable (tup 6 [num INT false 2; var_string 300]) /\ ~ acceptable (tup 3 [num INT false 2; var_string 300]).
Proof. split; vm_compute; intuition discriminate. Qed.

(** ** C51: finding a field of a tuple by its name gives the first field with
    that name, or UINT32_MAX when there is none *)
Theorem C51_find_field d s : type d = TUPLE -> (forall b, In b s -> b2z b <> 0) -> zlen s < 64 ->
  exists r, find_containee d s = Ok r
  /\ ((0 <= r < zlen (containees d)
       /\ (exists p c, nth_error (containees d) (Z.to_nat r) = Some (p, c) /\ c_string (field_name p) = s)
       /\ forall k p c, 0 <= k < r -> nth_error (containees d) (Z.to_nat k) = Some (p, c) -> c_string (field_name p) <> s)
      \/ (r = 4294967295 /\ forall p c, In (p, c) (containees d) -> c_string (field_name p) <> s)).
Proof.
  intros T NZ L. unfold find_containee. rewrite T. generalize (containees d). intro cs.
  assert (G : forall i, exists r, find_from s cs i = Ok r
    /\ ((i <= r < i + zlen cs /\ (exists p c, nth_error cs (Z.to_nat (r - i)) = Some (p, c) /\ c_string (field_name p) = s)
         /\ forall k p c, i <= k < r -> nth_error cs (Z.to_nat (k - i)) = Some (p, c) -> c_string (field_name p) <> s)
        \/ (r = 4294967295 /\ forall p c, In (p, c) cs -> c_string (field_name p) <> s))).
  { induction cs as [|[p c] cs IH]; intro i; cbn [find_from].
    - eexists. split; [reflexivity|]. right. split; [reflexivity|intros ? ? []].
    - destruct (same_string_spec 64 s (field_name p) NZ ltac:(lia)) as (b & -> & B). cbn [bind]. fold (c_string (field_name p)) in B. pose proof (zlen_nonneg cs). rewrite zlen_cons. destruct b.
      + exists i. split; [reflexivity|]. left. split; [lia|]. split; [|intros; lia]. exists p, c. rewrite Z.sub_diag. split; [reflexivity|apply B; reflexivity].
      + assert (NB : c_string (field_name p) <> s) by (intro X; apply B in X; discriminate).
        destruct (IH (i + 1)) as (r & E & [(R & (q & x & N & Q) & F)|(R & F)]); exists r; (split; [exact E|]).
        * left. split; [lia|]. split.
          -- exists q, x. replace (Z.to_nat (r - i)) with (S (Z.to_nat (r - (i + 1)))) by lia. auto.
          -- intros k q' x' K N'. destruct (Z.eq_dec k i) as [->|NE]; [rewrite Z.sub_diag in N'; injection N' as <- _; exact NB|].
             replace (Z.to_nat (k - i)) with (S (Z.to_nat (k - (i + 1)))) in N' by lia. apply (F k q' x'); [lia|exact N'].
        * right. split; [exact R|]. intros q x [X|I]; [injection X as <- _; exact NB|eauto]. }
  destruct (G 0) as (r & E & H). exists r. split; [exact E|]. rewrite Z.sub_0_r in H. destruct H as [(R & N & F)|H]; [left|right; exact H].
  split; [lia|]. split; [exact N|]. intros k p c K Nk. apply (F k p c K). rewrite Z.sub_0_r. exact Nk.
Qed.
Print Assumptions C51_find_field.
(** only tuples have fields *)
Theorem C51_not_a_tuple d s : type d <> TUPLE -> find_containee d s = Ok 4294967295.
Proof. unfold find_containee. destruct (type d); congruence. Qed.
Print Assumptions C51_not_a_tuple.
Example ex_find : find_containee (final ex_record) (list_byte_of_string "flags") = Ok 2 /\ find_containee (final ex_record) (list_byte_of_string "flag") = Ok 4294967295.
Proof. split; vm_compute; reflexivity. Qed.
