(** * Deserializing arbitrary bytes: what is read *)
From Verif Require Export IdentFacts.
From Coq Require Import ZifyBool ZifyNat ZifyN Zify.
Ltac Zify.zify_post_hook ::= Z.div_mod_to_equations.

(** ** more memory, more fuel, no check: the same result *)
Lemma rd_more m x o n bs : rd m o n = Ok bs -> rd (m ++ x) o n = Ok bs.
Proof.
  intro H. apply rd_inv in H. destruct H as (H1 & H2 & H3 & ->). pose proof (zlen_nonneg x). rewrite rd_ok by (rewrite ?zlen_app; lia). rewrite slice_app_l by lia. reflexivity.
Qed.
Lemma strnlen_more x k : forall m o r, strnlen_from m o k = Ok r -> strnlen_from (m ++ x) o k = Ok r.
Proof.
  induction k as [|k IH]; intros m o r H; [exact H|]. cbn [strnlen_from] in *. apply bind_inv in H. destruct H as (bs & E & H). rewrite (rd_more _ _ _ _ _ E). cbn [bind].
  destruct (dec bs =? 0); [exact H|]. apply bind_inv in H. destruct H as (q & E' & H). rewrite (IH _ _ _ E'). exact H.
Qed.
Ltac more :=
  repeat match goal with
  | H : bind _ _ = Ok _ |- _ => apply bind_inv in H; let a := fresh "a" in let E := fresh "E" in destruct H as (a & E & H)
  | E : rd ?m ?o ?n = Ok _ |- context [rd (?m ++ ?x) ?o ?n] => rewrite (rd_more _ x _ _ _ E); cbn [bind]
  end.
Lemma name_more x m o n r : deserialize_name m o n = Ok r -> deserialize_name (m ++ x) o n = Ok r.
Proof.
  unfold deserialize_name, strnlen. intro H. apply bind_inv in H. destruct H as (l & E & H). rewrite (strnlen_more _ _ _ _ _ E). cbn [bind].
  destruct (negb (l =? 64)); [destruct (negb (l =? n))|]; more; try exact H. destruct (negb (dec a =? 0)); more; exact H.
Qed.
Lemma u32_more x m o n c r : read_u32 m o n c = Ok r -> read_u32 (m ++ x) o n c = Ok r.
Proof. unfold read_u32. destruct (n <? u32 (c + 4)); [auto|]. intro H. more. exact H. Qed.
Lemma numeral_more e x m ty nu l o n r : deserialize_numeral e m ty nu l o n = Ok r -> deserialize_numeral e (m ++ x) ty nu l o n = Ok r.
Proof.
  unfold deserialize_numeral. intro H. more. destruct ((dec a <? 1) || (l <? dec a)); [exact H|]. more. rewrite (name_more _ _ _ _ _ E0). exact H.
Qed.
Lemma string_more x m ty c o n r : deserialize_string m ty c o n = Ok r -> deserialize_string (m ++ x) ty c o n = Ok r.
Proof.
  unfold deserialize_string. intro H. more. rewrite (u32_more _ _ _ _ _ _ E). cbn [bind]. destruct a as [v|]; [|exact H]. more. rewrite (name_more _ _ _ _ _ E0). exact H.
Qed.
Lemma header_more x m o n two r : read_header m o n two = Ok r -> read_header (m ++ x) o n two = Ok r.
Proof.
  unfold read_header. intro H. more. rewrite (u32_more _ _ _ _ _ _ E). cbn [bind]. destruct a as [v|]; [|exact H]. more.
  assert (E1 : (if two then read_u32 (m ++ x) o n 5 else Ok (Some 0)) = Ok a) by (destruct two; [apply u32_more|]; exact E0). rewrite E1. cbn [bind]. destruct a as [v2|]; [|exact H].
  more. rewrite (name_more _ _ _ _ _ E2). exact H.
Qed.
Section More.
  Variable (check : dti -> bool) (e : environment) (m x : mem).
  Lemma elements_more f f' o n : (forall o n r, f o n = Ok r -> r <> Rejected -> f' o n = Ok r) -> forall k k' left c r, (k <= k')%nat ->
    elements check e m f o n k left c = Ok r -> r <> Rejected -> elements (fun _ => true) e (m ++ x) f' o n k' left c = Ok r.
  Proof.
    intro F. induction k as [|k IH]; intros k' left c r K H R.
    - cbn [elements] in H. destruct (left =? 0) eqn:L; [|discriminate]. destruct k'; cbn [elements]; rewrite L; exact H.
    - destruct k' as [|k']; [lia|]. cbn [elements] in H |- *. destruct (left =? 0); [exact H|].
      apply bind_inv in H. destruct H as (a & E & H). rewrite (name_more _ _ _ _ _ E). cbn [bind]. destruct a as [[fname l]|]; [|exact H].
      apply bind_inv in H. destruct H as (t & Et & H). destruct t as [t| |].
      + rewrite (F _ _ _ Et) by discriminate. cbn [bind negb]. destruct (check t); cbn [negb] in H; [|injection H as <-; congruence].
        apply bind_inv in H. destruct H as (cs & Ec & H). fold (elements check e m f o n) in Ec. fold (elements (fun _ => true) e (m ++ x) f' o n).
        rewrite (IH k' _ _ cs ltac:(lia) Ec); [exact H|]. intros ->. injection H as <-. congruence.
      + rewrite (F _ _ _ Et) by discriminate. exact H.
      + injection H as <-. congruence.
  Qed.
  Lemma deserialize_more fuel : forall fuel' o n r, (fuel <= fuel')%nat -> deserialize check e m fuel o n = Ok r -> r <> Rejected ->
    deserialize (fun _ => true) e (m ++ x) fuel' o n = Ok r.
  Proof.
    induction fuel as [|fuel IH]; intros fuel' o n r K H R; [discriminate|]. destruct fuel' as [|fuel']; [lia|].
    rewrite deserialize_S in H. rewrite deserialize_S. destruct (n <? 1); [exact H|]. more. unfold dispatch in *.
    destruct (if 2 <=? n then numeral_code (dec a) else None) as [[[ty nu] l]|]; [apply numeral_more; exact H|].
    destruct ((5 <? dec a) && (dec a <=? 11)). { more. rewrite (name_more _ _ _ _ _ E0). exact H. }
    destruct ((120 <=? dec a) && (dec a <=? 122)); [apply string_more; exact H|].
    destruct ((123 <=? dec a) && (dec a <=? 125)); [apply string_more; exact H|].
    destruct ((126 <=? dec a) && (dec a <=? 128)).
    { more. rewrite (header_more _ _ _ _ _ _ E0). cbn [bind]. destruct a0 as [[[[count ms] name] c]|]; [|exact H]. more.
      rewrite (elements_more (deserialize check e m fuel) (deserialize (fun _ => true) e (m ++ x) fuel') o n) with (k := fuel) (r := a0); [exact H| |lia|exact E1|].
      - intros o' n' r' Q1 Q2. apply IH; auto. lia.
      - intros ->. injection H as <-. congruence. }
    destruct ((129 <=? dec a) && (dec a <=? 132)); [|exact H].
    more. rewrite (header_more _ _ _ _ _ _ E0). cbn [bind]. destruct a0 as [[[[v1 v2] name] c]|]; [|exact H]. more.
    rewrite (IH fuel' _ _ a0); [exact H|lia|exact E1|]. intros ->. injection H as <-. congruence.
  Qed.
End More.

(** ** never outside the input *)
Lemma strnlen_in m k : forall o, 0 <= o -> o + Z.of_nat k <= zlen m ->
  exists l, strnlen_from m o k = Ok l /\ 0 <= l <= Z.of_nat k /\ slice m o l = until_zero (slice m o l) /\ (l < Z.of_nat k -> slice m (o + l) 1 = [Byte.x00]).
Proof.
  induction k as [|k IH]; intros o O L.
  - exists 0. split; [reflexivity|]. split; [lia|]. split; [rewrite slice_0; reflexivity|lia].
  - cbn [strnlen_from]. rewrite rd_ok by lia. cbn [bind]. rewrite slice_1 by lia. assert (D : dec [bat m o] = b2z (bat m o)) by (cbn [dec]; lia). rewrite D.
    destruct (b2z (bat m o) =? 0) eqn:Z0.
    + exists 0. split; [reflexivity|]. split; [lia|]. split; [rewrite slice_0; reflexivity|]. intros _. rewrite Z.add_0_r, slice_1 by lia. f_equal. apply b2z_inj. rewrite (proj1 (Z.eqb_eq _ _) Z0). reflexivity.
    + destruct (IH (o + 1)) as (l & El & Rl & Sl & Fl); [lia|lia|]. rewrite El. cbn [bind]. exists (1 + l). split; [reflexivity|]. split; [lia|]. split.
      * rewrite slice_split by lia. rewrite slice_1 by lia. cbn [app until_zero]. rewrite Z0, <- Sl. reflexivity.
      * intro Q. replace (o + (1 + l)) with (o + 1 + l) by lia. apply Fl. lia.
Qed.
Lemma name_safe m o n : 0 <= o -> 0 <= n -> o + n <= zlen m -> exists r, deserialize_name m o n = Ok r
  /\ (forall name l, r = Some (name, l) -> name_bytes name = l /\ 1 <= l <= n /\ l <= 64).
Proof.
  intros O N L. unfold deserialize_name, strnlen. destruct (strnlen_in m (Z.to_nat (Z.min 64 n)) o O ltac:(lia)) as (l & El & Rl & Sl & Fl). rewrite El. cbn [bind].
  assert (NB : l <= 64 -> 0 <= l <= n -> name_bytes (slice m o l) = Z.min 64 (l + 1)).
  { intros A B. unfold name_bytes, c_string. rewrite firstn_all2.
    - rewrite <- Sl. rewrite zlen_slice by lia. reflexivity.
    - pose proof (zlen_slice m o l O ltac:(lia) ltac:(lia)) as Q. unfold zlen in Q. lia. }
  destruct (l =? 64) eqn:A; cbn [negb].
  - rewrite rd_ok by lia. cbn [bind]. eexists. split; [reflexivity|]. intros name k E. injection E as <- <-. rewrite NB by lia. lia.
  - destruct (l =? n) eqn:B; cbn [negb]; [eexists; split; [reflexivity|discriminate]|].
    rewrite rd_ok by lia. cbn [bind]. rewrite (Fl ltac:(lia)). change (dec [Byte.x00] =? 0) with true. cbn [negb]. rewrite rd_ok by lia. cbn [bind].
    eexists. split; [reflexivity|]. intros name k E. injection E as <- <-. rewrite NB by lia. lia.
Qed.
Lemma u32_safe m o n c : 0 <= o -> 0 <= c <= 64 -> 0 <= n < 4294967296 -> o + n <= zlen m -> exists r, read_u32 m o n c = Ok r /\ (forall v, r = Some v -> c + 4 <= n /\ 0 <= v < 4294967296).
Proof.
  intros O C N L. unfold read_u32. rewrite u32_id by lia. destruct (n <? c + 4) eqn:Q; [eexists; split; [reflexivity|discriminate]|].
  rewrite rd_ok by lia. cbn [bind]. eexists. split; [reflexivity|]. intros v E. injection E as <-. split; [lia|].
  pose proof (dec_range (slice m (o + c) 4)) as D. rewrite zlen_slice in D by lia. change (256 ^ 4) with 4294967296 in D. lia.
Qed.
Lemma header_safe m o n two : 0 <= o -> 0 <= n < 4294967296 -> o + n <= zlen m -> exists r, read_header m o n two = Ok r
  /\ (forall v1 v2 name c, r = Some (v1, v2, name, c) -> 0 <= v1 < 4294967296 /\ c = (if two then 9 else 5) + name_bytes name /\ c <= n /\ (two = false -> v2 = 0)).
Proof.
  intros O N L. unfold read_header. destruct (u32_safe m o n 1 O ltac:(lia) N L) as (r1 & -> & R1). cbn [bind]. destruct r1 as [v1|]; [|eexists; split; [reflexivity|discriminate]].
  destruct (R1 v1 eq_refl) as [A1 A2].
  assert (E2 : exists r2, (if two then read_u32 m o n 5 else Ok (Some 0)) = Ok r2 /\ (forall v, r2 = Some v -> (if two then 9 else 5) <= n /\ (two = false -> v = 0))).
  { destruct two; [|eexists; split; [reflexivity|intros v E; injection E as <-; split; [lia|auto]]]. destruct (u32_safe m o n 5 O ltac:(lia) N L) as (r2 & -> & R2).
    eexists. split; [reflexivity|]. intros v E. destruct (R2 v E). split; [lia|discriminate]. }
  destruct E2 as (r2 & -> & R2). cbn [bind]. destruct r2 as [v2|]; [|eexists; split; [reflexivity|discriminate]]. destruct (R2 v2 eq_refl) as [B1 B2].
  set (k := if two then 9 else 5) in *. assert (K : 5 <= k <= 9) by (unfold k; destruct two; lia). rewrite u32_id by lia.
  destruct (name_safe m (o + k) (n - k) ltac:(lia) ltac:(lia) ltac:(lia)) as (r3 & -> & R3). cbn [bind]. destruct r3 as [[name l]|]; [|eexists; split; [reflexivity|discriminate]].
  destruct (R3 name l eq_refl) as (C1 & C2 & C3). rewrite u32_id by lia. eexists. split; [reflexivity|]. intros v v' nm c E. injection E as <- <- <- <-. split; [exact A2|]. split; [lia|]. split; [lia|exact B2].
Qed.

(** what is known of a type read from [n] bytes *)
Definition parsed_ok (n : Z) (t : dti) : Prop := sound t /\ (within_limits t -> acceptable t -> description_length t <= n).
Definition safe_result (n : Z) (r : parsed dti) : Prop := forall t, r = Parsed t -> parsed_ok n t.
(** the check lets through types that finalize *)
Definition checks_finalize (check : dti -> bool) : Prop := forall c, check c = true -> exists d, finalize c = (true, d) /\ within_limits c.

Lemma checked_length check n c : checks_finalize check -> check c = true -> parsed_ok n c -> n < 4294967296 ->
  exists d, snd (finalize c) = d /\ wf d /\ byte_count d = description_length d /\ 2 <= description_length d <= n.
Proof.
  intros H C [Sd Q] N. destruct (H c C) as (d & F & L). exists d. rewrite F. split; [reflexivity|]. destruct (finalize_wf c d Sd L F) as [W _]. split; [exact W|].
  assert (A : acceptable c) by (apply finalize_iff; auto; rewrite F; reflexivity). specialize (Q L A). rewrite (sd_length c d) in Q by (eapply finalize_sd; eauto).
  pose proof (dl_pos d). split; [apply byte_count_ok; [exact W|lia]|lia].
Qed.
Lemma elements_safe check e m f o n : checks_finalize check -> 0 <= o -> 0 <= n < 4294967296 -> o + n <= zlen m ->
  (forall c, 1 <= c <= n -> exists r, f (o + c) (n - c) = Ok r /\ safe_result (n - c) r) ->
  forall k left c0, 0 <= left -> 0 <= c0 <= n -> n - c0 < Z.of_nat k -> exists r, elements check e m f o n k left c0 = Ok r
    /\ (forall cs, r = Parsed cs -> (forall p c, In (p, c) cs -> wf c) /\ c0 + dl_elements cs <= n /\ zlen cs = left).
Proof.
  intros HC O N L F. induction k as [|k IH]; intros left c0 LF C0 K; [lia|].
  cbn [elements]. destruct (left =? 0) eqn:Q.
  { eexists. split; [reflexivity|]. intros cs E. injection E as <-. split; [intros p c []|]. cbn [dl_elements]. rewrite zlen_nil. lia. }
  rewrite u32_id by lia. destruct (name_safe m (o + c0) (n - c0) ltac:(lia) ltac:(lia) ltac:(lia)) as (r & -> & R). cbn [bind].
  destruct r as [[fname l]|]; [|eexists; split; [reflexivity|discriminate]]. destruct (R fname l eq_refl) as (R1 & R2 & R3).
  rewrite (u32_id (c0 + l)) by lia. rewrite (u32_id (n - _)) by lia. destruct (F (c0 + l)) as (t & Et & St); [lia|]. rewrite Et. cbn [bind].
  destruct t as [t| |]; [|eexists; split; [reflexivity|discriminate]|eexists; split; [reflexivity|discriminate]].
  destruct (check t) eqn:CT; cbn [negb]; [|eexists; split; [reflexivity|discriminate]].
  destruct (checked_length check (n - (c0 + l)) t HC CT (St t eq_refl) ltac:(lia)) as (d & -> & W & BC & DL). rewrite BC, u32_id by lia.
  fold (elements check e m f o n).
  destruct (IH (left - 1) (c0 + l + description_length d)) as (r & -> & Rr); [lia|lia|lia|]. cbn [bind]. eexists. split; [reflexivity|].
  intros cs E. destruct r as [cs'| |]; try discriminate. injection E as <-. destruct (Rr cs' eq_refl) as (A & B & C). split; [|split].
  - intros p c [I|I]; [injection I as _ <-; exact W|eauto].
  - change (c0 + (name_bytes fname + description_length d + dl_elements cs') <= n). lia.
  - rewrite zlen_cons. lia.
Qed.

Lemma numeral_code_spec code ty nu limit : numeral_code code = Some (ty, nu, limit) ->
  (ty = BIT_FIELD /\ limit = 64) \/ ((ty = UINT \/ ty = INT) /\ limit = 8) \/ ((ty = LARGE_UINT \/ ty = LARGE_INT) /\ limit = 32).
Proof.
  unfold numeral_code. intro H.
  repeat match type of H with (if ?c then _ else _) = _ => destruct c; [injection H as <- <- <-; tauto|] end. discriminate.
Qed.
Lemma numeral_sound e ty nu sz name : (ty = BIT_FIELD /\ 1 <= sz <= 64) \/ ((ty = UINT \/ ty = INT) /\ 1 <= sz <= 8) \/ ((ty = LARGE_UINT \/ ty = LARGE_INT) /\ 1 <= sz <= 32) \/ (ty = FLOAT /\ (sz = 4 \/ sz = 8)) ->
  sound (numeral_type e ty nu sz name).
Proof.
  intro H. apply sound_unfold. unfold numeral_type. cbn [is_finalized type].
  destruct (match name with [] => static_finalized e ty nu sz | _ => false end).
  - apply wf_unfold. unfold node_ok. cbn [is_finalized size max_size element_count_ containees is_bit_field type is_variable_sized_].
    unfold max_bytes. rewrite zlen_nil. split.
    + split; [reflexivity|]. split; [lia|]. split; [lia|]. split; [lia|]. split; [lia|]. split; [discriminate|].
      destruct H as [[-> H]|[[[->| ->] H]|[[[->| ->] H]|[-> H]]]]; split; auto.
    + destruct ty; auto; discriminate || (intros p c []).
  - destruct ty; auto; [intros p c []|discriminate].
Qed.
Lemma numeral_length e ty nu sz name : is_container_data_type ty = false -> description_length (numeral_type e ty nu sz name) <= 2 + name_bytes name.
Proof. intro C. rewrite dl_unfold. cbn [type type_name numeral_type]. destruct ty; try discriminate; lia. Qed.
Lemma float_length e nu sz name : description_length (numeral_type e FLOAT nu sz name) = 1 + name_bytes name.
Proof. rewrite dl_unfold. cbn [type type_name numeral_type]. lia. Qed.

Lemma tuple_min t : within_limits t -> type t = TUPLE -> t_variable t = true -> 1 <= t_size t.
Proof.
  intros L T V. rewrite (t_size_tuple t T), V. apply limits_unfold in L. rewrite T in L. destruct L as (_ & _ & _ & _ & L).
  pose proof (value_size_range (max_size t)). pose proof (fbits_nonneg (containees t) L). pose proof (fslots_nonneg (max_size t) (containees t) L).
  assert (0 <= bytes_of_bits (fbits (containees t))) by (unfold bytes_of_bits; lia). lia.
Qed.
Lemma array_min t c : within_limits t -> type t = ARRAY -> containee_ t = Some c -> t_variable t = true -> has_variable_element_count t = false -> 1 <= t_size t.
Proof.
  intros L T E V HV. rewrite (t_size_array t c T E). rewrite (t_variable_array t c T E), HV in V. cbn [orb] in V. rewrite V, HV.
  pose proof (limits_unfold t) as LU. rewrite T in LU. apply LU in L. destruct L as (_ & _ & EC & _ & L). specialize (L c E).
  pose proof (value_size_range (max_size t)). pose proof (bits_nonneg c L). pose proof (slot_nonneg (max_size t) c L).
  assert (0 <= bytes_of_bits (element_count_ t * bits_in_bitmap c)) by (unfold bytes_of_bits; assert (0 <= element_count_ t * bits_in_bitmap c) by nia; lia).
  nia.
Qed.

Theorem deserialize_safe check e m : checks_finalize check -> forall fuel o n, 0 <= o -> 0 <= n < 4294967296 -> o + n <= zlen m -> n < Z.of_nat fuel ->
  exists r, deserialize check e m fuel o n = Ok r /\ safe_result n r.
Proof.
  intro HC. induction fuel as [|fuel IH]; intros o n O N L F; [lia|].
  assert (FAIL : safe_result n Failed) by (intros t E; discriminate).
  rewrite deserialize_S. destruct (n <? 1) eqn:N1; [eauto|]. rewrite rd_ok by lia. cbn [bind]. set (code := dec (slice m o 1)). unfold dispatch.
  destruct (if 2 <=? n then numeral_code code else None) as [[[ty nu] limit]|] eqn:NC.
  { destruct (2 <=? n) eqn:N2; [|discriminate]. apply numeral_code_spec in NC. unfold deserialize_numeral. rewrite rd_ok by lia. cbn [bind].
    set (sz := dec (slice m (o + 1) 1)). destruct ((sz <? 1) || (limit <? sz)) eqn:SZ; [eauto|]. rewrite u32_id by lia.
    destruct (name_safe m (o + 2) (n - 2) ltac:(lia) ltac:(lia) ltac:(lia)) as (r & -> & R). cbn [bind]. destruct r as [[name l]|]; [|eauto]. destruct (R name l eq_refl) as (R1 & R2 & R3).
    eexists. split; [reflexivity|]. intros t E. injection E as <-. split.
    - apply numeral_sound. destruct NC as [[-> ->]|[[NC ->]|[NC ->]]]; [left; split; [reflexivity|lia]|right; left; split; [exact NC|lia]|right; right; left; split; [exact NC|lia]].
    - intros _ _. assert (C : is_container_data_type ty = false) by (destruct NC as [[-> _]|[[[->| ->] _]|[[->| ->] _]]]; reflexivity). pose proof (numeral_length e ty nu sz name C). lia. }
  clear NC. destruct ((5 <? code) && (code <=? 11)) eqn:C1.
  { rewrite u32_id by lia. destruct (name_safe m (o + 1) (n - 1) ltac:(lia) ltac:(lia) ltac:(lia)) as (r & -> & R). cbn [bind]. destruct r as [[name l]|]; [|eauto]. destruct (R name l eq_refl) as (R1 & R2 & R3).
    eexists. split; [reflexivity|]. intros t E. injection E as <-.
    assert (G : forall nu k, parsed_ok n (float_type e nu k name)).
    { intros nu k. unfold float_type. destruct (k =? 1); [|destruct (k =? 2)].
      - split; [apply numeral_sound; tauto|]. intros _ _. rewrite float_length. lia.
      - split; [apply numeral_sound; tauto|]. intros _ _. rewrite float_length. lia.
      - split; [apply sound_unfold; exact I|]. intros _ A. apply acc_unfold in A. cbn in A. lia. }
    destruct (code <=? 8); apply G. }
  assert (ST : forall ty c, ty = STRING \/ ty = BINARY -> exists r, deserialize_string m ty c o n = Ok r /\ safe_result n r).
  { intros ty c T. unfold deserialize_string. destruct (u32_safe m o n 1 O ltac:(lia) N L) as (r1 & -> & R1). cbn [bind]. destruct r1 as [v|]; [|eauto]. destruct (R1 v eq_refl) as [A1 A2].
    rewrite u32_id by lia. destruct (name_safe m (o + 5) (n - 5) ltac:(lia) ltac:(lia) ltac:(lia)) as (r & -> & R). cbn [bind]. destruct r as [[name l]|]; [|eauto]. destruct (R name l eq_refl) as (R1' & R2 & R3).
    eexists. split; [reflexivity|]. intros t E. injection E as <-. split.
    - apply sound_unfold. destruct T as [-> | ->], (c <=? 1); exact I.
    - intros _ _. rewrite dl_unfold. destruct T as [-> | ->], (c <=? 1); cbn [type type_name]; lia. }
  destruct ((120 <=? code) && (code <=? 122)); [apply ST; auto|].
  destruct ((123 <=? code) && (code <=? 125)); [apply ST; auto|]. clear ST.
  destruct ((126 <=? code) && (code <=? 128)) eqn:C2.
  { destruct (header_safe m o n (code =? 128) O N L) as (r & -> & R). cbn [bind]. destruct r as [[[[count ms] name] c]|]; [|eauto].
    destruct (R count ms name c eq_refl) as (A1 & A2 & A3 & A4). destruct (name_count_bytes name) as (_ & _ & NR).
    assert (C5 : 6 <= c) by (rewrite A2; destruct (code =? 128); lia).
    destruct (elements_safe check e m (deserialize check e m fuel) o n HC O N L) with (k := fuel) (left := count) (c0 := c) as (r & -> & Rr); try lia.
    { intros k K. apply IH; lia. }
    cbn [bind]. eexists. split; [reflexivity|]. intros t E. destruct r as [cs| |]; try discriminate. injection E as <-.
    destruct (Rr cs eq_refl) as (B1 & B2 & B3). split.
    - apply sound_unfold. cbn [new_tuple is_finalized type containees]. intros p x I. apply wf_sound. eauto.
    - intros LM AC. rewrite dl_unfold. cbn [new_tuple type type_name containees].
      destruct (t_variable _) eqn:V; [|rewrite A2 in B2; destruct (code =? 128); lia].
      destruct (code =? 128) eqn:E8; [lia|]. exfalso. apply acc_unfold in AC. destruct AC as [AC _]. specialize (AC V).
      pose proof (tuple_min _ LM eq_refl V) as TM. change (max_size (new_tuple e code o ms name cs)) with ms in AC. specialize (A4 eq_refl). lia. }
  destruct ((129 <=? code) && (code <=? 132)) eqn:C3; [|eauto].
  destruct (header_safe m o n (code =? 131) O N L) as (r & -> & R). cbn [bind]. destruct r as [[[[v1 v2] name] c]|]; [|eauto].
  destruct (R v1 v2 name c eq_refl) as (A1 & A2 & A3 & A4). destruct (name_count_bytes name) as (_ & _ & NR).
  assert (C5 : 6 <= c) by (rewrite A2; destruct (code =? 131); lia). rewrite u32_id by lia.
  destruct (IH (o + c) (n - c)) as (r & -> & Rr); try lia. cbn [bind]. eexists. split; [reflexivity|]. intros t E. destruct r as [y| |]; try discriminate. injection E as <-.
  destruct (Rr y eq_refl) as [B1 B2]. set (t := new_array code v1 v2 name y).
  assert (TT : type t = ARRAY /\ containee_ t = Some y /\ is_finalized t = false /\ type_name t = name).
  { unfold t, new_array. destruct (code <=? 130); [|destruct (code <=? 131)]; auto 10. }
  destruct TT as (TT1 & TT2 & TT3 & TT4). split.
  - apply sound_unfold. rewrite TT1, TT3. intros x E. rewrite TT2 in E. injection E as <-. exact B1.
  - intros LM AC. pose proof LM as LM'. apply limits_unfold in LM'. rewrite TT1 in LM'. destruct LM' as (_ & _ & _ & _ & LY). specialize (LY y TT2).
    apply acc_unfold in AC. rewrite TT1 in AC. destruct AC as (AC & _ & y' & Ey & AY). rewrite TT2 in Ey. injection Ey as <-. specialize (B2 LY AY).
    rewrite dl_unfold, TT1, TT2, TT4. destruct (t_variable t) eqn:V; [|destruct (code =? 131); lia]. specialize (AC eq_refl).
    destruct (has_variable_element_count t) eqn:HV; [destruct (code =? 131); lia|].
    destruct (code =? 131) eqn:E8; [lia|]. exfalso. pose proof (array_min t y LM TT1 TT2 V HV) as AM. unfold t, new_array in AC, HV, AM.
    destruct (code <=? 130) eqn:E0; [cbn [max_size] in AC; lia|]. destruct (code <=? 131) eqn:E9; [lia|]. cbn in HV. discriminate.
Qed.

(** ** the limits are decidable: a check that lets exactly the types through that finalize within the limits *)
Fixpoint limitsb (t : dti) : bool :=
  (0 <=? size t) && (size t <? 4294967296) && (0 <=? max_size t) && (max_size t <=? max_bytes)
  && (0 <=? element_count_ t) && (element_count_ t <? 4294967296) && (zlen (containees t) <? 4294967296)
  && (is_bit_field t || (t_size t <=? max_bytes))
  && match type t with
     | TUPLE => (fix all (cs : list (position * dti)) := match cs with [] => true | (_, c) :: cs' => limitsb c && all cs' end) (containees t)
     | ARRAY => match containee_ t with Some c => limitsb c | None => true end
     | _ => true
     end.
Lemma limitsb_sound t : limitsb t = true -> within_limits t.
Proof.
  induction t as [t IHc IHs] using dti_induction. intro H. apply limits_unfold.
  assert (E : limitsb t = (0 <=? size t) && (size t <? 4294967296) && (0 <=? max_size t) && (max_size t <=? max_bytes)
  && (0 <=? element_count_ t) && (element_count_ t <? 4294967296) && (zlen (containees t) <? 4294967296)
  && (is_bit_field t || (t_size t <=? max_bytes))
  && match type t with
     | TUPLE => (fix all (cs : list (position * dti)) := match cs with [] => true | (_, c) :: cs' => limitsb c && all cs' end) (containees t)
     | ARRAY => match containee_ t with Some c => limitsb c | None => true end
     | _ => true
     end) by (destruct t as [fn tn ty nu vs sz ms hv ec pb ce cs]; destruct ty; reflexivity).
  rewrite E in H. clear E. repeat (apply andb_true_iff in H; destruct H as [H ?H]).
  split; [lia|]. split; [lia|]. split; [lia|]. split; [intro B; rewrite B in *; cbn [orb] in *; lia|].
  destruct (type t); trivial.
  - assert (G : forall cs, (forall p c, In (p, c) cs -> limitsb c = true -> within_limits c) ->
        (fix all (cs : list (position * dti)) := match cs with [] => true | (_, c) :: cs' => limitsb c && all cs' end) cs = true -> forall p c, In (p, c) cs -> within_limits c).
    { clear. induction cs as [|[q c] cs IH]; intros IHs K p x I; [destruct I|]. apply andb_true_iff in K. destruct K as [K1 K2]. destruct I as [I|I].
      - injection I as <- <-. eapply IHs; [left; reflexivity|exact K1].
      - eapply IH; [intros; eapply IHs; [right|]; eassumption|exact K2|exact I]. }
    apply G; assumption.
  - intros c Ec. rewrite Ec in *. eapply IHc; [reflexivity|assumption].
Qed.
Definition finalizes (t : dti) : bool := fst (finalize t) && limitsb t.
Lemma finalizes_check : checks_finalize finalizes.
Proof.
  intros c H. unfold finalizes in H. apply andb_true_iff in H. destruct H as [F L]. destruct (finalize c) as [ok d]. cbn [fst] in F. subst ok. exists d. split; [reflexivity|apply limitsb_sound; exact L].
Qed.

(** ** field names *)
Lemma same_string_spec k : forall s n, (forall b, In b s -> b2z b <> 0) -> zlen s < Z.of_nat k -> exists r, same_string k s n = Ok r /\ (r = true <-> until_zero (firstn k n) = s).
Proof.
  induction k as [|k IH]; intros s n Z0 L; [pose proof (zlen_nonneg s); lia|].
  assert (E : until_zero (firstn (S k) n) = if b2z (hd Byte.x00 n) =? 0 then [] else hd Byte.x00 n :: until_zero (firstn k (tl n))).
  { destruct n as [|x n]; cbn [firstn until_zero hd tl]; [reflexivity|]. destruct (b2z x =? 0); reflexivity. }
  rewrite E. cbn [same_string]. destruct s as [|x s].
  - exists (b2z (hd Byte.x00 n) =? 0). split; [reflexivity|]. destruct (b2z (hd Byte.x00 n) =? 0); split; congruence.
  - rewrite zlen_cons in L. pose proof (Z0 x (or_introl eq_refl)) as X.
    destruct (b2z x =? b2z (hd Byte.x00 n)) eqn:Q; cbn [negb].
    + assert (Q' : x = hd Byte.x00 n) by (apply b2z_inj; lia). destruct (IH s (tl n)) as (r & Er & Ir); [intros; apply Z0; right; assumption|lia|]. exists r. split; [exact Er|].
      rewrite <- Q'. replace (b2z x =? 0) with false by lia. rewrite Ir. split; [intros ->; reflexivity|intro H; injection H; auto].
    + exists false. split; [reflexivity|]. split; [discriminate|]. destruct (b2z (hd Byte.x00 n) =? 0); [discriminate|]. intro H. injection H as H _. subst. lia.
Qed.
