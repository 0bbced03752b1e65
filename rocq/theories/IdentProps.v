(** * C41 for types with names of any length *)
From Coq Require Import String.
From Verif Require Import SizeProps TupleProps DeserFacts IdentFacts AlikeFacts SafeFacts SerdeProps.
From Coq Require Import ZifyBool ZifyNat ZifyN Zify.
Ltac Zify.zify_post_hook ::= idtac.
Open Scope list_scope.
Open Scope Z_scope.

(** the types at the same place of two types *)
Inductive counterparts : dti -> dti -> dti -> dti -> Prop :=
| cp_self a b : counterparts a b a b
| cp_array a b x y t u : type a = ARRAY -> type b = ARRAY -> containee_ a = Some x -> containee_ b = Some y -> counterparts x y t u -> counterparts a b t u
| cp_field a b i p x q y t u : type a = TUPLE -> type b = TUPLE -> nth_error (containees a) i = Some (p, x) -> nth_error (containees b) i = Some (q, y) ->
    counterparts x y t u -> counterparts a b t u.
(** at some place both have the same name, which fills all its 64 bytes *)
Definition same_long_names (a b : dti) : Prop :=
  exists t u, counterparts a b t u /\ c_string (type_name t) = c_string (type_name u) /\ zlen (c_string (type_name t)) = 64.

Lemma same_name_any k : forall a b, let s := until_zero (firstn k a) in let t := until_zero (firstn k b) in
  match same_name k a b with
  | Ok true => s = t /\ zlen s < Z.of_nat k
  | Ok false => s <> t
  | UB => s = t /\ zlen s = Z.of_nat k
  end.
Proof.
  induction k as [|k IH]; intros a b s t; [cbn; auto|]. cbn [same_name].
  assert (Z0 : b2z Byte.x00 = 0) by reflexivity.
  assert (E : forall l, until_zero (firstn (S k) l) = if b2z (hd Byte.x00 l) =? 0 then [] else hd Byte.x00 l :: until_zero (firstn k (tl l))).
  { intros [|x l]; cbn [firstn until_zero hd tl]; [reflexivity|]. destruct (b2z x =? 0); reflexivity. }
  subst s t. rewrite !E.
  destruct (b2z (hd Byte.x00 a) =? b2z (hd Byte.x00 b)) eqn:Q; cbn [negb].
  - assert (Q' : hd Byte.x00 a = hd Byte.x00 b) by (apply b2z_inj; lia). rewrite <- Q'.
    destruct (b2z (hd Byte.x00 a) =? 0) eqn:N; [split; [reflexivity|]; rewrite zlen_nil; lia|].
    specialize (IH (tl a) (tl b)). cbn zeta in IH. rewrite zlen_cons. destruct (same_name k (tl a) (tl b)) as [[|]|].
    + destruct IH as [-> ?]. split; [reflexivity|lia].
    + intro H. injection H as H. contradiction.
    + destruct IH as [-> ?]. split; [reflexivity|lia].
  - intro H. destruct (b2z (hd Byte.x00 a) =? 0) eqn:N1, (b2z (hd Byte.x00 b) =? 0) eqn:N2; try discriminate; [lia|]. injection H as H _. rewrite H in Q. lia.
Qed.

Definition verdict (a b : dti) (r : res bool) : Prop :=
  match r with
  | Ok true => same_description false a b /\ short_names a
  | Ok false => ~ same_description false a b
  | UB => same_long_names a b
  end.
Lemma identical_any a : forall b, wf a -> wf b -> verdict a b (are_identical a b).
Proof.
  induction a as [a IHc IHs] using dti_induction. intros b Wa Wb. rewrite are_identical_unfold.
  pose proof (sd_shares false a b Wa Wb) as SH. destruct (wf_spec a Wa) as [Va Sa]. destruct (wf_spec b Wb) as [Vb Sb].
  destruct (data_type_eqb (type a) (type b)) eqn:T.
  2: { cbn. intro D. destruct (SH D) as (E & _). apply data_type_eqb_spec in E. congruence. }
  apply data_type_eqb_spec in T. cbn [negb].
  pose proof (same_name_any 64 (type_name a) (type_name b)) as R. cbn zeta in R. fold (c_string (type_name a)) (c_string (type_name b)) in R.
  destruct (same_name 64 (type_name a) (type_name b)) as [[|]|]; cbn [bind negb].
  3: { exists a, b. split; [constructor|]. destruct R as [R1 R2]. split; [exact R1|exact R2]. }
  2: { cbn. intro D. apply sd_unfold in D. destruct D as ((_ & E & _) & _). contradiction. }
  destruct R as [R SN]. change (Z.of_nat 64) with 64 in SN. unfold is_variable_sized_type_info.
  destruct (eqb (is_variable_sized_ a) (is_variable_sized_ b)) eqn:V.
  2: { cbn. intro D. destruct (SH D) as (_ & E & _). apply eqb_false_iff in V. congruence. }
  apply eqb_prop in V. cbn [negb].
  destruct (if negb (is_variable_sized_ a) then negb (eqb (is_nullable a) (is_nullable b)) || negb (size a =? size b) else negb (max_size a =? max_size b)) eqn:M.
  { cbn. intro D. destruct (SH D) as (_ & _ & E & _). apply sd_unfold in D. destruct D as ((_ & _ & _ & D) & _). rewrite Va in D.
    destruct (is_variable_sized_ a); cbn [negb] in M; [lia|]. rewrite D, eqb_reflx in M. cbn [negb orb] in M. lia. }
  assert (ND : sd_node false a b).
  { unfold sd_node. rewrite Va, Vb. split; [exact T|]. split; [exact R|]. split; [exact V|]. destruct (is_variable_sized_ a); cbn [negb] in M; [lia|].
    apply orb_false_iff in M. destruct M as [M _]. apply negb_false_iff in M. apply eqb_prop in M. exact M. }
  assert (SZ : is_variable_sized_ a = false -> size a = size b).
  { intro E. rewrite E in M. cbn [negb] in M. apply orb_false_iff in M. destruct M as [_ M]. lia. }
  pose proof (wf_node a Wa) as Na. pose proof (wf_node b Wb) as Nb. destruct Na as (_ & _ & _ & _ & _ & _ & Na). destruct Nb as (_ & _ & _ & _ & _ & _ & Nb).
  rewrite <- T in Nb. apply wf_unfold in Wa. destruct Wa as [_ Wa]. apply wf_unfold in Wb. destruct Wb as [_ Wb]. rewrite <- T in Wb.
  destruct (type a) eqn:Ta.
  1-6: (split; [apply sd_unfold; rewrite Ta; split; [exact ND|]; apply SZ; tauto|apply sn_unfold; rewrite Ta; auto]).
  1-2: (split; [apply sd_unfold; rewrite Ta; split; [exact ND|]; rewrite Va; intro E;
    destruct Na as (A1 & _ & _ & A2 & _); destruct Nb as (B1 & _ & _ & B2 & _); rewrite <- A1, E in A2; rewrite <- B1, <- V, E in B2; rewrite <- A2, <- B2; auto
    |apply sn_unfold; rewrite Ta; auto]).
  - unfold element_count. rewrite Ta, <- T.
    assert (G : forall l r, (forall p c, In (p, c) l -> In (p, c) (containees a)) -> (forall p c, In (p, c) r -> In (p, c) (containees b)) -> zlen l = zlen r ->
              match ident_loop l r with
              | Ok true => sd_elements false l r /\ (forall p c, In (p, c) l -> short_names c)
              | Ok false => ~ sd_elements false l r
              | UB => exists i p x q y, nth_error l i = Some (p, x) /\ nth_error r i = Some (q, y) /\ same_long_names x y
              end).
    { induction l as [|[p x] l IH]; intros [|[p' y] r'] Il Ir Z0; rewrite ?zlen_cons, ?zlen_nil in *; try (pose proof (zlen_nonneg l); lia); try (pose proof (zlen_nonneg r'); lia).
      - split; [constructor|intros ? ? []].
      - change (ident_loop ((p, x) :: l) ((p', y) :: r')) with (let* i := are_identical x y in if negb i then Ok false else ident_loop l r').
        pose proof (IHs p x (Il _ _ (or_introl eq_refl)) y (Wa _ _ (Il _ _ (or_introl eq_refl))) (Wb _ _ (Ir _ _ (or_introl eq_refl)))) as Q.
        destruct (are_identical x y) as [[|]|]; cbn [bind negb].
        + specialize (IH r' (fun p c H => Il p c (or_intror H)) (fun p c H => Ir p c (or_intror H)) ltac:(lia)). destruct Q as [Q1 Q2].
          destruct (ident_loop l r') as [[|]|].
          * destruct IH as [D1 D2]. split; [constructor; [split; [discriminate|exact Q1]|exact D1]|]. intros p0 c0 [E|I]; [injection E as <- <-; exact Q2|eauto].
          * intro D. apply IH. inversion D. assumption.
          * destruct IH as (i & p0 & x0 & q0 & y0 & A & B & C). exists (S i), p0, x0, q0, y0. auto.
        + intro D. inversion D as [|? ? ? ? [_ D1]]. contradiction.
        + exists 0%nat, p, x, p', y. auto. }
    destruct (zlen (containees a) =? zlen (containees b)) eqn:Z0; cbn [negb].
    + specialize (G (containees a) (containees b) (fun _ _ H => H) (fun _ _ H => H) ltac:(lia)). destruct (ident_loop (containees a) (containees b)) as [[|]|].
      * destruct G as [G1 G2]. split; [apply sd_unfold; rewrite Ta; auto|apply sn_unfold; rewrite Ta; auto].
      * cbn. intro D. apply G. apply sd_unfold in D. rewrite Ta in D. apply D.
      * destruct G as (i & p & x & q & y & A & B & t & u & CP & N). exists t, u. split; [|exact N]. eapply cp_field; eauto.
    + cbn. intro D. apply sd_unfold in D. rewrite Ta in D. destruct D as [_ D]. apply Forall2_len in D. unfold zlen in Z0. lia.
  - destruct Na as (x & Ex & A1 & A2 & _). destruct Nb as (y & Ey & B1 & B2 & _). rewrite Ex, Ey.
    destruct (eqb (has_variable_element_count a) (has_variable_element_count b)) eqn:HV; cbn [negb].
    2: { cbn. intro D. apply sd_unfold in D. rewrite Ta in D. destruct D as (_ & E & _). apply eqb_false_iff in HV. congruence. }
    apply eqb_prop in HV.
    destruct (negb (has_variable_element_count a) && negb (element_count_ a =? element_count_ b)) eqn:C.
    { cbn. intro D. apply sd_unfold in D. rewrite Ta in D. destruct D as (_ & _ & E & _).
      apply andb_true_iff in C. destruct C as [C1 C2]. apply negb_true_iff in C1. specialize (E C1). lia. }
    pose proof (IHc x Ex y (Wa x Ex) (Wb y Ey)) as Q. destruct (are_identical x y) as [[|]|]; cbn [verdict] in *.
    + destruct Q as [Q1 Q2]. split; [apply sd_unfold; rewrite Ta|apply sn_unfold; rewrite Ta; split; [exact SN|]; intros c Ec; congruence].
      split; [exact ND|]. split; [exact HV|]. split; [intro E; rewrite E in C; cbn [negb andb] in C; lia|]. exists x, y. auto.
    + intro D. apply sd_unfold in D. rewrite Ta in D. destruct D as (_ & _ & _ & x' & y' & Ex' & Ey' & D). apply Q. congruence.
    + destruct Q as (t & u & CP & N). exists t, u. split; [|exact N]. eapply cp_array; eauto.
Qed.

(** ** C41 for names of any length
    [are_identical_type_info] returns 1 exactly for types with the same
    description and no name of 64 bytes.  It returns 0 only for types with
    different descriptions.  It can read past a name only where both types have
    the same name of 64 bytes at the same place, and it does whenever two types
    have the same description with such a name. *)
Theorem C41_any_names t1 a t2 b : type_built t1 -> finalize t1 = (true, a) -> type_built t2 -> finalize t2 = (true, b) ->
  (are_identical a b = Ok true <-> same_description false t1 t2 /\ short_names a)
  /\ (are_identical a b = Ok false -> ~ same_description false t1 t2)
  /\ (are_identical a b = UB -> same_long_names a b)
  /\ (same_description false t1 t2 -> ~ short_names a -> are_identical a b = UB).
Proof.
  intros B1 E1 B2 E2. pose proof (finalized_wf _ _ B1 E1) as Wa. pose proof (finalized_wf _ _ B2 E2) as Wb.
  assert (D0 : same_description false t1 t2 <-> same_description false a b).
  { destruct (built_good _ B1) as [S1 L1]. destruct (built_good _ B2) as [S2 L2].
    pose proof (finalize_sd false t1 a S1 L1 E1) as D1. pose proof (finalize_sd false t2 b S2 L2 E2) as D2.
    split; intro H; [eapply sd_trans; [apply sd_sym; exact D1|eapply sd_trans; [exact H|exact D2]]|eapply sd_trans; [exact D1|eapply sd_trans; [exact H|apply sd_sym; exact D2]]]. }
  rewrite D0. pose proof (identical_any a b Wa Wb) as V. destruct (are_identical a b) as [[|]|] eqn:E; cbn [verdict] in V.
  - split; [tauto|]. split; [discriminate|]. split; [discriminate|]. tauto.
  - split; [split; [discriminate|tauto]|]. split; [auto|]. split; [discriminate|]. tauto.
  - split; [|split; [discriminate|split; [auto|reflexivity]]]. split; [discriminate|]. intros [D S].
    apply (proj2 (identical_true a b Wa Wb S)) in D. congruence.
Qed.
Print Assumptions C41_any_names.
(** two tuples whose first fields differ and whose second fields have the same
    long name: the answer is 0; with the fields in the other order the name is
    read past its end *)
Definition long_named : dti := mk_dti false name64 UINT true false 4 0 false 0 0 None [].
Definition long1 (ty : data_type) : dti := tup 0 [num ty false 4; long_named].
Definition long2 (ty : data_type) : dti := tup 0 [long_named; num ty false 4].
Example long_built : type_built (long1 UINT) /\ type_built (long1 INT) /\ type_built (long2 UINT) /\ type_built (long2 INT).
Proof. unfold long1, long2, long_named, name64, tup, num. cbn [map]. repeat split; build; congruence. Qed.
Example C41_any_names_case : are_identical (final (long1 UINT)) (final (long1 INT)) = Ok false
  /\ are_identical (final (long2 UINT)) (final (long2 INT)) = UB /\ are_identical (final (long1 UINT)) (final (long1 UINT)) = UB.
Proof. repeat split; vm_compute; reflexivity. Qed.
