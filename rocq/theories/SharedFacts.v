(** * Lemmas about pages that several programs use *)
From Verif Require Import OpFacts SizeProps TupleProps.
From Coq Require Import ZifyBool ZifyNat ZifyN Zify.
From Verif Require Import BytesFacts SpecFacts SerdeProps AlikeFacts SafeFacts TreeFacts TableFacts PageFacts SharedSpec.
Ltac Zify.zify_post_hook ::= Z.div_mod_to_equations.
Open Scope list_scope.
Open Scope Z_scope.

(** equal in the fields that are in use *)
Definition like_def (a b : size_def) : Prop :=
  sd_variable a = sd_variable b /\ sd_size a = sd_size b
  /\ (sd_variable a = true -> sd_max_size a = sd_max_size b /\ sd_has_size a = sd_has_size b /\ sd_has_count a = sd_has_count b
      /\ (sd_has_size a = false -> sd_containee_valid_bit a = sd_containee_valid_bit b
          /\ sd_containee_bit_field a = sd_containee_bit_field b /\ sd_containee_size a = sd_containee_size b)).
Lemma like_sym a b : like_def a b -> like_def b a.
Proof. intros (A & B & C). split; [congruence|]. split; [congruence|]. intro V. rewrite <- A in V. destruct (C V) as (C1 & C2 & C3 & C4). repeat (split; [congruence|]). intro Hs. rewrite <- C2 in Hs. destruct (C4 Hs) as (-> & -> & ->). auto. Qed.
Lemma like_size a b m o : like_def a b -> tuple_size a m o = tuple_size b m o.
Proof.
  intros (A & B & C). unfold tuple_size. rewrite <- A, <- B. destruct (sd_variable a); [|reflexivity]. destruct (C eq_refl) as (<- & <- & _ & C4).
  cbn [negb]. destruct (sd_has_size a); [reflexivity|]. destruct (C4 eq_refl) as (<- & <- & <-). reflexivity.
Qed.
Lemma like_max a b : like_def a b -> max_tuple_size a = max_tuple_size b.
Proof. intros (A & B & C). unfold max_tuple_size. rewrite <- A, <- B. destruct (sd_variable a); [|reflexivity]. destruct (C eq_refl) as (<- & _). reflexivity. Qed.
Lemma like_ok a b x : like_def a b -> tuple_ok a x -> tuple_ok b x.
Proof. intros L [H1 H2]. split; [rewrite <- (like_size a b) by exact L; exact H1|rewrite <- (like_max a b L); exact H2]. Qed.

Lemma like_view ps a b p hb c f : like_def a b -> view ps a p hb c f -> view ps b p hb c f.
Proof.
  intros L. pose proof L as (A & B & _). unfold view. rewrite <- A, <- B. destruct (sd_variable a).
  - intros (es & S1 & S2 & S3). exists es. split; [|auto]. destruct S1 as [R F D P]. constructor; auto.
    intros o t I. destruct (D o t I) as (D1 & D2 & D3). split; [exact D1|]. split; [exact (like_ok a b t L D2)|exact D3].
  - intros [(Z1 & X & Y & FR & CE) Ef]. split; [|exact Ef]. unfold frep. rewrite <- B. split; [exact Z1|]. exists X, Y. split; [|exact CE].
    destruct FR. constructor; rewrite <- ?B; auto.
Qed.

(** the size definition of a type, and of a type with the same description *)
Lemma made_like d0 ty t d ty' t' : type_built ty -> finalize ty = (true, t) -> initialize_size_def d0 ty = Some d ->
  type_built ty' -> finalize ty' = (true, t') -> alike t t' ->
  (forall d1, exists d', initialize_size_def d1 ty' = Some d' /\ like_def d d')
  /\ forall d', like_def d d' -> initialize_size_def d' ty' = Some d'.
Proof.
  intros B F E B' F' A.
  destruct (size_def_of_type d0 ty t d B F E) as (W & NB & V & S1 & M & C).
  destruct (built_finalized ty' t' B' F') as [W' (T' & _)].
  destruct (alike_shares t t' A) as (T & Va & Sz & NV & NU & MX). destruct (alike_flags t t' A) as (Co & VE & HS & O1 & O2 & VV).
  assert (HC : has_element_count_in_prefix t = has_element_count_in_prefix t') by exact VE.
  assert (Ct : is_variable_sized_ t = true -> has_size_in_prefix t = false -> alike (containee t) (containee t')).
  { intros H1 H2. destruct (C H1 H2) as (K & _). apply has_count_container in K. destruct K as [K1 K2]. destruct A as (_ & _ & D).
    destruct (type t) eqn:Tt; try congruence; unfold is_container_type_info in K1; rewrite Tt in K1; try discriminate.
    - rewrite !containee_string by (auto || (left; congruence)). apply alike_refl, uint8_wf.
    - rewrite !containee_string by (auto || (right; congruence)). apply alike_refl, uint8_wf.
    - apply alike_array; [split; [exact W|split; [exact W'|exact D]]|exact Tt]. }
  assert (NE : is_variable_sized_ t = false -> (size t =? 0) = false).
  { intro X. unfold initialize_size_def in E. rewrite F in E. unfold is_variable_sized_type_info in E. rewrite X in E. cbn [negb] in E.
    destruct (type ty); try discriminate; destruct (size t =? 0); congruence. }
  assert (NP : is_variable_sized_ t = true -> negb (has_size_in_prefix t) && negb (has_element_count_in_prefix t) = false).
  { intro X. destruct (has_size_in_prefix t) eqn:Hs; [reflexivity|]. destruct (C X eq_refl) as (-> & _). reflexivity. }
  assert (NT : type ty' <> BIT_FIELD) by congruence.
  assert (U : forall d1, initialize_size_def d1 ty' =
    if negb (is_variable_sized_ t) then Some (mk_size_def false (size t) (sd_max_size d1) (sd_has_size d1) (sd_has_count d1)
                     (sd_containee_valid_bit d1) (sd_containee_bit_field d1) (sd_containee_size d1))
    else if has_size_in_prefix t then Some (mk_size_def true (size t) (max_size t) true (has_element_count_in_prefix t)
                  (sd_containee_valid_bit d1) (sd_containee_bit_field d1) (sd_containee_size d1))
    else Some (mk_size_def true (size t) (max_size t) false (has_element_count_in_prefix t) (needs_is_valid_bit (containee t))
                  (is_bit_field (containee t)) (size (containee t)))).
  { intro d1. unfold initialize_size_def. rewrite F'. unfold is_variable_sized_type_info. rewrite <- Va, <- Sz, <- HS, <- HC.
    destruct (is_variable_sized_ t) eqn:X; cbn [negb]; [|rewrite NE by reflexivity; destruct (type ty'); congruence].
    rewrite NP by reflexivity. rewrite <- MX by reflexivity.
    destruct (has_size_in_prefix t) eqn:Hs; [destruct (type ty'); congruence|].
    destruct (alike_shares _ _ (Ct eq_refl eq_refl)) as (T2 & _ & S2 & N2 & _). rewrite <- N2, <- S2.
    assert (Q : data_type_eqb (type (containee t')) BIT_FIELD = is_bit_field (containee t)) by (unfold is_bit_field; rewrite <- T2; destruct (type (containee t)); reflexivity).
    rewrite Q. destruct (type ty'); congruence. }
  split.
  - intro d1. rewrite U. destruct (is_variable_sized_ t) eqn:X; cbn [negb].
    2: { eexists. split; [reflexivity|]. split; [exact V|]. split; [exact S1|]. rewrite V. discriminate. }
    destruct (M eq_refl) as (M1 & M2 & M3). destruct (has_size_in_prefix t) eqn:Hs.
    + eexists. split; [reflexivity|]. split; [exact V|]. split; [exact S1|]. intros _. cbn. repeat (split; [assumption|]). congruence.
    + destruct (C eq_refl eq_refl) as (C1 & C2 & C3 & C4). eexists. split; [reflexivity|]. split; [exact V|]. split; [exact S1|]. intros _. cbn. repeat (split; [assumption|]). auto.
  - intros d' (L1 & L2 & L3). rewrite U. destruct d' as [v sz ms hs hc cv cb cs].
    cbn [sd_variable sd_size sd_max_size sd_has_size sd_has_count sd_containee_valid_bit sd_containee_bit_field sd_containee_size] in *.
    rewrite V, S1 in *. subst v sz. destruct (is_variable_sized_ t) eqn:X; cbn [negb]; [|reflexivity].
    destruct (M eq_refl) as (M1 & M2 & M3). rewrite M1, M2, M3 in *. destruct (L3 eq_refl) as (<- & <- & <- & L4).
    destruct (has_size_in_prefix t) eqn:Hs; [reflexivity|]. destruct (C eq_refl eq_refl) as (C1 & C2 & C3 & C4). rewrite C2, C3, C4 in *.
    destruct (L4 eq_refl) as (<- & <- & <-). reflexivity.
Qed.

(** a size definition read from its bytes *)
Lemma read_like d0 t d sd : type_built t -> finalize t = (true, d) -> initialize_size_def d0 t = Some sd ->
  forall any rest n, zlen (serialize_size_def sd) <= n <= zlen (serialize_size_def sd ++ rest) ->
  exists sd', deserialize_size_def any (serialize_size_def sd ++ rest) n = Ok (Some sd') /\ like_def sd sd'.
Proof.
  intros B F E.
  destruct (size_def_of_type d0 t d sd B F E) as (W & NB & V & S & M & C).
  pose proof (wf_node d W) as (_ & S0 & MS & _ & SZ & _ & _).
  assert (SZ' : 0 <= size d < 4294967296).
  { assert (is_bit_field d = false) as Q by (unfold is_bit_field; destruct (type d); try reflexivity; congruence).
    specialize (SZ Q). unfold max_bytes in SZ. lia. }
  assert (C' : is_variable_sized_ d = true -> has_size_in_prefix d = false -> 0 <= size (containee d) < 4294967296).
  { intros A A'. destruct (C A A') as (H & _). apply has_count_container in H.
    destruct (containee_size_range d W) as [_ R]; try tauto. unfold max_bytes in R. lia. }
  unfold max_bytes in MS. clear SZ.
  assert (D4 : forall v, 0 <= v < 4294967296 -> dec (enc 4 v) = v) by (intros; apply dec_enc_id; change (256 ^ Z.of_nat 4) with 4294967296; lia).
  assert (R : forall (l1 l2 l3 : list byte) o n, zlen l1 = o -> zlen l2 = n -> rd (l1 ++ l2 ++ l3) o n = Ok l2).
  { intros l1 l2 l3 o n <- <-. rewrite rd_ok; rewrite ?zlen_app; pose proof (zlen_nonneg l1); pose proof (zlen_nonneg l2); pose proof (zlen_nonneg l3); try lia.
    f_equal. rewrite slice_app_r by lia. rewrite Z.sub_diag. rewrite slice_app_l by lia. apply slice_all. reflexivity. }
  assert (Rb : forall b l, rd (b :: l) 0 1 = Ok [b]) by (intros b l; exact (R [] [b] l 0 1 eq_refl eq_refl)).
  assert (Rc : forall b (l2 l3 : list byte) n, zlen l2 = n -> rd (b :: l2 ++ l3) 1 n = Ok l2) by (intros b l2 l3 n; exact (R [b] l2 l3 1 n eq_refl)).
  destruct sd as [v sz ms hs hc cv cb cs]. cbn [sd_variable sd_size sd_max_size sd_has_size sd_has_count sd_containee_valid_bit sd_containee_bit_field sd_containee_size] in *.
  subst v sz. unfold serialize_size_def. cbn [sd_variable sd_size sd_max_size sd_has_size sd_has_count sd_containee_valid_bit sd_containee_bit_field sd_containee_size].
  destruct (is_variable_sized_ d) eqn:Vd; cbn [negb].
  2: { intros any rest n Hn. rewrite zlen_app, !zlen_cons, !zlen_enc in Hn. pose proof (zlen_nonneg rest).
    unfold deserialize_size_def. destruct (n =? 0) eqn:N0; [lia|].
    cbn [app]. rewrite Rb. cbn [bind].
    change (Z.testbit (dec [z2b 0]) 0) with false. cbn [negb].
    destruct (n <? 1 + 4) eqn:N1; [lia|].
    rewrite Rc by reflexivity. cbn [bind]. rewrite D4 by lia.
    eexists. split; [reflexivity|]. repeat split; cbn; discriminate. }
  destruct (M eq_refl) as (-> & -> & ->). clear M.
  destruct (has_size_in_prefix d) eqn:HS.
  - intros any rest n Hn. rewrite zlen_app, !zlen_cons, zlen_app, !zlen_enc in Hn. pose proof (zlen_nonneg rest).
    unfold deserialize_size_def. destruct (n =? 0) eqn:N0; [lia|].
    cbn [app]. rewrite <- !app_assoc.
    set (b0 := z2b _). rewrite Rb. cbn [bind].
    assert (F0 : Z.testbit (dec [b0]) 0 = true /\ Z.testbit (dec [b0]) 1 = true /\ Z.testbit (dec [b0]) 2 = has_element_count_in_prefix d).
    { subst b0. destruct (has_element_count_in_prefix d); repeat split. }
    destruct F0 as (-> & -> & ->). cbn [negb].
    destruct (n <? 1 + 8) eqn:N1; [lia|].
    rewrite Rc by reflexivity. cbn [bind].
    change (b0 :: enc 4 (size d) ++ enc 4 (max_size d) ++ rest) with ((b0 :: enc 4 (size d)) ++ enc 4 (max_size d) ++ rest).
    rewrite (R (b0 :: enc 4 (size d)) (enc 4 (max_size d)) _ 5 4) by reflexivity. cbn [bind].
    rewrite !D4 by lia.
    eexists. split; [reflexivity|]. repeat split; cbn; discriminate.
  - destruct (C eq_refl eq_refl) as (HC & -> & -> & ->). specialize (C' eq_refl eq_refl).
    intros any rest n Hn. rewrite zlen_app, !zlen_cons, !zlen_app, !zlen_enc in Hn. pose proof (zlen_nonneg rest).
    unfold deserialize_size_def. destruct (n =? 0) eqn:N0; [lia|].
    cbn [app]. rewrite <- !app_assoc.
    set (b0 := z2b _). rewrite Rb. cbn [bind].
    assert (F0 : Z.testbit (dec [b0]) 0 = true /\ Z.testbit (dec [b0]) 1 = false /\ Z.testbit (dec [b0]) 2 = true
                 /\ Z.testbit (dec [b0]) 3 = needs_is_valid_bit (containee d) /\ Z.testbit (dec [b0]) 4 = is_bit_field (containee d)).
    { subst b0. rewrite HC. destruct (needs_is_valid_bit (containee d)), (is_bit_field (containee d)); repeat split. }
    destruct F0 as (-> & -> & -> & -> & ->). cbn [negb].
    destruct (n <? 1 + 8) eqn:N1; [lia|]. destruct (n <? 9 + 4) eqn:N2; [lia|].
    rewrite Rc by reflexivity. cbn [bind].
    change (b0 :: enc 4 (size d) ++ enc 4 (max_size d) ++ enc 4 (size (containee d)) ++ rest)
      with ((b0 :: enc 4 (size d)) ++ enc 4 (max_size d) ++ enc 4 (size (containee d)) ++ rest).
    rewrite (R (b0 :: enc 4 (size d)) (enc 4 (max_size d)) _ 5 4) by reflexivity. cbn [bind].
    rewrite app_assoc. rewrite (R ((b0 :: enc 4 (size d)) ++ enc 4 (max_size d)) (enc 4 (size (containee d))) _ 9 4) by reflexivity. cbn [bind].
    rewrite !D4 by lia. rewrite HC.
    eexists. split; [reflexivity|]. repeat split.
Qed.

Section Users.
Variables (ps h : Z) (dw : size_def) (tyw tw : dti) (bs sbs : list byte).
Hypothesis SU : shared_setup ps h dw tyw tw bs sbs.
Local Notation user := (user dw tyw tw bs sbs).

(** what every program finds in the stored type *)
Lemma type_found e m o n : valid_environment e -> 0 <= o -> o + n <= zlen m -> zlen bs <= n < 4294967296 -> slice m o (zlen bs) = bs ->
  exists ty t, deserialize_type_info e m o n = Ok (Some ty) /\ finalize ty = (true, t) /\ type_built ty /\ same_description true tw t
  /\ are_identical tw t = Ok true /\ are_identical t tw = Ok true.
Proof.
  destruct SU as ((TB & FIN & _) & ((m0 & o0 & n0 & m1 & O0 & L0 & SE & EB) & _) & SN & DL). intros VE O L N SL.
  destruct (C39_round_trip tyw tw m0 o0 TB FIN DL O0 L0) as (b & Z0 & _ & SE' & RT). rewrite SE in SE'. injection SE' as -> ->.
  pose proof (zlen_nonneg b). rewrite slice_upd_same' in EB by lia. subst b.
  destruct (RT e m o n VE O L SL N) as (ty & t & D & B & F & SD & _ & ID). destruct (ID SN) as [I1 I2]. exists ty, t. auto 10.
Qed.

(** every user works with a table of its own type *)
Lemma user_setup d ty t : user d ty t -> table_setup ps h d ty t /\ like_def dw d /\ alike tw t
  /\ (forall m o, data_at tw m o <-> data_at t m o).
Proof.
  pose proof SU as ((TB & FIN & [d0 SD] & Hps & Hh) & ((m0 & o0 & n0 & m1 & O0 & L0 & SE & EB) & ESB) & SN & DL).
  destruct (built_finalized _ _ TB FIN) as [Ww _].
  intros [(-> & -> & ->)|[(e & m & o & n & VE & O & L & N & SL & DE & F) SZ]].
  { split; [apply SU|]. split; [repeat split; auto|]. split; [apply alike_refl; exact Ww|]. intros; reflexivity. }
  destruct (type_found e m o n VE O L N SL) as (ty1 & t1 & D1 & F1 & B1 & SD1 & I1 & I2).
  rewrite DE in D1. injection D1 as <-. rewrite F in F1. injection F1 as <-.
  destruct (built_finalized _ _ B1 F) as [W _].
  assert (A : alike tw t) by (split; [exact Ww|split; [exact W|apply sd_weaken; exact SD1]]).
  destruct (made_like d0 tyw tw dw ty t TB FIN SD B1 F A) as [M1 M2].
  assert (K : exists d1, initialize_size_def d1 ty = Some d /\ like_def dw d).
  { destruct SZ as [[any E]|(any & rest & k & K & E)].
    - destruct (M1 any) as (d' & E' & L'). exists any. split; [exact E|congruence].
    - rewrite ESB in *. destruct (read_like d0 tyw tw dw TB FIN SD any rest k K) as (d' & E' & L'). rewrite E in E'. injection E' as <-. exists d. split; [apply M2; exact L'|exact L']. }
  destruct K as (d1 & E & LD). split; [split; [exact B1|]; split; [exact F|]; split; [exists d1; exact E|auto]|]. split; [exact LD|]. split; [exact A|].
  assert (SNt : short_names t) by (eapply short_sd; [exact SD1|exact SN]).
  intros m2 o2. split; intro D.
  - apply (da_identical ty t [] tw t); auto. constructor.
  - apply (da_identical tyw tw [] t tw); auto. constructor.
Qed.
End Users.

Lemma alike_tree a b m o pa T : alike a b -> has_tree a m o pa T -> has_tree b m o pa T.
Proof.
  intro A. induction 1 as [pa E|pa r E N|pa r l E N C H IH].
  - apply ht_null. rewrite <- (alike_observe a b) by exact A. exact E.
  - apply ht_num; [rewrite <- (alike_observe a b) by exact A; exact E|exact N].
  - eapply ht_node; [rewrite <- (alike_observe a b) by exact A; exact E|exact N|rewrite <- (alike_count_of pa a b m o A); exact C|exact IH].
Qed.

Section Pages.
Variables (ps h : Z) (dw : size_def) (tyw tw : dti) (bs sbs : list byte).
Hypothesis SU : shared_setup ps h dw tyw tw bs sbs.
Local Notation user := (user dw tyw tw bs sbs).
Local Notation shared := (shared ps h dw tyw tw bs sbs).

Lemma user_tuple d ty t x : user d ty t -> (is_tuple tw x <-> is_tuple t x).
Proof.
  intro U. destruct (user_setup ps h dw tyw tw bs sbs SU d ty t U) as (_ & _ & A & D). destruct x as [b|]; cbn; [|tauto].
  rewrite (alike_size tw t b 0 A), D. tauto.
Qed.
Lemma user_row d ty t x y : user d ty t -> (row_of tw x y <-> row_of t x y).
Proof.
  intro U. destruct (user_setup ps h dw tyw tw bs sbs SU d ty t U) as (_ & _ & A & D). destruct x as [b|], y as [T|]; cbn; try tauto.
  split; apply alike_tree; [exact A|]. destruct A as (A1 & A2 & A3). split; [exact A2|]. split; [exact A1|apply sd_sym; exact A3].
Qed.
Lemma user_rows d ty t c R : user d ty t -> (Forall2 (row_of tw) c R <-> Forall2 (row_of t) c R).
Proof. intro U. split; induction 1; constructor; auto; apply (user_row d ty t _ _ U); assumption. Qed.
Lemma user_holds d ty t p c : user d ty t -> (holds_tuples ps h dw tw p c <-> holds_tuples ps h d t p c).
Proof.
  intro U. destruct (user_setup ps h dw tyw tw bs sbs SU d ty t U) as (_ & L & _).
  split; intros (hb & f & V & Z0 & FA); exists hb, f; (split; [eapply like_view; [|exact V]; auto using like_sym|]); (split; [exact Z0|]);
  rewrite Forall_forall in *; intros x I; apply (user_tuple d ty t x U); auto.
Qed.
Definition shows_rows (p : mem) (R : list (option tree)) : Prop := exists c, holds_tuples ps h dw tw p c /\ Forall2 (row_of tw) c R.

Lemma user_shown d ty t p R c : user d ty t -> holds_tuples ps h dw tw p c -> (Forall2 (row_of tw) c R <-> rows_on_page ps d t p R).
Proof.
  intros U H. destruct (user_setup ps h dw tyw tw bs sbs SU d ty t U) as ((TB & FIN & [d0 SD] & Hps & Hh) & _).
  rewrite (user_rows d ty t c R U). apply (shown ps h d0 d ty t Hps TB FIN SD p c R). apply (user_holds d ty t p c U). exact H.
Qed.
Lemma user_step d ty t p R op : user d ty t -> shows_rows p R -> table_allowed h t op ->
  exists r p' R', run_table ps d t op p = Ok (r, p') /\ shows_rows p' R' /\ row_effect t op R r R'.
Proof.
  intros U (c & H & F2) A. destruct (user_setup ps h dw tyw tw bs sbs SU d ty t U) as ((TB & FIN & [d0 SD] & Hps & Hh) & _).
  apply (user_holds d ty t p c U) in H. apply (user_rows d ty t c R U) in F2.
  destruct (table_step ps h d0 d ty t Hps Hh TB FIN SD op p c R H A F2) as (r & p' & c' & R' & E & H' & F' & RE).
  exists r, p', R'. split; [exact E|]. split; [|exact RE]. exists c'. split; [apply (user_holds d ty t p' c' U); exact H'|apply (user_rows d ty t c' R' U); exact F'].
Qed.
Lemma shared_shows p : shared p -> exists R, shows_rows p R.
Proof.
  induction 1 as [d ty t p0 p U L E|d ty t p op r p' S1 [R IH] U A E].
  - destruct (user_setup ps h dw tyw tw bs sbs SU d ty t U) as ((TB & FIN & [d0 SD] & Hps & Hh) & _).
    destruct (table_holds ps h d0 d ty t Hps Hh TB FIN SD p (table_init ps h d t p0 p L E)) as (c & R & H & F2).
    exists R, c. split; [apply (user_holds d ty t p c U); exact H|apply (user_rows d ty t c R U); exact F2].
  - destruct (user_step d ty t p R op U IH A) as (r1 & p1 & R1 & E1 & S2 & _). rewrite E in E1. injection E1 as <- <-. exists R1. exact S2.
Qed.
End Pages.

(** types with the same description have the same field names *)
Lemma same_find a b s : same_description true a b -> (forall x, In x s -> b2z x <> 0) -> zlen s < 64 -> find_containee b s = find_containee a s.
Proof.
  intros D NZ L. apply sd_unfold in D. destruct D as [(T & _) K]. unfold find_containee. rewrite <- T. destruct (type a); try reflexivity.
  assert (G : forall l r i, sd_elements true l r -> find_from s r i = find_from s l i); [|apply G; exact K].
  clear - NZ L. intros l r i K. revert i. induction K as [|[p x] [q y] l r [N _] K IH]; intro i; [reflexivity|]. cbn [fst] in N. cbn [find_from].
  destruct (same_string_spec 64 s (field_name p) NZ ltac:(lia)) as (u & -> & B1). destruct (same_string_spec 64 s (field_name q) NZ ltac:(lia)) as (v & -> & B2). cbn [bind].
  fold (c_string (field_name p)) in B1. fold (c_string (field_name q)) in B2. rewrite <- (N eq_refl) in B2.
  assert (u = v) as -> by (destruct u, v; intuition congruence). destruct v; [reflexivity|]. apply IH.
Qed.
