(** * Comparison of type descriptions, and reading data with identical types *)
From Verif Require Export DeserFacts TupleSpec.
From Coq Require Import ZifyBool ZifyNat ZifyN Zify.
Ltac Zify.zify_post_hook ::= Z.div_mod_to_equations.

(** ** names *)
Lemma same_name_spec k : forall a b, let s := until_zero (firstn k a) in let t := until_zero (firstn k b) in
  zlen s < Z.of_nat k -> exists r, same_name k a b = Ok r /\ (r = true <-> s = t).
Proof.
  induction k as [|k IH]; intros a b s t L; [subst s; cbn in L; lia|]. cbn [same_name].
  assert (Z0 : b2z Byte.x00 = 0) by reflexivity.
  assert (E : forall l, until_zero (firstn (S k) l) = if b2z (hd Byte.x00 l) =? 0 then [] else hd Byte.x00 l :: until_zero (firstn k (tl l))).
  { intros [|x l]; cbn [firstn until_zero hd tl]; [reflexivity|]. destruct (b2z x =? 0); reflexivity. }
  subst s t. rewrite E in L. rewrite !E.
  destruct (b2z (hd Byte.x00 a) =? b2z (hd Byte.x00 b)) eqn:Q; cbn [negb].
  - assert (Q' : hd Byte.x00 a = hd Byte.x00 b) by (apply b2z_inj; lia). rewrite <- Q'.
    destruct (b2z (hd Byte.x00 a) =? 0) eqn:N; [exists true; tauto|]. rewrite zlen_cons in L.
    destruct (IH (tl a) (tl b)) as (r & Er & Ir); [lia|]. exists r. split; [exact Er|]. rewrite Ir. split; [intros ->; reflexivity|intro H; injection H as ->; reflexivity].
  - exists false. split; [reflexivity|]. split; [discriminate|]. intro H. exfalso.
    destruct (b2z (hd Byte.x00 a) =? 0) eqn:N1, (b2z (hd Byte.x00 b) =? 0) eqn:N2; try discriminate; [lia|]. injection H as H _. rewrite H in Q. lia.
Qed.

Lemma sn_all (cs : list (position * dti)) : (fix all (cs : list (position * dti)) : Prop :=
                   match cs with [] => True | (_, c) :: cs' => short_names c /\ all cs' end) cs
  <-> (forall p c, In (p, c) cs -> short_names c).
Proof.
  induction cs as [|[q c] cs IH]; split.
  - intros _ p c [].
  - trivial.
  - intros [A B] p c' [E|I]; [injection E as _ <-; exact A | exact (proj1 IH B p c' I)].
  - intros A. split; [eapply A; left; reflexivity | apply IH; intros; eapply A; right; eassumption].
Qed.
Lemma sn_unfold t : short_names t <-> zlen (c_string (type_name t)) < 64
  /\ match type t with
     | TUPLE => forall p c, In (p, c) (containees t) -> short_names c
     | ARRAY => forall c, containee_ t = Some c -> short_names c
     | _ => True
     end.
Proof.
  destruct t as [fn tn ty nu vs sz ms hv ec pb ce cs]. cbn [short_names type type_name containees containee_].
  destruct ty; try rewrite sn_all; try tauto.
  destruct ce as [c|]; split; intros [A B]; (split; [exact A|]); auto; intros; congruence.
Qed.

(** ** what finalized types of the same description share *)
Lemma sd_weaken a : forall b, same_description true a b -> same_description false a b.
Proof.
  induction a as [a IHc IHs] using dti_induction. intros b H. apply sd_unfold in H. destruct H as [A K]. apply sd_unfold. split; [exact A|].
  destruct (type a) eqn:T; auto.
  - clear - K IHs. induction K as [|[p x] [q y] l r [B C] F IH]; constructor.
    + split; [discriminate|]. eapply IHs; [left; reflexivity|exact C].
    + apply IH. intros; eapply IHs; [right|]; eassumption.
  - destruct K as (K1 & K2 & x & y & Ea & Eb & K3). split; [exact K1|]. split; [exact K2|]. exists x, y. eauto.
Qed.
Definition shares (a b : dti) : Prop :=
  type a = type b /\ is_variable_sized_ a = is_variable_sized_ b /\ size a = size b
  /\ needs_is_valid_bit a = needs_is_valid_bit b /\ is_nullable_type_info a = is_nullable_type_info b
  /\ (is_variable_sized_ a = true -> max_size a = max_size b).
Lemma sd_shares f a b : wf a -> wf b -> same_description f a b -> shares a b.
Proof.
  intros Wa Wb D. destruct (sd_sizes f a b D) as [TS _]. destruct (wf_spec a Wa) as [Va Sa]. destruct (wf_spec b Wb) as [Vb Sb].
  apply sd_unfold in D. destruct D as [(T & NM & V & M) _]. unfold shares, needs_is_valid_bit, is_nullable_type_info, is_variable_sized_type_info in *. rewrite Va in *. rewrite Vb in V. rewrite <- V.
  destruct (is_variable_sized_ a); [|rewrite M]; repeat split; auto; try congruence; discriminate.
Qed.

(** ** [are_identical_type_info] *)
Definition ident_loop := (fix all (l : list (position * dti)) (r : list (position * dti)) : res bool :=
               match l, r with
               | (_, x) :: l', (_, y) :: r' =>
                   let* i := are_identical x y in
                   if negb i then Ok false else all l' r'
               | _, _ => Ok true
               end).
Lemma data_type_eqb_spec a b : data_type_eqb a b = true <-> a = b.
Proof. destruct a, b; cbn; split; congruence. Qed.
Lemma are_identical_unfold a b : are_identical a b =
  if negb (data_type_eqb (type a) (type b)) then Ok false
  else
    let* names := same_name 64 (type_name a) (type_name b) in
    if negb names then Ok false
    else if negb (eqb (is_variable_sized_type_info a) (is_variable_sized_type_info b)) then Ok false
    else if (if negb (is_variable_sized_type_info a)
             then negb (eqb (is_nullable a) (is_nullable b)) || negb (size a =? size b)
             else negb (max_size a =? max_size b)) then Ok false
    else
      match type a with
      | TUPLE =>
          if negb (element_count a =? element_count b) then Ok false else ident_loop (containees a) (containees b)
      | ARRAY =>
          if negb (eqb (has_variable_element_count a) (has_variable_element_count b)) then Ok false
          else if negb (has_variable_element_count a) && negb (element_count_ a =? element_count_ b) then Ok false
          else
            match containee_ a, containee_ b with
            | Some x, Some y => are_identical x y
            | _, _ => UB
            end
      | _ => Ok true
      end.
Proof. destruct a as [fn tn ty nu vs sz ms hv ec pb ce cs]. reflexivity. Qed.

Theorem are_identical_spec a : forall b, wf a -> wf b -> short_names a -> exists r, are_identical a b = Ok r /\ (r = true <-> same_description false a b).
Proof.
  induction a as [a IHc IHs] using dti_induction. intros b Wa Wb SN. rewrite are_identical_unfold.
  pose proof (sd_shares false a b Wa Wb) as SH. destruct (wf_spec a Wa) as [Va Sa]. destruct (wf_spec b Wb) as [Vb Sb].
  apply sn_unfold in SN. destruct SN as [SN SNc].
  destruct (data_type_eqb (type a) (type b)) eqn:T.
  2: { exists false. split; [reflexivity|]. split; [discriminate|]. intro D. destruct (SH D) as (E & _). apply data_type_eqb_spec in E. congruence. }
  apply data_type_eqb_spec in T. cbn [negb].
  destruct (same_name_spec 64 (type_name a) (type_name b) SN) as (r & -> & R). fold (c_string (type_name a)) (c_string (type_name b)) in R. cbn [bind].
  destruct r.
  2: { exists false. split; [reflexivity|]. split; [discriminate|]. intro D. apply sd_unfold in D. destruct D as ((_ & E & _) & _). apply R in E. discriminate. }
  cbn [negb]. apply proj1 in R. specialize (R eq_refl). unfold is_variable_sized_type_info.
  destruct (eqb (is_variable_sized_ a) (is_variable_sized_ b)) eqn:V.
  2: { exists false. split; [reflexivity|]. split; [discriminate|]. intro D. destruct (SH D) as (_ & E & _). apply eqb_false_iff in V. congruence. }
  apply eqb_prop in V. cbn [negb].
  destruct (if negb (is_variable_sized_ a) then negb (eqb (is_nullable a) (is_nullable b)) || negb (size a =? size b) else negb (max_size a =? max_size b)) eqn:M.
  { exists false. split; [reflexivity|]. split; [discriminate|]. intro D. destruct (SH D) as (_ & _ & E & _). apply sd_unfold in D. destruct D as ((_ & _ & _ & D) & _). rewrite Va in D.
    exfalso. destruct (is_variable_sized_ a); cbn [negb] in M; [lia|]. rewrite D, eqb_reflx in M. cbn [negb orb] in M. lia. }
  assert (ND : sd_node false a b).
  { unfold sd_node. rewrite Va, Vb. split; [exact T|]. split; [exact R|]. split; [exact V|]. destruct (is_variable_sized_ a); cbn [negb] in M; [lia|].
    apply orb_false_iff in M. destruct M as [M _]. apply negb_false_iff in M. apply eqb_prop in M. exact M. }
  assert (SZ : is_variable_sized_ a = false -> size a = size b).
  { intro E. rewrite E in M. cbn [negb] in M. apply orb_false_iff in M. destruct M as [_ M]. lia. }
  pose proof (wf_node a Wa) as Na. pose proof (wf_node b Wb) as Nb. destruct Na as (_ & _ & _ & _ & _ & _ & Na). destruct Nb as (_ & _ & _ & _ & _ & _ & Nb).
  rewrite <- T in Nb. apply wf_unfold in Wa. destruct Wa as [_ Wa]. apply wf_unfold in Wb. destruct Wb as [_ Wb]. rewrite <- T in Wb.
  destruct (type a) eqn:Ta.
  1-6: (exists true; split; [reflexivity|]; split; [intros _|auto]; apply sd_unfold; rewrite Ta; split; [exact ND|]; apply SZ; tauto).
  1-2: (exists true; split; [reflexivity|]; split; [intros _|auto]; apply sd_unfold; rewrite Ta; split; [exact ND|]; rewrite Va; intro E;
    destruct Na as (A1 & _ & _ & A2 & _); destruct Nb as (B1 & _ & _ & B2 & _); rewrite <- A1, E in A2; rewrite <- B1, <- V, E in B2; rewrite <- A2, <- B2; auto).
  - unfold element_count. rewrite Ta, <- T.
    assert (G : forall l r, (forall p c, In (p, c) l -> In (p, c) (containees a)) -> (forall p c, In (p, c) r -> In (p, c) (containees b)) -> zlen l = zlen r ->
              exists q, ident_loop l r = Ok q /\ (q = true <-> sd_elements false l r)).
    { induction l as [|[p x] l IH]; intros [|[p' y] r'] Il Ir Z0; rewrite ?zlen_cons, ?zlen_nil in *; try (pose proof (zlen_nonneg l); lia); try (pose proof (zlen_nonneg r'); lia).
      - exists true. split; [reflexivity|]. split; [constructor|auto].
      - change (ident_loop ((p, x) :: l) ((p', y) :: r')) with (let* i := are_identical x y in if negb i then Ok false else ident_loop l r').
        destruct (IHs p x (Il _ _ (or_introl eq_refl)) y) as (q & Eq & Iq); [eapply Wa; eapply Il; left; reflexivity|eapply Wb; eapply Ir; left; reflexivity|eapply SNc; eapply Il; left; reflexivity|].
        rewrite Eq. cbn [bind]. destruct q; cbn [negb].
        + destruct (IH r') as (q & Eq' & Iq'); [intros; apply Il; right; assumption|intros; apply Ir; right; assumption|lia|].
          exists q. split; [exact Eq'|]. rewrite Iq'. split; [intro D; constructor; [split; [discriminate|apply Iq; reflexivity]|exact D]|intro D; inversion D; assumption].
        + exists false. split; [reflexivity|]. split; [discriminate|]. intro D. inversion D as [|? ? ? ? [_ D1]]. cbn [snd] in D1. apply Iq in D1. discriminate. }
    destruct (zlen (containees a) =? zlen (containees b)) eqn:Z0; cbn [negb].
    + destruct (G (containees a) (containees b)) as (q & Eq & Iq); auto; [lia|]. exists q. split; [exact Eq|]. rewrite Iq, (sd_unfold false a b), Ta. tauto.
    + exists false. split; [reflexivity|]. split; [discriminate|]. intro D. apply sd_unfold in D. rewrite Ta in D. destruct D as [_ D]. apply Forall2_len in D. unfold zlen in Z0. lia.
  - destruct Na as (x & Ex & A1 & A2 & _). destruct Nb as (y & Ey & B1 & B2 & _). rewrite Ex, Ey.
    destruct (eqb (has_variable_element_count a) (has_variable_element_count b)) eqn:HV; cbn [negb].
    2: { exists false. split; [reflexivity|]. split; [discriminate|]. intro D. apply sd_unfold in D. rewrite Ta in D. destruct D as (_ & E & _). apply eqb_false_iff in HV. congruence. }
    apply eqb_prop in HV.
    destruct (negb (has_variable_element_count a) && negb (element_count_ a =? element_count_ b)) eqn:C.
    { exists false. split; [reflexivity|]. split; [discriminate|]. intro D. apply sd_unfold in D. rewrite Ta in D. destruct D as (_ & _ & E & _).
      apply andb_true_iff in C. destruct C as [C1 C2]. apply negb_true_iff in C1. specialize (E C1). lia. }
    destruct (IHc x Ex y (Wa x Ex) (Wb y Ey) (SNc x Ex)) as (q & Eq & Iq). exists q. split; [exact Eq|]. rewrite Iq, (sd_unfold false a b), Ta. split.
    + intro D. split; [exact ND|]. split; [exact HV|]. split; [intro E; rewrite E in C; cbn [negb andb] in C; lia|]. exists x, y. auto.
    + intros (_ & _ & _ & x' & y' & Ex' & Ey' & D). congruence.
Qed.

(** ** reading with types of the same description *)
Definition alike (a b : dti) : Prop := wf a /\ wf b /\ same_description false a b.
Definition pos_alike (p q : pinfo) : Prop :=
  pi_off p = pi_off q /\ (needs_is_valid_bit (pi_type p) = true -> pi_valid p = pi_valid q) /\ alike (pi_type p) (pi_type q).
Lemma alike_shares a b : alike a b -> shares a b.
Proof. intros (Wa & Wb & D). exact (sd_shares _ _ _ Wa Wb D). Qed.
Lemma alike_refl a : wf a -> alike a a.
Proof. intro W. split; [exact W|]. split; [exact W|]. apply wf_sd_refl. exact W. Qed.
Lemma alike_array a b : alike a b -> type a = ARRAY -> alike (containee a) (containee b) /\ has_variable_element_count a = has_variable_element_count b
  /\ (has_variable_element_count a = false -> element_count_ a = element_count_ b)
  /\ (is_variable_sized_ (containee a) = true -> is_variable_sized_ a = true) /\ (has_variable_element_count a = true -> is_variable_sized_ a = true).
Proof.
  intros (Wa & Wb & D) T. pose proof (wf_node a Wa) as Na. destruct Na as (_ & _ & _ & _ & _ & _ & Na). rewrite T in Na. destruct Na as (x & Ex & A & _).
  apply wf_unfold in Wa. destruct Wa as [_ Wa]. apply wf_unfold in Wb. destruct Wb as [_ Wb].
  apply sd_unfold in D. destruct D as [(T' & _) D]. rewrite <- T', T in Wb. rewrite T in D, Wa. destruct D as (K1 & K2 & x' & y & Ex' & Ey & K3). unfold containee. rewrite Ex, Ey.
  rewrite Ex in Ex'. injection Ex' as <-. split; [split; [apply Wa; exact Ex|split; [apply Wb; exact Ey|exact K3]]|]. split; [exact K1|]. split; [exact K2|].
  rewrite A. split; [intros ->; destruct (has_variable_element_count a); reflexivity|intros ->; reflexivity].
Qed.
Lemma alike_flags a b : alike a b -> is_container_type_info a = is_container_type_info b /\ is_variable_element_count a = is_variable_element_count b
  /\ has_size_in_prefix a = has_size_in_prefix b /\ offset_of_prefix_count a = offset_of_prefix_count b /\ offset_of_prefix_bitmap a = offset_of_prefix_bitmap b
  /\ (is_variable_element_count a = true -> max_size a = max_size b).
Proof.
  intro A. destruct (alike_shares a b A) as (T & V & Sz & NB & NU & MS).
  assert (C : is_container_type_info a = is_container_type_info b) by (unfold is_container_type_info; rewrite T; reflexivity).
  assert (E : is_variable_element_count a = is_variable_element_count b).
  { unfold is_variable_element_count, is_variable_sized_type_info, is_container_type_info. rewrite <- V, <- T. destruct (type a) eqn:Ta; try reflexivity. rewrite (proj1 (proj2 (alike_array a b A Ta))). reflexivity. }
  assert (Hs : has_size_in_prefix a = has_size_in_prefix b).
  { unfold has_size_in_prefix, is_variable_sized_type_info, is_container_type_info. rewrite <- V, <- T. destruct (type a) eqn:Ta; try reflexivity.
    destruct (alike_shares _ _ (proj1 (alike_array a b A Ta))) as (_ & -> & _). reflexivity. }
  assert (VV : is_variable_element_count a = true -> max_size a = max_size b).
  { intro X. apply MS. unfold is_variable_element_count, is_variable_sized_type_info in X. destruct (is_container_type_info a); [|discriminate]. destruct (is_variable_sized_ a); [reflexivity|discriminate]. }
  assert (HH : has_size_in_prefix a = true -> max_size a = max_size b).
  { intro X. apply MS. unfold has_size_in_prefix, is_variable_sized_type_info in X. destruct (is_container_type_info a); [|discriminate]. destruct (is_variable_sized_ a); [reflexivity|discriminate]. }
  assert (O1 : offset_of_prefix_count a = offset_of_prefix_count b).
  { unfold offset_of_prefix_count, bytes_for_prefix_size. rewrite <- Hs. destruct (has_size_in_prefix a); cbn [b2n]; [rewrite HH by reflexivity|]; lia. }
  split; [exact C|]. split; [exact E|]. split; [exact Hs|]. split; [exact O1|]. split; [|exact VV].
  unfold offset_of_prefix_bitmap, bytes_for_prefix_count, has_element_count_in_prefix. rewrite <- O1, <- E. destruct (is_variable_element_count a); cbn [b2n]; [rewrite VV by reflexivity|]; lia.
Qed.
Lemma alike_count a b m o : alike a b -> get_element_count a m o = get_element_count b m o.
Proof.
  intro A. destruct (alike_shares a b A) as (T & V & Sz & NB & NU & MS). destruct (alike_flags a b A) as (C & E & Hs & O1 & O2 & VV).
  unfold get_element_count. rewrite <- C, <- E. destruct (is_container_type_info a) eqn:Ca; [|reflexivity]. cbn [negb].
  destruct (is_variable_element_count a) eqn:Ea; cbn [negb]; [rewrite O1, VV by reflexivity; reflexivity|].
  destruct A as (Wa & Wb & D). pose proof (wf_node a Wa) as Na. pose proof (wf_node b Wb) as Nb. destruct Na as (_ & _ & _ & _ & _ & _ & Na). destruct Nb as (_ & _ & _ & _ & _ & _ & Nb). rewrite <- T in Nb.
  unfold element_count. rewrite <- T. unfold is_container_type_info in Ca. unfold is_variable_element_count, is_container_type_info, is_variable_sized_type_info in Ea. rewrite Ca in Ea. cbn [negb] in Ea.
  apply sd_unfold in D. destruct D as [_ D]. destruct (type a) eqn:Ta; try discriminate.
  - destruct (wf_spec a Wa) as [Va _]. rewrite Va in D. destruct (is_variable_sized_ a); cbn [negb] in Ea; [discriminate|]. rewrite D; reflexivity.
  - destruct (wf_spec a Wa) as [Va _]. rewrite Va in D. destruct (is_variable_sized_ a); cbn [negb] in Ea; [discriminate|]. rewrite D; reflexivity.
  - apply Forall2_len in D. unfold zlen. rewrite D. reflexivity.
  - destruct D as (_ & K2 & _). destruct Na as (x & Ex & A1 & _). rewrite K2; [reflexivity|]. destruct (has_variable_element_count a); [|reflexivity]. rewrite A1 in Ea. cbn in Ea. discriminate.
Qed.
Lemma alike_size a b m o : alike a b -> get_size a m o = get_size b m o.
Proof.
  intro A. destruct (alike_shares a b A) as (T & V & Sz & NB & NU & MS). destruct (alike_flags a b A) as (C & E & Hs & O1 & O2 & VV).
  unfold get_size, is_variable_sized_type_info. rewrite <- T, <- V, <- Sz, <- Hs, <- O1.
  assert (X : is_variable_sized_ a = true -> has_size_in_prefix a = false -> shares (containee a) (containee b)).
  { intros X Y. destruct A as (Wa & Wb & D). unfold has_size_in_prefix, is_container_type_info, is_variable_sized_type_info in Y. rewrite X in Y.
    pose proof (wf_node a Wa) as Na. pose proof (wf_node b Wb) as Nb. destruct Na as (_ & _ & _ & _ & _ & _ & Na). destruct Nb as (_ & _ & _ & _ & _ & _ & Nb). rewrite <- T in Nb.
    destruct (type a) eqn:Ta; try (destruct Na; congruence); cbn in Y; try discriminate.
    - destruct Na as (_ & _ & Ea & _). destruct Nb as (_ & _ & Eb & _). unfold containee. rewrite Ea, Eb. repeat split; reflexivity.
    - destruct Na as (_ & _ & Ea & _). destruct Nb as (_ & _ & Eb & _). unfold containee. rewrite Ea, Eb. repeat split; reflexivity.
    - apply alike_shares. apply alike_array; [split; [exact Wa|split; [exact Wb|exact D]]|exact Ta]. }
  destruct (is_variable_sized_ a); cbn [negb]; [|destruct (type a); reflexivity]. rewrite <- (MS eq_refl).
  destruct (has_size_in_prefix a); [destruct (type a); reflexivity|]. destruct (X eq_refl eq_refl) as (T' & _ & Sz' & NB' & _). rewrite <- T', <- Sz', <- NB'. destruct (type a); reflexivity.
Qed.
Lemma lay_alike ms ms' l r : sd_elements false l r -> (forall p c, In (p, c) l -> wf c) -> (forall p c, In (p, c) r -> wf c) ->
  (existsb (fun pc => is_variable_sized_ (snd pc)) l = true -> ms = ms') -> forall b o, lay ms l b o -> lay ms' r b o ->
  Forall2 (fun x y => pos_alike (mk_pinfo (p_off (fst x)) (p_valid (fst x)) (snd x)) (mk_pinfo (p_off (fst y)) (p_valid (fst y)) (snd y))) l r.
Proof.
  induction 1 as [|[p x] [q y] l r [_ A] F IH]; intros W1 W2 M b o L1 L2; [constructor|]. cbn [fst snd] in *.
  pose proof (W1 p x (or_introl eq_refl)) as Wx. pose proof (W2 q y (or_introl eq_refl)) as Wy.
  destruct (sd_shares _ _ _ Wx Wy A) as (T & V & Sz & NB & NU & MS). cbn [lay] in L1, L2. destruct L1 as (A1 & A2 & A3 & A4). destruct L2 as (B1 & B2 & B3 & B4).
  assert (Bf : is_bit_field x = is_bit_field y) by (unfold is_bit_field; rewrite T; reflexivity).
  constructor.
  - split; [|split; [|split; [exact Wx|split; [exact Wy|exact A]]]]; cbn [pi_off pi_valid pi_type fst snd].
    + rewrite <- Bf in B2, B3. destruct (is_bit_field x); [rewrite A2, B2, NB by reflexivity|rewrite A3, B3 by reflexivity]; reflexivity.
    + intro E. rewrite A1, B1 by (rewrite <- ?NB; exact E). reflexivity.
  - eapply IH; [intros; eapply W1; right; eassumption|intros; eapply W2; right; eassumption|intro E; apply M; cbn [existsb snd]; rewrite E; apply orb_true_r|exact A4|].
    replace (b + ebits x) with (b + ebits y) by (unfold ebits; rewrite NB, Bf, Sz; reflexivity).
    replace (o + eslot ms x) with (o + eslot ms' y); [exact B4|]. f_equal. unfold eslot, is_variable_sized_type_info. rewrite <- Bf, <- V, <- Sz. destruct (is_bit_field x); [reflexivity|].
    cbn [existsb snd] in M. destruct (is_variable_sized_ x); [|reflexivity]. rewrite M by reflexivity. reflexivity.
Qed.
Lemma fixed_array_or_not a : type a = TUPLE \/ type a <> TUPLE.
Proof. destruct (type a); auto; right; discriminate. Qed.
Lemma alike_elements a b : alike a b -> type a = TUPLE ->
  Forall2 (fun x y => pos_alike (mk_pinfo (p_off (fst x)) (p_valid (fst x)) (snd x)) (mk_pinfo (p_off (fst y)) (p_valid (fst y)) (snd y))) (containees a) (containees b)
  /\ prefix_bitmap_size_in_bits a = prefix_bitmap_size_in_bits b.
Proof.
  intros A Ta. destruct (alike_shares a b A) as (T & V & Sz & NB & NU & MS). destruct A as (Wa & Wb & D).
  pose proof (wf_node a Wa) as Na. pose proof (wf_node b Wb) as Nb. destruct Na as (_ & _ & _ & _ & _ & _ & Na). destruct Nb as (_ & _ & _ & _ & _ & _ & Nb). rewrite <- T in Nb.
  apply wf_unfold in Wa. destruct Wa as [_ Wa]. apply wf_unfold in Wb. destruct Wb as [_ Wb]. rewrite <- T in Wb. rewrite Ta in *.
  apply sd_unfold in D. destruct D as [_ D]. rewrite Ta in D.
  destruct Na as (_ & _ & A1 & A2 & _ & A3). destruct Nb as (_ & _ & B1 & B2 & _ & B3).
  assert (SB : sum_bits (containees a) = sum_bits (containees b)).
  { clear - D Wa Wb. induction D as [|[p x] [q y] l r [_ A] F IH]; [reflexivity|]. cbn [sum_bits snd] in *. rewrite IH; [|intros; eapply Wa; right; eassumption|intros; eapply Wb; right; eassumption].
    destruct (sd_shares _ _ _ (Wa p x (or_introl eq_refl)) (Wb q y (or_introl eq_refl)) A) as (T & V & Sz & NB & _). unfold ebits, is_bit_field. rewrite NB, T, Sz. reflexivity. }
  split; [|congruence]. rewrite <- SB, <- V in B3. 
  assert (M : (if is_variable_sized_ a then value_size (max_size b) else 0) = (if is_variable_sized_ a then value_size (max_size a) else 0)).
  { destruct (is_variable_sized_ a); [rewrite MS by reflexivity|]; reflexivity. }
  rewrite M in B3. eapply lay_alike; [exact D|exact Wa|exact Wb| |exact A3|exact B3]. intro E. apply MS. rewrite A1. exact E.
Qed.
Lemma alike_bitmap a b m o : alike a b -> prefix_bitmap_bits a m o = prefix_bitmap_bits b m o.
Proof.
  intro A. pose proof (alike_count a b m o A) as EC. destruct (alike_shares a b A) as (T & V & Sz & NB & NU & MS).
  unfold prefix_bitmap_bits, is_container_type_info. rewrite <- EC, <- T. destruct (type a) eqn:Ta; try reflexivity.
  - cbn. rewrite (proj2 (alike_elements a b A Ta)). reflexivity.
  - destruct (alike_shares _ _ (proj1 (alike_array a b A Ta))) as (T' & _ & Sz' & NB' & _). rewrite <- T', <- Sz', <- NB'. reflexivity.
Qed.
Lemma F2_nth {A B} (R : A -> B -> Prop) l r k : Forall2 R l r -> match nth_error l k, nth_error r k with Some x, Some y => R x y | None, None => True | _, _ => False end.
Proof. intro F. revert k. induction F as [|x y l r H F IH]; intros [|k]; cbn; auto. apply IH. Qed.
Definition res_rel {A B} (R : A -> B -> Prop) (x : res A) (y : res B) : Prop := match x, y with Ok a, Ok b => R a b | UB, UB => True | _, _ => False end.
Lemma alike_pos a b m o i : alike a b -> is_container_type_info a = true -> res_rel pos_alike (get_pos a m o i) (get_pos b m o i).
Proof.
  intros A Ca. pose proof (alike_bitmap a b m o A) as EB. destruct (alike_shares a b A) as (T & V & Sz & NB & NU & MS). destruct (alike_flags a b A) as (C & E & Hs & O1 & O2 & VV).
  unfold get_pos. rewrite <- EB, <- T, <- O2. unfold is_container_type_info in Ca.
  destruct (type a) eqn:Ta; try discriminate.
  - destruct (prefix_bitmap_bits a m o) as [bits|]; [|exact I]. cbn. split; [reflexivity|]. split; [reflexivity|]. apply alike_refl, uint8_wf.
  - destruct (prefix_bitmap_bits a m o) as [bits|]; [|exact I]. cbn. split; [reflexivity|]. split; [reflexivity|]. apply alike_refl, uint8_wf.
  - pose proof (F2_nth _ _ _ (Z.to_nat i) (proj1 (alike_elements a b A Ta))) as N.
    destruct (nth_error (containees a) (Z.to_nat i)) as [[p x]|], (nth_error (containees b) (Z.to_nat i)) as [[q y]|]; try contradiction; [exact N|exact I].
  - destruct (alike_array a b A Ta) as (AL & HV & EC & XV & YV). destruct (alike_shares _ _ AL) as (T' & V' & Sz' & NB' & _).
    destruct (prefix_bitmap_bits a m o) as [bits|]; [|exact I]. cbn [bind]. unfold is_variable_sized_type_info. rewrite <- T', <- V', <- Sz', <- NB'.
    destruct (type (containee a)); try (destruct (is_variable_sized_ (containee a)) eqn:VC; cbn [negb]; [rewrite (MS (XV eq_refl))|]); try (destruct (needs_is_valid_bit (containee a))); cbn; repeat split; try reflexivity; try apply AL.
Qed.
Lemma alike_var_child a b p q m o i : alike a b -> get_pos a m o i = Ok p -> get_pos b m o i = Ok q -> is_container_type_info a = true -> is_variable_sized_ (pi_type p) = true -> max_size a = max_size b.
Proof.
  intros A G _ Ca VP. destruct (alike_shares a b A) as (T & V & Sz & NB & NU & MS). apply MS. unfold get_pos in G. unfold is_container_type_info in Ca.
  destruct (type a) eqn:Ta; try discriminate.
  - destruct (prefix_bitmap_bits a m o); [|discriminate]. cbn in G. injection G as <-. discriminate.
  - destruct (prefix_bitmap_bits a m o); [|discriminate]. cbn in G. injection G as <-. discriminate.
  - destruct (nth_error (containees a) (Z.to_nat i)) as [[pp x]|] eqn:N; [|discriminate]. injection G as <-. cbn [pi_type] in VP.
    destruct A as (Wa & _). apply wf_node in Wa. destruct Wa as (_ & _ & _ & _ & _ & _ & Na). rewrite Ta in Na. destruct Na as (_ & _ & -> & _). apply existsb_exists. exists (pp, x). split; [eapply nth_error_In; exact N|exact VP].
  - destruct (alike_array a b A Ta) as (AL & HV & EC & XV & YV). apply XV. destruct (prefix_bitmap_bits a m o); [|discriminate]. cbn [bind] in G.
    destruct (type (containee a)); try (destruct (is_variable_sized_type_info (containee a)); cbn [negb] in G); try (destruct (needs_is_valid_bit (containee a))); injection G as <-; exact VP.
Qed.
Lemma alike_ptr a b p q m o : alike a b -> pos_alike p q -> (is_variable_sized_ (pi_type p) = true -> max_size a = max_size b) -> get_ptr a m o p = get_ptr b m o q.
Proof.
  intros A (P1 & P2 & P3) MX. destruct (alike_flags a b A) as (C & E & Hs & O1 & O2 & VV). destruct (alike_shares _ _ P3) as (T' & V' & Sz' & NB' & _).
  unfold get_ptr, is_variable_sized_type_info. rewrite <- NB', <- T', <- V', <- O2, <- P1.
  assert (X : (if needs_is_valid_bit (pi_type p) then let* b0 := get_bit m (o + offset_of_prefix_bitmap a) (pi_valid q) in Ok (negb b0) else Ok false)
            = (if needs_is_valid_bit (pi_type p) then let* b0 := get_bit m (o + offset_of_prefix_bitmap a) (pi_valid p) in Ok (negb b0) else Ok false)).
  { destruct (needs_is_valid_bit (pi_type p)); [rewrite P2 by reflexivity|]; reflexivity. }
  rewrite X. destruct (is_variable_sized_ (pi_type p)); [rewrite MX by reflexivity|]; reflexivity.
Qed.
Lemma alike_datum a b m o : alike a b -> get_datum a m o = get_datum b m o.
Proof.
  intro A. destruct (alike_flags a b A) as (C & E & Hs & O1 & O2 & VV). destruct (alike_shares _ _ A) as (T' & V' & Sz' & NB' & _).
  unfold get_datum. rewrite <- T', <- Sz', <- O2, <- (alike_count a b m o A). reflexivity.
Qed.
Definition child_alike (x y : option (option (dti * Z))) : Prop :=
  match x, y with
  | None, None | Some None, Some None => True
  | Some (Some (t, a)), Some (Some (t', a')) => alike t t' /\ a = a'
  | _, _ => False
  end.
Lemma alike_child a b m o i : alike a b -> res_rel child_alike (child a m o i) (child b m o i).
Proof.
  intro A. destruct (alike_flags a b A) as (C & _). unfold child. rewrite <- C, <- (alike_count a b m o A). destruct (is_container_type_info a) eqn:Ca; [|exact I]. cbn [negb].
  destruct (get_element_count a m o) as [n|]; [|exact I]. cbn [bind]. destruct (n <=? i); [exact I|].
  pose proof (alike_pos a b m o i A Ca) as P. destruct (get_pos a m o i) as [p|] eqn:Ep, (get_pos b m o i) as [q|] eqn:Eq; try contradiction; [|exact I]. cbn [bind res_rel] in *.
  rewrite <- (alike_ptr a b p q m o A P (alike_var_child a b p q m o i A Ep Eq Ca)). destruct (get_ptr a m o p) as [[x|]|]; cbn; auto. split; [apply P|reflexivity].
Qed.
Lemma alike_containee a b m o i : alike a b -> get_containee_datum a m o i = get_containee_datum b m o i.
Proof.
  intro A. destruct (alike_flags a b A) as (C & _). unfold get_containee_datum. rewrite <- C, <- (alike_count a b m o A). destruct (is_container_type_info a) eqn:Ca; [|reflexivity]. cbn [negb].
  destruct (get_element_count a m o) as [n|]; [|reflexivity]. cbn [bind]. destruct (n <=? i); [reflexivity|].
  pose proof (alike_pos a b m o i A Ca) as P. destruct (get_pos a m o i) as [p|] eqn:Ep, (get_pos b m o i) as [q|] eqn:Eq; try contradiction; [|reflexivity]. cbn [bind res_rel] in *.
  rewrite <- (alike_ptr a b p q m o A P (alike_var_child a b p q m o i A Ep Eq Ca)). destruct (get_ptr a m o p) as [[x|]|]; cbn [bind]; try reflexivity.
  destruct P as (P1 & _ & P3). rewrite (alike_datum _ _ m x P3). destruct (alike_shares _ _ P3) as (T' & V' & Sz' & NB' & _). rewrite <- T', <- Sz', <- P1. reflexivity.
Qed.
Lemma alike_value pa : forall a b m o, alike a b -> get_value a pa m o = get_value b pa m o.
Proof.
  induction pa as [|i pa IH]; intros a b m o A; [apply alike_datum; exact A|]. destruct pa as [|j pa]; [apply alike_containee; exact A|].
  change (get_value a (i :: j :: pa) m o) with (let* c := child a m o i in match c with None => Ok None | Some None => Ok (Some DNull) | Some (Some (t, x)) => get_value t (j :: pa) m x end).
  change (get_value b (i :: j :: pa) m o) with (let* c := child b m o i in match c with None => Ok None | Some None => Ok (Some DNull) | Some (Some (t, x)) => get_value t (j :: pa) m x end).
  pose proof (alike_child a b m o i A) as CH. destruct (child a m o i) as [[[[t x]|]|]|], (child b m o i) as [[[[t' x']|]|]|]; try contradiction; try reflexivity.
  destruct CH as [CH <-]. cbn [bind]. apply IH. exact CH.
Qed.
Lemma alike_count_of pa : forall a b m o, alike a b -> element_count_of a pa m o = element_count_of b pa m o.
Proof.
  induction pa as [|i pa IH]; intros a b m o A; [apply alike_count; exact A|]. cbn [element_count_of].
  pose proof (alike_child a b m o i A) as CH. destruct (child a m o i) as [[[[t x]|]|]|], (child b m o i) as [[[[t' x']|]|]|]; try contradiction; try reflexivity.
  destruct CH as [CH <-]. cbn [bind]. apply IH. exact CH.
Qed.
Definition opt_rel {A B} (R : A -> B -> Prop) (x : option A) (y : option B) : Prop := match x, y with Some a, Some b => R a b | None, None => True | _, _ => False end.
Lemma alike_step a b i : alike a b -> opt_rel alike (containee_type_without_data a i) (containee_type_without_data b i).
Proof.
  intro A. destruct (alike_flags a b A) as (C & E & _). destruct (alike_shares a b A) as (T & _). unfold containee_type_without_data. rewrite <- C, <- E, <- T.
  destruct (is_container_type_info a) eqn:Ca; [|exact I]. cbn [negb].
  assert (EC : is_variable_element_count a = false -> element_count a = element_count b).
  { intro X. pose proof (alike_count a b [] 0 A) as K. unfold get_element_count in K. rewrite <- C, <- E, Ca, X in K. cbn [negb] in K. congruence. }
  destruct (negb (is_variable_element_count a) && (element_count a <=? i)) eqn:Q.
  - apply andb_true_iff in Q. destruct Q as [Q1 Q2]. apply negb_true_iff in Q1. rewrite Q1, <- (EC Q1), Q2. exact I.
  - assert (Q' : negb (is_variable_element_count a) && (element_count b <=? i) = false).
    { destruct (is_variable_element_count a); [reflexivity|]. rewrite <- EC by reflexivity. exact Q. }
    rewrite Q'. destruct (type a) eqn:Ta; try (unfold is_container_type_info in Ca; rewrite Ta in Ca; discriminate); try (apply alike_refl, uint8_wf).
    + pose proof (F2_nth _ _ _ (Z.to_nat i) (proj1 (alike_elements a b A Ta))) as N.
      destruct (nth_error (containees a) (Z.to_nat i)) as [[p x]|], (nth_error (containees b) (Z.to_nat i)) as [[q y]|]; try contradiction; [apply N|exact I].
    + exact (proj1 (alike_array a b A Ta)).
Qed.
Lemma alike_type pa : forall a b, alike a b -> opt_rel alike (get_type_info a pa) (get_type_info b pa).
Proof.
  induction pa as [|i pa IH]; intros a b A; [exact A|]. cbn [get_type_info]. pose proof (alike_step a b i A) as CH.
  destruct (containee_type_without_data a i), (containee_type_without_data b i); try contradiction; [apply IH; exact CH|exact I].
Qed.
Lemma alike_observe a b pa m o : alike a b -> observe a pa m o = observe b pa m o.
Proof.
  intro A. unfold observe. rewrite <- (alike_value pa a b m o A). destruct (get_value a pa m o) as [v|]; [|reflexivity]. cbn [bind].
  pose proof (alike_type pa a b A) as R. destruct v as [v|]; [|reflexivity].
  destruct (get_type_info a pa) as [t|], (get_type_info b pa) as [t'|]; try contradiction; [|reflexivity]. cbn [opt_rel] in R.
  replace (obs_of t' v) with (obs_of t v); [reflexivity|]. unfold obs_of. destruct v; try reflexivity. rewrite (alike_size t t' _ _ R). reflexivity.
Qed.
