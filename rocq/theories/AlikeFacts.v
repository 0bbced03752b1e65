(** * Data of one type is data of every identical type *)
From Verif Require Export DataFacts IdentFacts NestFacts.
From Coq Require Import ZifyBool ZifyNat ZifyN Zify.
Ltac Zify.zify_post_hook ::= Z.div_mod_to_equations.

Lemma alike_bits a b : alike a b -> ebits a = ebits b.
Proof. intro A. destruct (alike_shares a b A) as (T & V & Sz & NB & _). unfold ebits, is_bit_field. rewrite <- T, <- NB, <- Sz. reflexivity. Qed.
Lemma alike_slot a b ms ms' : alike a b -> (is_variable_sized_ a = true -> ms = ms') -> eslot ms a = eslot ms' b.
Proof.
  intros A E. destruct (alike_shares a b A) as (T & V & Sz & NB & _). unfold eslot, is_bit_field, is_variable_sized_type_info. rewrite <- T, <- V, <- Sz.
  destruct (is_variable_sized_ a); [rewrite E by reflexivity|]; reflexivity.
Qed.

Definition el_alike (x y : position * dti) : Prop := pos_alike (mk_pinfo (p_off (fst x)) (p_valid (fst x)) (snd x)) (mk_pinfo (p_off (fst y)) (p_valid (fst y)) (snd y)).
Lemma F2_firstn {A B} (R : A -> B -> Prop) l r k : Forall2 R l r -> Forall2 R (firstn k l) (firstn k r).
Proof. intro F. revert k. induction F as [|x y l r H F IH]; intros [|k]; cbn; constructor; auto. Qed.
Lemma sum_bits_alike l r : Forall2 el_alike l r -> sum_bits l = sum_bits r.
Proof. induction 1 as [|[p x] [q y] l r (_ & _ & A) F IH]; [reflexivity|]. cbn [sum_bits]. cbn in A. rewrite IH, (alike_bits x y A). reflexivity. Qed.
Lemma sum_slots_alike ms ms' l r : Forall2 el_alike l r -> (forall p x, In (p, x) l -> is_variable_sized_ x = true -> ms = ms') -> sum_slots ms l = sum_slots ms' r.
Proof.
  induction 1 as [|[p x] [q y] l r (_ & _ & A) F IH]; intro E; [reflexivity|]. cbn [sum_slots]. cbn in A. rewrite IH by (intros; eapply E; [right|]; eassumption).
  rewrite (alike_slot x y ms ms' A); [reflexivity|]. apply (E p x). left. reflexivity.
Qed.

Section alike.
  Variables (a b : dti).
  Hypothesis (A : alike a b) (C : is_container_type_info a = true).

  Lemma alike_etype i : alike (etype a i) (etype b i).
  Proof.
    destruct (alike_shares a b A) as (T & _). unfold etype. rewrite <- T. unfold is_container_type_info in C. destruct A as (Wa & Wb & _).
    destruct (type a) eqn:Ta; try discriminate.
    - rewrite !containee_string by (auto || (left; congruence)); apply alike_refl, uint8_wf.
    - rewrite !containee_string by (auto || (right; congruence)); apply alike_refl, uint8_wf.
    - pose proof (F2_nth _ _ _ (Z.to_nat i) (proj1 (alike_elements a b A Ta))) as F. destruct (nth_error (containees a) (Z.to_nat i)) as [[p x]|], (nth_error (containees b) (Z.to_nat i)) as [[q y]|]; try contradiction; [apply F|apply alike_refl, uint8_wf].
    - apply (alike_array a b A Ta).
  Qed.
  Lemma alike_child_max i : is_variable_sized_ (etype a i) = true -> max_size a = max_size b.
  Proof.
    intro V. destruct (alike_shares a b A) as (T & _ & _ & _ & _ & MS). apply MS. unfold etype in V. unfold is_container_type_info in C. destruct A as (Wa & _).
    destruct (type a) eqn:Ta; try discriminate.
    - rewrite containee_string in V by auto. discriminate.
    - rewrite containee_string in V by auto. discriminate.
    - pose proof (wf_node a Wa) as (_ & _ & _ & _ & _ & _ & N). rewrite Ta in N. destruct N as (_ & _ & N & _). rewrite N.
      destruct (nth_error (containees a) (Z.to_nat i)) as [[p x]|] eqn:E; [|discriminate]. apply nth_error_In in E. apply existsb_exists. exists (p, x). auto.
    - apply (proj1 (proj2 (proj2 (proj2 (alike_array a b A Ta))))). exact V.
  Qed.
  Lemma alike_sb k : sb a k = sb b k.
  Proof.
    destruct (alike_shares a b A) as (T & _). pose proof (alike_etype 0) as E. unfold sb, etype in *. rewrite <- T in *.
    destruct (type a) eqn:Ta; try (rewrite (alike_bits _ _ E); reflexivity). apply sum_bits_alike, F2_firstn. apply (alike_elements a b A Ta).
  Qed.
  Lemma alike_ss k : ss a k = ss b k.
  Proof.
    destruct (alike_shares a b A) as (T & _). pose proof (alike_etype 0) as E. pose proof (alike_child_max 0) as M. destruct (fixed_array_or_not a) as [Ta|Ta].
    - unfold ss. rewrite <- T, Ta. apply sum_slots_alike; [apply F2_firstn; apply (alike_elements a b A Ta)|]. intros p x I V.
      assert (I' : In (p, x) (containees a)) by (rewrite <- (firstn_skipn (Z.to_nat k) (containees a)); apply in_or_app; left; exact I). apply In_nth_error in I'. destruct I' as [j I'].
      apply (alike_child_max (Z.of_nat j)). unfold etype. rewrite Ta, Nat2Z.id, I'. exact V.
    - assert (Q : etype a 0 = containee a /\ etype b 0 = containee b) by (unfold etype; rewrite <- T; destruct (type a); try congruence; auto). destruct Q as [Q1 Q2]. rewrite Q1, Q2 in *.
      unfold ss. rewrite <- T. destruct (type a); try congruence; rewrite (alike_slot _ _ (max_size a) (max_size b) E M); reflexivity.
  Qed.
  Lemma alike_so n i : so a n i = so b n i.
  Proof. unfold so. destruct (alike_flags a b A) as (_ & _ & _ & _ & -> & _). rewrite alike_sb, alike_ss. reflexivity. Qed.
  Lemma alike_element_count : is_variable_element_count a = false -> element_count a = element_count b.
  Proof.
    intro V. pose proof (alike_count a b [] 0 A) as E. destruct (alike_flags a b A) as (C' & V' & _). unfold get_element_count in E. rewrite <- C', <- V', C, V in E. cbn [negb] in E. congruence.
  Qed.
  Lemma alike_vtot es : forall i, vtot a i es = vtot b i es.
  Proof.
    induction es as [|e es IH]; intro i; [reflexivity|]. cbn [vtot]. rewrite IH. unfold clen. destruct (alike_shares _ _ (alike_etype i)) as (_ & -> & _). reflexivity.
  Qed.
  Lemma alike_slot_at n m o i : is_variable_sized_ (etype a i) = true -> slot a n m o i = slot b n m o i.
  Proof. intro V. unfold slot. rewrite alike_so, (alike_child_max i V). reflexivity. Qed.
  Lemma alike_elem m o s n i e : elem_ok a m o s n i e -> elem_ok b m o s n i e.
  Proof.
    pose proof (alike_etype i) as Ae. destruct (alike_shares _ _ Ae) as (T & V & Sz & NB & NU & MS). destruct (alike_flags a b A) as (_ & _ & _ & _ & PB & _).
    assert (BF : is_bit_field (etype a i) = is_bit_field (etype b i)) by (unfold is_bit_field; rewrite T; reflexivity).
    intros [E1 E2]. split; [intro X; rewrite <- PB, <- alike_sb; apply E1; congruence|]. destruct e as [|z|c].
    - destruct E2 as [E2 E3]. split; [congruence|]. intro X. rewrite <- alike_slot_at by congruence. apply E3. congruence.
    - destruct E2 as (E2 & E3 & E4). split; [congruence|]. rewrite <- Sz. split; [exact E3|]. intros k K. rewrite <- PB, <- alike_sb, <- NB. apply E4. exact K.
    - destruct E2 as (E2 & E3 & E4). split; [congruence|]. split.
      + intro X. rewrite <- V in X. rewrite <- alike_slot_at by exact X. unfold FS. rewrite <- alike_so. destruct (E3 X) as (F1 & F2 & F3 & F4 & F5). rewrite <- (MS X), <- (alike_size _ _ c 0 Ae). auto.
      + intro X. rewrite <- V in X. rewrite <- alike_so, <- Sz. auto.
  Qed.
  Lemma alike_cv m o s es : cv a m o s es -> cv b m o s es.
  Proof.
    intro Vw. destruct (alike_shares a b A) as (T & V & Sz & NB & NU & MS). destruct (alike_flags a b A) as (CC & VC & HS & PC & PB & VM). destruct Vw as [H1 H2 H3 H4 H5 H6 H7 H8 H9 H10]. constructor.
    - exact H1.
    - exact H2.
    - destruct H3 as [H3 H3']. split; [exact H3|]. intro X. rewrite <- VC in X. rewrite <- alike_element_count by exact X. auto.
    - intros X1 X2 X3. apply H4; [congruence| |].
      + destruct (is_container_cases a C) as [Ta|[Ta _]].
        * exfalso. unfold is_variable_element_count in X1. rewrite <- CC, C, <- T, Ta in X1. cbn [negb] in X1. destruct (negb (is_variable_sized_type_info b)); discriminate.
        * pose proof (alike_etype 0) as E. destruct (alike_shares _ _ E) as (Te & _). unfold etype in Te. rewrite <- T in Te. unfold is_bit_field in *. destruct (type a); congruence.
      + destruct (is_container_cases a C) as [Ta|[Ta _]].
        * exfalso. unfold is_variable_element_count in X1. rewrite <- CC, C, <- T, Ta in X1. cbn [negb] in X1. destruct (negb (is_variable_sized_type_info b)); discriminate.
        * pose proof (alike_bits _ _ (alike_etype 0)) as E. unfold etype in E. rewrite <- T in E. destruct (type a); try congruence; lia.
    - intro X. rewrite <- VC in X. rewrite <- PC, <- (VM X). auto.
    - intro X. rewrite <- HS in X. assert (M : max_size a = max_size b).
      { apply MS. unfold has_size_in_prefix, is_variable_sized_type_info in X. rewrite C in X. destruct (is_variable_sized_ a); [reflexivity|discriminate]. }
      rewrite <- M. auto.
    - intro X. rewrite <- V in X. rewrite <- (MS X). auto.
    - unfold FS. rewrite <- alike_so, <- alike_vtot. exact H8.
    - intros i e I N. apply alike_elem. auto.
    - intros i j ci cj I J IJ Ni Nj Vi Vj. destruct (alike_shares _ _ (alike_etype i)) as (_ & Vi' & _). destruct (alike_shares _ _ (alike_etype j)) as (_ & Vj' & _).
      rewrite <- Vi' in Vi. rewrite <- Vj' in Vj. rewrite <- !alike_slot_at by assumption. eauto.
  Qed.
End alike.

Lemma alike_good a bs : good a bs -> forall b, alike a b -> good b bs.
Proof.
  induction 1 as [a bs W C B Z|a bs es CT V GE IH]; intros b A; destruct (alike_shares a b A) as (T & _ & Sz & _); destruct (alike_flags a b A) as (CC & _).
  - apply good_leaf; [apply A|congruence|unfold is_bit_field in *; congruence|congruence].
  - destruct CT as [W C]. eapply good_con; [split; [apply A|congruence]|apply (alike_cv a b A C); exact V|]. intros i c I N. apply (IH i c I N). apply (alike_etype a b A C).
Qed.
Lemma alike_holds a b m o bs : alike a b -> holds a m o bs -> holds b m o bs.
Proof. intros A H. destruct H as [H1 H2 H3 H4]. constructor; auto. eapply alike_good; eauto. Qed.

Lemma identical_true a b : wf a -> wf b -> short_names a -> (are_identical a b = Ok true <-> same_description false a b).
Proof.
  intros Wa Wb S1. destruct (are_identical_spec a b Wa Wb S1) as (r & -> & R). rewrite <- R. split; [intro E; injection E; auto|intros ->; reflexivity].
Qed.
