(** * Descriptions of types: finalization keeps them and accepts exactly the acceptable ones *)
From Verif Require Export SerdeSpec TypeFacts.
From Coq Require Import ZifyBool ZifyNat ZifyN Zify.
Ltac Zify.zify_post_hook ::= Z.div_mod_to_equations.

(** ** the nested fixpoints as [Forall2] and [In] *)
Definition sd_elements (f : bool) : list (position * dti) -> list (position * dti) -> Prop :=
  Forall2 (fun a b => (f = true -> c_string (field_name (fst a)) = c_string (field_name (fst b))) /\ same_description f (snd a) (snd b)).
Lemma sd_all f (l r : list (position * dti)) :
  (fix all (l r : list (position * dti)) : Prop :=
            match l, r with
            | [], [] => True
            | (p, x) :: l', (q, y) :: r' =>
                (f = true -> c_string (field_name p) = c_string (field_name q))
                /\ same_description f x y /\ all l' r'
            | _, _ => False
            end) l r <-> sd_elements f l r.
Proof.
  revert r. induction l as [|[p x] l IH]; intros [|[q y] r].
  - split; constructor.
  - split; [intros []|inversion 1].
  - split; [intros []|inversion 1].
  - split.
    + intros (A & B & C). constructor; [split; [exact A|exact B]|apply IH; exact C].
    + intro H. inversion H as [|? ? ? ? [A B] C]; subst. split; [exact A|]. split; [exact B|]. apply IH. exact C.
Qed.
Definition sd_node (f : bool) (a b : dti) : Prop :=
  type a = type b /\ c_string (type_name a) = c_string (type_name b)
  /\ t_variable a = t_variable b
  /\ (if t_variable a then max_size a = max_size b else is_nullable a = is_nullable b).
Lemma sd_unfold f a b : same_description f a b <-> sd_node f a b
  /\ match type a with
     | STRING | BINARY => t_variable a = false -> element_count_ a = element_count_ b
     | TUPLE => sd_elements f (containees a) (containees b)
     | ARRAY =>
         has_variable_element_count a = has_variable_element_count b
         /\ (has_variable_element_count a = false -> element_count_ a = element_count_ b)
         /\ exists x y, containee_ a = Some x /\ containee_ b = Some y /\ same_description f x y
     | _ => size a = size b
     end.
Proof.
  destruct a as [fn tn ty nu vs sz ms hv ec pb ce cs]. cbn [same_description].
  unfold sd_node. cbn [type type_name containees containee_ max_size is_nullable has_variable_element_count element_count_ size].
  destruct ty; try rewrite sd_all; try tauto.
  assert (O : match ce, containee_ b with Some x, Some y => same_description f x y | _, _ => False end <-> (exists x y, ce = Some x /\ containee_ b = Some y /\ same_description f x y)).
  { destruct ce as [x|], (containee_ b) as [y|]; split; intros A; try (destruct A as (? & ? & ? & ? & ?); congruence); try tauto; eauto; destruct A as (? & ? & E1 & E2 & A); congruence. }
  rewrite O. tauto.
Qed.
Lemma acc_all (cs : list (position * dti)) : (fix all (cs : list (position * dti)) : Prop := match cs with [] => True | (_, c) :: cs' => acceptable c /\ all cs' end) cs
  <-> (forall p c, In (p, c) cs -> acceptable c).
Proof.
  induction cs as [|[q c] cs IH]; cbn; split.
  - intros _ p c [].
  - trivial.
  - intros [A B] p c' [E|I]; [injection E as _ <-; exact A | exact (proj1 IH B p c' I)].
  - intros A. split; [eapply A; left; reflexivity | apply IH; intros; eapply A; right; eassumption].
Qed.
Lemma acc_unfold t : acceptable t <-> (t_variable t = true -> t_size t <= max_size t)
  /\ match type t with
     | BIT_FIELD => 1 <= size t <= 64
     | UINT | INT => 1 <= size t <= 8
     | FLOAT => size t = 4 \/ size t = 8
     | LARGE_UINT | LARGE_INT => 1 <= size t <= 32
     | STRING | BINARY => t_variable t = false -> element_count_ t <> 0
     | TUPLE => containees t <> [] /\ (forall p c, In (p, c) (containees t) -> acceptable c)
     | ARRAY =>
         (has_variable_element_count t = false -> element_count_ t <> 0)
         /\ exists c, containee_ t = Some c /\ acceptable c
     end.
Proof.
  destruct t as [fn tn ty nu vs sz ms hv ec pb ce cs]. cbn [acceptable].
  cbn [type containees containee_ max_size has_variable_element_count element_count_ size].
  destruct ty; try rewrite acc_all; try tauto.
  assert (O : match ce with Some c => acceptable c | None => False end <-> (exists c, ce = Some c /\ acceptable c)).
  { destruct ce as [x|]; split; intros A; try (destruct A as (? & ? & ?); congruence); try tauto; eauto; destruct A as (? & E1 & A); congruence. }
  rewrite O. tauto.
Qed.

(** ** same descriptions, same layout *)
Definition anyv := (fix any (cs : list (position * dti)) : bool := match cs with [] => false | (_, c) :: cs' => t_variable c || any cs' end).
Lemma t_size_tuple t : type t = TUPLE -> t_size t = (if t_variable t then value_size (max_size t) else 0) + bytes_of_bits (fbits (containees t)) + fslots (max_size t) (containees t).
Proof. destruct t as [fn tn ty nu vs0 sz ms hv ec pb ce cs1]. cbn [type]. intros ->. reflexivity. Qed.
Lemma t_size_array t c : type t = ARRAY -> containee_ t = Some c -> t_size t =
          (if t_variable c then value_size (max_size t) else 0)
          + (if has_variable_element_count t then value_size (max_size t)
             else bytes_of_bits (element_count_ t * bits_in_bitmap c)
                  + element_count_ t * slot_bytes (max_size t) c (t_size c)).
Proof. destruct t as [fn tn ty nu vs0 sz ms hv ec pb ce cs1]. cbn [type containee_]. intros -> ->. reflexivity. Qed.
Lemma t_size_string t : type t = STRING \/ type t = BINARY -> t_size t = (if has_variable_element_count t then value_size (max_size t) else element_count_ t) /\ t_variable t = has_variable_element_count t.
Proof. destruct t as [fn tn ty nu vs0 sz ms hv ec pb ce cs1]. cbn [type]. intros [-> | ->]; cbn [t_size t_variable type has_variable_element_count max_size element_count_]; auto. Qed.
Lemma t_size_num t : is_container_type_info t = false -> t_size t = size t /\ t_variable t = false.
Proof. destruct t as [fn tn ty nu vs0 sz ms hv ec pb ce cs1]. destruct ty; cbn; auto; discriminate. Qed.
Lemma t_variable_array t c : type t = ARRAY -> containee_ t = Some c -> t_variable t = has_variable_element_count t || t_variable c.
Proof. destruct t as [fn tn ty nu vs0 sz ms hv ec pb ce cs1]. cbn [type containee_]. intros -> ->. reflexivity. Qed.
Lemma t_variable_tuple t : type t = TUPLE -> t_variable t = anyv (containees t).
Proof. destruct t as [fn tn ty nu vs0 sz ms hv ec pb ce cs1]. cbn [type]. intros ->. reflexivity. Qed.

Lemma bits_in_bitmap_novar c : bits_in_bitmap c = (if negb (t_variable c) && is_nullable c then 1 else 0) + (if is_bit_field c then size c else 0).
Proof. reflexivity. Qed.

Lemma sd_sizes f a : forall b, same_description f a b -> t_size a = t_size b /\ bits_in_bitmap a = bits_in_bitmap b.
Proof.
  induction a as [a IHc IHs] using dti_induction. intros b H. apply sd_unfold in H. destruct H as [(T & NM & V & M) K].
  assert (NU : t_variable a = false -> is_nullable a = is_nullable b) by (intro V0; rewrite V0 in M; exact M).
  assert (MX : t_variable a = true -> max_size a = max_size b) by (intro V0; rewrite V0 in M; exact M).
  assert (BB : (is_bit_field a = true -> size a = size b) -> bits_in_bitmap a = bits_in_bitmap b).
  { intro Sz. unfold bits_in_bitmap, validity_bits, is_bit_field in *. rewrite <- V, <- T. destruct (t_variable a) eqn:Va; cbn [negb andb].
    - destruct (data_type_eqb (type a) BIT_FIELD); [rewrite Sz by reflexivity|]; reflexivity.
    - rewrite (NU eq_refl). destruct (data_type_eqb (type a) BIT_FIELD); [rewrite Sz by reflexivity|]; reflexivity. }
  destruct (type a) eqn:Ta.
  1-6: (split; [destruct (t_size_num a) as [-> _]; [unfold is_container_type_info; rewrite Ta; reflexivity|];
         destruct (t_size_num b) as [-> _]; [unfold is_container_type_info; rewrite <- T; reflexivity|]; exact K | apply BB; auto]).
  1-2: (split; [|apply BB; intro B; apply is_bit_field_spec in B; congruence];
        destruct (t_size_string a) as [-> Va]; [auto|]; destruct (t_size_string b) as [-> Vb]; [symmetry in T; auto|];
        rewrite <- Va, <- Vb, <- V; destruct (t_variable a); [rewrite (MX eq_refl)|rewrite (K eq_refl)]; reflexivity).
  - split; [|apply BB; intro B; apply is_bit_field_spec in B; congruence].
    rewrite (t_size_tuple a Ta), (t_size_tuple b) by congruence. rewrite <- V.
    assert (Q : fbits (containees a) = fbits (containees b)).
    { clear - IHs K. induction K as [|[p x] [q y] l r [_ A] F IH]; [reflexivity|]. cbn -[bits_in_bitmap]. fold fbits. cbn [snd] in A.
      rewrite IH by (intros; eapply IHs; [right|]; eassumption). rewrite (proj2 (IHs p x (or_introl eq_refl) y A)). reflexivity. }
    rewrite Q. replace (if t_variable a then value_size (max_size b) else 0) with (if t_variable a then value_size (max_size a) else 0) by (destruct (t_variable a); [rewrite (MX eq_refl)|]; reflexivity).
    f_equal.
    assert (AV : t_variable a = false -> anyv (containees a) = false) by (intro E; rewrite <- (t_variable_tuple a Ta); exact E).
    clear - IHs K AV MX. induction K as [|[p x] [q y] l r [_ A] F IH]; [reflexivity|]. cbn -[slot_bytes t_size]. fold (fslots (max_size a)) (fslots (max_size b)). cbn [snd] in A.
    rewrite IH; [|intros; eapply IHs; [right|]; eassumption|].
    + f_equal. destruct (IHs p x (or_introl eq_refl) y A) as [E _]. apply sd_unfold in A. destruct A as ((T1 & _ & V1 & _) & _).
      unfold slot_bytes, is_bit_field. rewrite <- T1, <- V1, E. destruct (t_variable a); [rewrite (MX eq_refl); reflexivity|].
      specialize (AV eq_refl). cbn -[t_variable] in AV. apply orb_false_iff in AV. destruct AV as [-> _]. reflexivity.
    + intro E. specialize (AV E). cbn -[t_variable] in AV. apply orb_false_iff in AV. apply AV.
  - split; [|apply BB; intro B; apply is_bit_field_spec in B; congruence].
    destruct K as (K1 & K2 & x & y & Ea & Eb & K3). rewrite (t_size_array a x Ta Ea), (t_size_array b y) by congruence.
    destruct (IHc x Ea y K3) as [E1 E2]. pose proof (t_variable_array a x Ta Ea) as VA. apply sd_unfold in K3. destruct K3 as ((T1 & _ & V1 & _) & _).
    rewrite <- K1, <- V1. unfold slot_bytes, is_bit_field. rewrite <- T1, <- V1, E1, E2.
    destruct (t_variable a) eqn:Va.
    + rewrite (MX eq_refl). destruct (has_variable_element_count a); [reflexivity|]. rewrite (K2 eq_refl). reflexivity.
    + symmetry in VA. apply orb_false_iff in VA. destruct VA as [VA1 ->]. rewrite (K2 VA1), VA1. reflexivity.
Qed.

Lemma F2_In_l {A B} (R : A -> B -> Prop) l r a : Forall2 R l r -> In a l -> exists b, In b r /\ R a b.
Proof.
  induction 1 as [|x y l r H F IH]; [intros []|]. intros [->|I].
  - exists y. split; [left; reflexivity|exact H].
  - destruct (IH I) as (b & I' & R'). exists b. split; [right; exact I'|exact R'].
Qed.
Lemma sd_acceptable f a : forall b, same_description f a b -> acceptable a -> acceptable b.
Proof.
  induction a as [a IHc IHs] using dti_induction. intros b H AC. destruct (sd_sizes f a b H) as [TS _].
  apply sd_unfold in H. destruct H as [(T & NM & V & M) K]. apply acc_unfold in AC. destruct AC as [A0 A].
  apply acc_unfold. split; [intro Vb; rewrite Vb in V; rewrite V in M; rewrite <- TS, <- M; auto|].
  rewrite <- T. destruct (type a) eqn:Ta; try (rewrite <- K; exact A).
  1-2: rewrite <- V; intro V0; rewrite <- (K V0); auto.
  - destruct A as [A1 A2]. split; [intro E; rewrite E in K; inversion K; congruence|].
    intros p c I. destruct (Forall2_In_r _ _ _ _ K I) as ([q x] & I' & _ & S). cbn [snd] in S. eauto.
  - destruct A as [A1 (c & Ec & Ac)]. destruct K as (K1 & K2 & x & y & Ea & Eb & K3). rewrite <- K1. split; [intro E; rewrite <- (K2 E); auto|].
    exists y. split; [exact Eb|]. rewrite Ec in Ea. injection Ea as <-. eauto.
Qed.
Lemma wf_acceptable d : wf d -> acceptable d.
Proof.
  induction d as [d IHc IHs] using dti_induction. intro W. destruct (wf_spec d W) as [TV TS]. apply wf_unfold in W. destruct W as [N W].
  apply acc_unfold. destruct N as (_ & _ & _ & EC & _ & VM & N). rewrite TV, TS. split; [exact VM|].
  destruct (type d) eqn:T; try tauto.
  1-2: destruct N as (N1 & N2 & N3 & N4 & N5); rewrite N1; intro E; specialize (N5 E); lia.
  - destruct N as (N1 & _). split; [exact N1|]. intros p c I. eauto.
  - destruct N as (c & N0 & N1 & N2 & _). split; [intro E; specialize (N2 E); lia|]. exists c. split; [exact N0|]. eauto.
Qed.

(** ** symmetry, transitivity, reflexivity *)
Lemma sd_sym f a : forall b, same_description f a b -> same_description f b a.
Proof.
  induction a as [a IHc IHs] using dti_induction. intros b H. apply sd_unfold in H. destruct H as [(T & NM & V & M) K].
  apply sd_unfold. split; [unfold sd_node; rewrite <- V; destruct (t_variable a); auto|].
  rewrite <- T. destruct (type a) eqn:Ta; auto.
  1-2: rewrite <- V; intro E; rewrite (K E); reflexivity.
  - clear - K IHs. induction K as [|[p x] [q y] l r [A B] F IH]; [constructor|]. constructor.
    + cbn [fst snd] in *. split; [intro; symmetry; auto|]. eapply IHs; [left; reflexivity|exact B].
    + apply IH. intros; eapply IHs; [right|]; eassumption.
  - destruct K as (K1 & K2 & x & y & Ea & Eb & K3). split; [auto|]. split; [rewrite <- K1; intro E; symmetry; auto|]. exists y, x. eauto.
Qed.
Lemma sd_trans f a : forall b c, same_description f a b -> same_description f b c -> same_description f a c.
Proof.
  induction a as [a IHc IHs] using dti_induction. intros b c H H'. apply sd_unfold in H. destruct H as [(T & NM & V & M) K].
  apply sd_unfold in H'. destruct H' as [(T' & NM' & V' & M') K'].
  apply sd_unfold. split; [unfold sd_node; rewrite <- V in M'; destruct (t_variable a); intuition congruence|].
  rewrite <- T in K'. destruct (type a) eqn:Ta; try congruence.
  1-2: intro E; rewrite (K E); apply K'; congruence.
  - revert K'. generalize (containees c). clear - K IHs. induction K as [|[p x] [q y] l r [A B] F IH]; intros l' K'; inversion K' as [|? [u z] ? ? [A' B'] F']; subst; constructor.
    + cbn [fst snd] in *. split; [intro E; rewrite (A E); auto|]. eapply IHs; [left; reflexivity|exact B|exact B'].
    + apply IH; [intros; eapply IHs; [right| |]; eassumption|exact F'].
  - destruct K as (K1 & K2 & x & y & Ea & Eb & K3). destruct K' as (K1' & K2' & y' & z & Eb' & Ez & K3'). rewrite Eb in Eb'. injection Eb' as <-.
    split; [congruence|]. split; [intro E; rewrite (K2 E); apply K2'; congruence|]. exists x, z. eauto.
Qed.
Lemma wf_sd_refl f d : wf d -> same_description f d d.
Proof.
  induction d as [d IHc IHs] using dti_induction. intro W. apply wf_unfold in W. destruct W as [N W].
  apply sd_unfold. split; [unfold sd_node; destruct (t_variable d); auto|].
  destruct N as (_ & _ & _ & EC & _ & VM & N). destruct (type d) eqn:T; auto.
  - clear N EC. induction (containees d) as [|[p c] cs IH]; constructor; [split; [auto|]; eapply IHs; [left; reflexivity|]; eapply W; left; reflexivity|].
    apply IH; intros; [eapply IHs|eapply W]; try right; eassumption.
  - destruct N as (c & N0 & _). split; [auto|]. split; [auto|]. exists c, c. eauto 6.
Qed.

(** ** finalization keeps the description *)
Lemma finalize_done t : is_finalized t = true -> finalize t = (true, t).
Proof. destruct t as [fn tn ty nu vs sz ms hv ec pb ce cs]. cbn [is_finalized]. intros ->. reflexivity. Qed.
Lemma finalize_elements_children cs : forall vs bits vs' bits' cs', finalize_elements cs vs bits = (true, vs', bits', cs') ->
  Forall2 (fun a b => field_name (fst b) = field_name (fst a) /\ finalize (snd a) = (true, snd b)) cs cs'.
Proof.
  induction cs as [|[p t] cs IH]; intros vs bits vs' bits' cs'; cbn [finalize_elements].
  - intro E; injection E as <- <- <-. constructor.
  - destruct (finalize t) as [ok t1] eqn:Ef. destruct ok; cbn [negb]; [|discriminate].
    destruct (assign_bits p t1 bits) as [p1 b1] eqn:Ea.
    destruct (finalize_elements cs (if is_variable_sized_type_info t1 then true else vs) b1) as [[[ok2 vs2] bits2] cs2] eqn:Ee.
    intro E; injection E as -> <- <- <-. constructor; [cbn [fst snd]|eauto]. split; [|exact Ef].
    unfold assign_bits in Ea. destruct (needs_is_valid_bit t1), (type t1); injection Ea as <- <-; reflexivity.
Qed.
Lemma assign_offsets_children ms cs : forall o sz' cs', assign_offsets ms cs o = (sz', cs') ->
  Forall2 (fun a b => field_name (fst b) = field_name (fst a) /\ snd b = snd a) cs cs'.
Proof.
  induction cs as [|[p t] cs IH]; intros o sz' cs'; cbn [assign_offsets]; [intro E; injection E as <- <-; constructor|].
  set (q := match type t with BIT_FIELD => (p, o)
              | _ => if is_variable_sized_type_info t
                     then (mk_position (field_name p) o (p_valid p), u32 (o + value_size ms))
                     else (mk_position (field_name p) o (p_valid p), u32 (o + size t)) end).
  assert (Q : field_name (fst q) = field_name p) by (subst q; destruct (type t); destruct (is_variable_sized_type_info t); reflexivity).
  destruct q as [p1 sz1]. destruct (assign_offsets ms cs sz1) as [sz2 cs2] eqn:E. intro E'; injection E' as <- <-. constructor; [auto|eauto].
Qed.
Definition fin_children : list (position * dti) -> list (position * dti) -> Prop :=
  Forall2 (fun a b => field_name (fst b) = field_name (fst a) /\ finalize (snd a) = (true, snd b)).
Lemma finalize_inv t d : is_finalized t = false -> finalize t = (true, d) ->
  element_count_ d = element_count_ t
  /\ match type t with
     | TUPLE => fin_children (containees t) (containees d)
     | ARRAY => has_variable_element_count d = has_variable_element_count t
                /\ exists c c1, containee_ t = Some c /\ finalize c = (true, c1) /\ containee_ d = Some c1
     | STRING | BINARY => True
     | _ => size d = size t
     end.
Proof.
  intros F E. destruct (type t) eqn:T.
  9: { rewrite finalize_tuple_eq in E by assumption. destruct (containees t) as [|pc0 cs0] eqn:C; [discriminate|]. rewrite <- C in *.
    destruct (finalize_elements (containees t) false 0) as [[[ok vs] bits] cs] eqn:Ee. destruct ok; cbn [negb] in E; [|discriminate].
    unfold finalize_tuple in E. destruct (assign_offsets (max_size t) cs _) as [sz cs2] eqn:Eo. destruct (vs && (max_size t <? sz)); [discriminate|]. injection E as <-.
    split; [reflexivity|]. cbn [set_fin containees]. apply finalize_elements_children in Ee. apply assign_offsets_children in Eo.
    revert cs2 Eo. clear C T F. unfold fin_children. induction Ee as [|[p x] [q y] l r [A B] _ IH]; intros cs2 Eo; inversion Eo as [|? [u z] ? ? [A' B']]; subst; constructor; eauto.
    cbn [fst snd] in *. subst z. split; [congruence|exact B]. }
  9: { destruct t as [fn tn ty nu vs0 sz ms hv ec pb ce cs1]. cbn [type is_finalized] in *. subst ty fn. cbn [finalize is_finalized type containee_] in *.
    destruct ce as [c0|]; [|discriminate]. destruct (finalize c0) as [ok c] eqn:Ec. destruct ok; cbn [negb] in E; [|discriminate].
    assert (Q : element_count_ d = ec /\ has_variable_element_count d = hv /\ containee_ d = Some c).
    { unfold finalize_array in E. cbn [has_variable_element_count element_count_ max_size size prefix_bitmap_size_in_bits containees] in E.
      destruct (negb hv && (ec =? 0)); [discriminate|]. destruct (negb (hv || is_variable_sized_type_info c)).
      - injection E as <-. auto.
      - match type of E with (if ?b then _ else _) = _ => destruct b; [discriminate|] end. injection E as <-. auto. }
    destruct Q as (Q1 & Q2 & Q3). split; [exact Q1|]. split; [exact Q2|]. exists c0, c. auto. }
  1-6: destruct t as [fn tn ty nu vs0 sz ms hv ec pb ce cs1]; cbn in T, F; subst ty fn; cbn -[set_fin] in E;
       match type of E with (if ?b then _ else _) = _ => destruct b; [|discriminate] end; injection E as <-; auto.
  1-2: destruct t as [fn tn ty nu vs0 sz ms hv ec pb ce cs1]; cbn in T, F; subst ty fn; cbn -[set_fin value_size] in E;
       destruct hv; cbn [negb andb] in E; [destruct (ms <? value_size ms); cbn [negb] in E; [discriminate|]|destruct (ec =? 0); [discriminate|]]; injection E as <-; auto.
Qed.

Lemma finalize_sd f t : forall d, sound t -> within_limits t -> finalize t = (true, d) -> same_description f t d.
Proof.
  induction t as [t IHc IHs] using dti_induction. intros d SO L E. destruct (finalize_wf t d SO L E) as [W (T & NU & NM & V & TS & BF & MS)].
  destruct (is_finalized t) eqn:F.
  { rewrite (finalize_done t F) in E. injection E as <-. apply wf_sd_refl. exact W. }
  destruct (finalize_inv t d F E) as [EC K]. apply sound_unfold in SO. rewrite F in SO. apply limits_unfold in L. destruct L as (_ & _ & _ & _ & L).
  apply sd_unfold. split; [unfold sd_node; rewrite V, T, NM; destruct (t_variable t); auto|].
  destruct (type t) eqn:Ty; try congruence; try (intro; congruence).
  - revert K. generalize (containees d). induction (containees t) as [|[p x] l IH]; intros r K; inversion K as [|? [q y] ? ? [A B] F']; subst; constructor.
    + cbn [fst snd] in *. split; [intro; congruence|]. eapply IHs; [left; reflexivity|eapply SO; left; reflexivity|eapply L; left; reflexivity|exact B].
    + apply IH; auto; intros; [eapply IHs; try right; eassumption|eapply SO; right; eassumption|eapply L; right; eassumption].
  - destruct K as (K1 & c & c1 & Ec & Fc & Ec1). split; [auto|]. split; [auto|]. exists c, c1. split; [exact Ec|]. split; [exact Ec1|]. exact (IHc c Ec c1 (SO c Ec) (L c Ec) Fc).
Qed.

(** ** finalization succeeds on acceptable types *)
Lemma finalize_elements_success cs : forall vs bits, (forall p c, In (p, c) cs -> fst (finalize c) = true) ->
  exists vs' bits' cs', finalize_elements cs vs bits = (true, vs', bits', cs').
Proof.
  induction cs as [|[p t] cs IH]; intros vs bits H; cbn [finalize_elements]; [eauto|].
  pose proof (H p t (or_introl eq_refl)) as H0. destruct (finalize t) as [ok t1]. cbn [fst] in H0. subst ok. cbn [negb].
  destruct (assign_bits p t1 bits) as [p1 b1].
  destruct (IH (if is_variable_sized_type_info t1 then true else vs) b1) as (vs' & bits' & cs' & ->); [intros; eapply H; right; eassumption|]. eauto.
Qed.

Lemma acceptable_finalize t : sound t -> within_limits t -> acceptable t -> fst (finalize t) = true.
Proof.
  induction t as [t IHc IHs] using dti_induction. intros SO L AC.
  pose proof (t_size_nonneg t L) as TN.
  destruct (is_finalized t) eqn:F; [rewrite (finalize_done t F); reflexivity|].
  apply sound_unfold in SO. rewrite F in SO. apply limits_unfold in L. apply acc_unfold in AC. destruct AC as [A0 A].
  destruct (type t) eqn:T.
  9: { destruct A as [A1 A2]. rewrite finalize_tuple_eq by assumption.
    destruct (containees t) as [|pc0 cs0] eqn:C; [congruence|]. rewrite <- C in *.
    destruct L as (L1 & L2 & L3 & L4 & L5).
    destruct (finalize_elements_success (containees t) false 0) as (vs & bits & cs & Ee); [intros p c I; eapply IHs; eauto|].
    rewrite Ee. cbn [negb].
    assert (NBF : is_bit_field t = false) by (unfold is_bit_field; rewrite T; reflexivity).
    specialize (L4 NBF). pose proof (t_size_tuple t T) as TS. pose proof (t_variable_tuple t T) as TV.
    pose proof (value_size_range (max_size t)) as V.
    pose proof (fbits_nonneg _ L5) as FB. pose proof (fslots_nonneg (max_size t) _ L5) as FS.
    unfold max_bytes in L4. unfold bytes_of_bits in TS.
    destruct (finalize_elements_spec (containees t) false 0 vs bits cs) as (I1 & I2 & I3 & I4 & I5); auto; try lia.
    { intros p c I. apply finalize_wf. }
    { destruct (t_variable t); lia. }
    { intros; apply bits_nonneg; eapply L5; eassumption. }
    rewrite orb_false_l in I3. rewrite Z.add_0_l in I4.
    pose proof (fbits_same _ _ I1 I2) as SB. pose proof (fslots_same (max_size t) _ _ I1 I2) as SS.
    pose proof (anyvar_same _ _ I1 I2) as AV.
    unfold finalize_tuple. rewrite I3, AV. fold anyv. change (anyvar (containees t)) with (anyv (containees t)). rewrite <- TV.
    set (o0 := u32 _).
    assert (O : o0 = (if t_variable t then value_size (max_size t) else 0) + bitmap_size_in_bytes bits).
    { subst o0. unfold bitmap_size_in_bytes. rewrite I4, SB. apply u32_id. destruct (t_variable t); lia. }
    rewrite O. clearbody o0. clear o0 O.
    destruct (assign_offsets (max_size t) cs _) as [sz cs2] eqn:Eo.
    assert (B1 : 0 <= (if t_variable t then value_size (max_size t) else 0) + bitmap_size_in_bytes bits).
    { unfold bitmap_size_in_bytes. rewrite I4, SB. destruct (t_variable t); lia. }
    assert (B2 : (if t_variable t then value_size (max_size t) else 0) + bitmap_size_in_bytes bits + sum_slots (max_size t) cs <= max_bytes).
    { unfold bitmap_size_in_bytes, max_bytes. rewrite I4, SB, SS. destruct (t_variable t); lia. }
    destruct (assign_offsets_spec (max_size t) cs 0 _ sz cs2 I2 B1 B2 I5 Eo) as (J1 & J2 & J3).
    assert (SZ : sz = t_size t). { rewrite J1, TS, I4, SB, SS. unfold bitmap_size_in_bytes. lia. }
    destruct (t_variable t && (max_size t <? sz)) eqn:Em; [|reflexivity]. apply andb_true_iff in Em. destruct Em as [Em1 Em2]. specialize (A0 Em1). lia. }
  9: { destruct A as [A1 (c1 & Ec1 & Ac1)]. destruct L as (L1 & L2 & L3 & L4 & L5).
    assert (NBF : is_bit_field t = false) by (unfold is_bit_field; rewrite T; reflexivity).
    specialize (L4 NBF). pose proof (IHc c1 Ec1 (SO c1 Ec1) (L5 c1 Ec1) Ac1) as FC. pose proof (t_size_array t c1 T Ec1) as TS. pose proof (t_variable_array t c1 T Ec1) as TV.
    destruct t as [fn tn ty nu vs0 sz ms hv ec pb ce cs1].
    cbn -[finalize t_variable t_size within_limits sound wf acceptable] in *. subst ty fn ce.
    cbn [finalize is_finalized type containee_].
    destruct (finalize c1) as [ok c] eqn:Ec. cbn [fst] in FC. subst ok. cbn [negb].
    destruct (finalize_wf c1 c (SO c1 eq_refl) (L5 c1 eq_refl) Ec) as [Wc Sc].
    specialize (L5 c1 eq_refl). rewrite TS, TV in *.
    rewrite <- (same_ebits c1 c Sc Wc), <- (same_eslot ms c1 c Sc Wc) in *.
    assert (Vc : t_variable c1 = is_variable_sized_ c).
    { destruct Sc as (_ & _ & _ & Vc & _). rewrite <- Vc. apply wf_spec. exact Wc. }
    rewrite Vc in *.
    pose proof (ebits_range c Wc) as EB. pose proof (eslot_range ms c Wc) as ES. pose proof (elem_slot_pos ms c Wc) as EP.
    pose proof (wf_node c Wc) as (_ & Cs0 & _ & _ & Cs & _ & Cn).
    pose proof (value_size_range ms) as V.
    unfold finalize_array. cbn -[finalize bitmap_size_in_bytes value_size u32 u64 set_fin offset_of_prefix_bitmap].
    destruct (negb hv && (ec =? 0)) eqn:E0. { destruct hv; [discriminate|]. cbn [negb andb] in E0. specialize (A1 eq_refl). lia. }
    assert (ECP : hv = false -> 1 <= ec) by (intros ->; cbn [negb andb] in E0; lia).
    assert (MB : 0 <= ec * ebits c <= 4294967296 * 65) by (split; [apply Z.mul_nonneg_nonneg; lia | apply Z.mul_le_mono_nonneg; lia]).
    assert (MS : 0 <= ec * eslot ms c) by (apply Z.mul_nonneg_nonneg; lia).
    unfold max_bytes in L4. unfold bytes_of_bits in *.
    destruct (hv || is_variable_sized_ c) eqn:Ev; cbn [negb]; unfold is_variable_sized_type_info; rewrite ?Ev; cbn [negb]; [|reflexivity].
    set (pb2 := if hv then pb else _).
    set (ms0 := offset_of_prefix_bitmap _).
    assert (M0 : ms0 = (if is_variable_sized_ c then value_size ms else 0) + (if hv then value_size ms else 0)).
    { subst ms0. unfold offset_of_prefix_bitmap, offset_of_prefix_count, bytes_for_prefix_count, bytes_for_prefix_size,
        has_size_in_prefix, has_element_count_in_prefix, is_variable_element_count, is_variable_sized_type_info, is_container_type_info, set_fin, containee.
      cbn -[value_size]. rewrite ?Ev. cbn -[value_size]. destruct (is_variable_sized_ c), hv; cbn -[value_size]; lia. }
    clearbody ms0.
    set (ms1 := if hv then ms0 else _).
    assert (M1 : ms1 = (if is_variable_sized_ c then value_size ms else 0)
            + (if hv then value_size ms else bitmap_size_in_bytes (ec * ebits c) + ec * eslot ms c)).
    { subst ms1. destruct hv; [lia|]. rewrite M0. cbn [orb] in Ev. rewrite Ev.
      assert (Nb : type c <> BIT_FIELD) by (intro Hb; rewrite Hb in Cn; destruct Cn; congruence).
      unfold ebits, eslot, is_bit_field, needs_is_valid_bit, is_variable_sized_type_info in *. rewrite Ev in *. cbn [negb andb b2n] in *.
      destruct (type c); try congruence; cbn [data_type_eqb] in *;
      rewrite !Z.mul_0_r in *; unfold bitmap_size_in_bytes in *; cbn [Z.add Z.div] in *; unwrap; lia. }
    clearbody ms1. specialize (A0 eq_refl). unfold bitmap_size_in_bytes in M1.
    destruct (ms <? ms1) eqn:Em; [|reflexivity]. lia. }
  1-6: destruct t as [fn tn ty nu vs0 sz ms hv ec pb ce cs1]; cbn in T, F; subst ty fn; cbn -[set_fin] in *;
       match goal with |- fst (if ?b then _ else _) = _ => destruct b eqn:Eb; [reflexivity|] end; lia.
  1-2: destruct t as [fn tn ty nu vs0 sz ms hv ec pb ce cs1]; cbn in T, F; subst ty fn; cbn -[set_fin value_size] in *;
       destruct hv; cbn [negb andb fst]; [specialize (A0 eq_refl); lia|specialize (A eq_refl); destruct (ec =? 0) eqn:E0; [lia|reflexivity]].
Qed.

(** acceptance is decided by the documented conditions *)
Theorem finalize_iff t : sound t -> within_limits t -> (fst (finalize t) = true <-> acceptable t).
Proof.
  intros SO L. split; [|apply acceptable_finalize; assumption].
  intro E. destruct (finalize t) as [ok d] eqn:Ef. cbn [fst] in E. subst ok. destruct (finalize_wf t d SO L Ef) as [W _].
  eapply sd_acceptable; [apply sd_sym; apply (finalize_sd false t d SO L Ef)|]. apply wf_acceptable. exact W.
Qed.
