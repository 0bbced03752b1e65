(** * C43 and C44: comparison of tuples and datums *)
From Coq Require Import String.
From Verif Require Import CompareFacts SizeProps TupleProps TupleExamples SerdeProps.
From Coq Require Import ZifyBool ZifyNat ZifyN Zify.
Ltac Zify.zify_post_hook ::= Z.div_mod_to_equations.
Open Scope list_scope.
Open Scope Z_scope.

(** ** types at paths *)
Lemma type_wf pa : forall d t, wf d -> path_ok pa -> get_type_info d pa = Some t -> wf t.
Proof.
  induction pa as [|i pa IH]; intros d t W PO E; cbn [get_type_info] in E; [congruence|]. inversion PO as [|? ? P1 P2]; subst.
  destruct (containee_type_without_data d i) as [c|] eqn:C; [|discriminate]. apply (IH c t); auto. unfold containee_type_without_data in C.
  destruct (is_container_type_info d) eqn:CT; [|discriminate]. cbn [negb] in C. destruct (negb (is_variable_element_count d) && (element_count d <=? i)); [discriminate|].
  destruct (type d) eqn:T; try (unfold is_container_type_info in CT; rewrite T in CT; discriminate); try (injection C as <-; try apply uint8_wf).
  - destruct (nth_error (containees d) (Z.to_nat i)) as [[p c']|] eqn:N; [|discriminate]. injection C as <-. cbn [snd]. apply nth_error_In in N. apply wf_unfold in W. destruct W as [_ W]. rewrite T in W. apply (W p c'). exact N.
  - apply wf_containee; auto. congruence.
Qed.
Lemma type_short pa : forall d t, short_names d -> get_type_info d pa = Some t -> wf d -> path_ok pa -> short_names t.
Proof.
  induction pa as [|i pa IH]; intros d t SN E W PO; cbn [get_type_info] in E; [congruence|]. inversion PO as [|? ? P1 P2]; subst.
  destruct (containee_type_without_data d i) as [c|] eqn:C; [|discriminate].
  assert (Wc : wf c) by (apply (type_wf [i] d c W); [repeat constructor; lia|cbn [get_type_info]; rewrite C; reflexivity]).
  apply (IH c t); auto. unfold containee_type_without_data in C.
  destruct (is_container_type_info d) eqn:CT; [|discriminate]. cbn [negb] in C. destruct (negb (is_variable_element_count d) && (element_count d <=? i)); [discriminate|].
  apply sn_unfold in SN. destruct SN as [_ SN].
  destruct (type d) eqn:T; try (unfold is_container_type_info in CT; rewrite T in CT; discriminate).
  - injection C as <-. apply sn_unfold. split; [reflexivity|exact I].
  - injection C as <-. apply sn_unfold. split; [reflexivity|exact I].
  - destruct (nth_error (containees d) (Z.to_nat i)) as [[p c']|] eqn:N; [|discriminate]. injection C as <-. cbn [snd]. apply nth_error_In in N. eapply SN; eauto.
  - injection C as <-. destruct (wf_containee d W CT) as [_ EC]; [congruence|]. apply SN. exact EC.
Qed.
Lemma usable_wf t : usable t -> wf t /\ short_names t.
Proof.
  intros (t0 & d & pa & B & F & PO & E & SN). pose proof (finalized_wf _ _ B F) as W. split; [apply (type_wf pa d t); auto|apply (type_short pa d t); auto].
Qed.

(** ** values of keys *)
Lemma key_means d m o bs pa x : holds d m o bs -> path_ok pa -> key_is d m o pa x ->
  exists v, key_value d pa m o = Ok v /\ match get_type_info d pa with Some t => means t v x | None => v = DNull /\ x = VNull end.
Proof.
  intros H PO K. unfold key_value. destruct (value_at pa d m o bs PO H) as [E|[E|(t & w & y & E & T & M)]].
  - rewrite E. cbn [bind]. exists DNull. split; [reflexivity|]. assert (N : observe d pa m o = Ok None) by (unfold observe; rewrite E; reflexivity).
    assert (x = VNull) as ->. { destruct K as [K|[_ K]]; [|exact K]. inversion K; subst; congruence. } destruct (get_type_info d pa); [constructor|auto].
  - rewrite E. cbn [bind]. exists DNull. split; [reflexivity|]. assert (N : observe d pa m o = Ok (Some ONull)) by (unfold observe; rewrite E; cbn [bind]; destruct (get_type_info d pa); reflexivity).
    assert (x = VNull) as ->. { destruct K as [K|[_ K]]; [|exact K]. inversion K; subst; try congruence. match goal with A : observe d pa m o = Ok (Some ?r), B : obs_number ?r = _ |- _ => rewrite N in A; injection A as <-; discriminate B end. } 
    destruct (get_type_info d pa); [constructor|auto].
  - rewrite E, T. cbn [bind]. exists w. split; [reflexivity|]. destruct K as [K|[K _]].
    + eapply reads_means; eauto.
    + exfalso. rewrite (observe_typed _ _ _ _ _ _ E T) in K. apply bind_inv in K. destruct K as (r & _ & Q). discriminate.
Qed.
Lemma datum_means t v x : datum_is t v x -> means t v x.
Proof.
  intro D. destruct v; cbn [datum_is] in D; try (destruct D as [IV D]; try contradiction; destruct D as (r & O & ->); apply m_num; auto; discriminate).
  - subst x. constructor.
  - destruct D as [S (bs & R & ->)]. eapply m_str; eauto.
  - destruct D as (T & DA & HV). destruct (data_holds _ _ _ DA) as [bs H]. eapply (reads_means t m o bs []); eauto; [constructor|].
    unfold get_value. destruct (datum_typed _ _ _ _ H) as (w & E & [(N & _)|[(S & _)|(_ & ->)]]).
    + exfalso. unfold is_container_type_info in N. destruct T as [T|T]; rewrite T in N; discriminate.
    + exfalso. destruct S as [S|S]; destruct T; congruence.
    + exact E.
Qed.

(** ** one comparison *)
Definition meant (t : option dti) (v : datum) (x : value) : Prop := match t with Some t => means t v x | None => v = DNull /\ x = VNull end.
Definition fine (t : option dti) : Prop := match t with Some t => wf t /\ short_names t | None => True end.
Lemma means_null t v x : means t v x -> (is_datum_NULL v = true /\ v = DNull /\ x = VNull) \/ (is_datum_NULL v = false /\ order VNull x = Lt /\ order x VNull = Gt).
Proof.
  intro M. inversion M as [? | ? ? r IV NN O | ? m o n bs S R | ? m o bs es ws l T HC CT V L1 L2 G K]; subst; auto.
  right. destruct v; try contradiction; auto.
Qed.
Lemma nulls_none t v1 x v2 y r : means t v1 x -> v2 = DNull -> y = VNull -> compare_nulls v1 v2 r = Ok (sign (order x y)) /\ compare_nulls v2 v1 r = Ok (sign (order y x)).
Proof.
  intros M -> ->. unfold compare_nulls. destruct (means_null _ _ _ M) as [(-> & -> & ->)|(-> & -> & ->)]; cbn; auto.
Qed.
Lemma compare_datum_meant t1 v1 x t2 v2 y : fine t1 -> fine t2 -> meant t1 v1 x -> meant t2 v2 y ->
  (comparable_keys t1 t2 -> compare_datum v1 t1 v2 t2 = Ok (sign (order x y))) /\ (~ comparable_keys t1 t2 -> compare_datum v1 t1 v2 t2 = Ok (-2)).
Proof.
  intros F1 F2 M1 M2. unfold compare_datum. destruct t1 as [t1|], t2 as [t2|]; cbn [meant fine comparable_keys] in *.
  - destruct F1 as [W1 S1], F2 as [W2 S2]. destruct (can_compare_spec t1 t2 W1 W2 S1) as (r & -> & R). cbn [bind]. split; intro C.
    + assert (RT : r = true) by (apply R; exact C). rewrite RT. apply compare_means; auto.
    + destruct r; [|reflexivity]. exfalso. apply C. apply R. reflexivity.
  - split; [|tauto]. intros _. destruct M2 as [-> ->]. rewrite compare_unfold. apply (nulls_none t1 v1 x DNull VNull _ M1); reflexivity.
  - split; [|tauto]. intros _. destruct M1 as [-> ->]. apply (nulls_none t2 v2 y DNull VNull _ M2); reflexivity.
  - split; [|tauto]. intros _. destruct M1 as [-> ->]. destruct M2 as [-> ->]. reflexivity.
Qed.
Lemma compare_datum2_meant t v1 x v2 y : meant t v1 x -> meant t v2 y -> compare_datum2 v1 v2 t = Ok (sign (order x y)).
Proof.
  intros M1 M2. unfold compare_datum2. destruct t as [t|]; cbn [meant] in *; [apply compare2_means; auto|].
  destruct M1 as [-> ->]. destruct M2 as [-> ->]. reflexivity.
Qed.
Lemma datum_meant t v x : typed_datum t v x -> meant t v x /\ fine t.
Proof. destruct t as [t|]; cbn; [|auto]. intros [U D]. split; [apply datum_means; exact D|apply usable_wf; exact U]. Qed.

Lemma comparable_sym a b : comparable a b -> comparable b a.
Proof. induction 1; [apply comp_numerals|apply comp_same; apply sd_sym|eapply comp_sequences]; eauto. Qed.

(** ** several keys *)
Lemma Forall2_weaken {A B} (P Q : A -> B -> Prop) l k : (forall a b, P a b -> Q a b) -> Forall2 P l k -> Forall2 Q l k.
Proof. induction 2; constructor; auto. Qed.
Lemma keys_order {K} (cmp : K -> res Z) keys : forall vals,
  Forall2 (fun (k : K * Z) v => let '(x, y, dir) := v in snd k = dir /\ direction dir /\ cmp (fst k) = Ok (sign (order x y))) keys vals ->
  compare_keys cmp keys = Ok (by_keys vals).
Proof.
  induction keys as [|[k dir] keys IH]; intros [|[[x y] dir'] vals] F; inversion F as [|? ? ? ? Q F']; subst; [reflexivity|]. destruct Q as (E1 & D & E). cbn [fst snd] in *. subst dir'.
  cbn [compare_keys by_keys]. rewrite E. cbn [bind]. destruct (order x y); cbn [sign].
  - apply IH. exact F'.
  - destruct D as [->| ->]; reflexivity.
  - destruct D as [->| ->]; reflexivity.
Qed.
Lemma keys_stop {K} (cmp : K -> res Z) pre : forall vals k dir post c,
  Forall2 (fun (k : K * Z) v => let '(x, y, dir) := v in snd k = dir /\ direction dir /\ cmp (fst k) = Ok (sign (order x y))) pre vals ->
  by_keys vals = 0 -> direction dir -> cmp k = Ok c -> (c = -2 \/ c = -1 \/ c = 1) ->
  compare_keys cmp (pre ++ (k, dir) :: post) = Ok (if c =? -2 then -2 else dir * c).
Proof.
  induction pre as [|[k' dir'] pre IH]; intros [|[[x y] dir''] vals] k dir post c F Z D E C; inversion F as [|? ? ? ? Q F']; subst; [|destruct Q as (E1 & D' & E'); cbn [fst snd] in *; subst dir''].
  - cbn [app compare_keys]. rewrite E. cbn [bind]. destruct C as [->|[->| ->]]; destruct D as [->| ->]; reflexivity.
  - cbn [app compare_keys]. rewrite E'. cbn [by_keys] in Z. destruct (order x y) eqn:O; cbn [bind sign].
    + apply (IH vals); auto.
    + exfalso. cbn [sign] in Z. destruct D' as [->| ->]; discriminate.
    + exfalso. cbn [sign] in Z. destruct D' as [->| ->]; discriminate.
Qed.
Lemma by_keys_range vals : Forall (fun v => direction (snd v)) vals -> by_keys vals = -1 \/ by_keys vals = 0 \/ by_keys vals = 1.
Proof.
  induction 1 as [|[[x y] dir] vals D F IH]; cbn; [auto|]. destruct (order x y); auto; destruct D as [D|D]; cbn in D; subst; cbn; auto.
Qed.
Lemma by_keys_swap vals : by_keys (map (fun v => let '(x, y, dir) := v in (y, x, dir)) vals) = - by_keys vals.
Proof. induction vals as [|[[x y] dir] vals IH]; [reflexivity|]. cbn [map by_keys]. rewrite (order_opp x y). destruct (order x y); cbn [CompOpp sign]; lia. Qed.
Lemma by_keys_refl vals : Forall (fun v => fst (fst v) = snd (fst v)) vals -> by_keys vals = 0.
Proof. induction 1 as [|[[x y] dir] vals D F IH]; [reflexivity|]. cbn in D. subst. cbn. rewrite order_refl. exact IH. Qed.
Lemma by_keys_trans (vals : list (value * value * value * Z)) : Forall (fun v => direction (snd v)) vals ->
  by_keys (map (fun v => let '(x, y, z, dir) := v in (x, y, dir)) vals) <= 0 ->
  by_keys (map (fun v => let '(x, y, z, dir) := v in (y, z, dir)) vals) <= 0 ->
  by_keys (map (fun v => let '(x, y, z, dir) := v in (x, z, dir)) vals) <= 0.
Proof.
  induction 1 as [|[[[x y] z] dir] vals D F IH]; cbn [map by_keys]; [lia|]. cbn [snd] in D.
  destruct (order_compat x y z) as [E L]. pose proof (order_compat z y x) as [E' L']. pose proof (order_opp x y) as O1. pose proof (order_opp y z) as O2. pose proof (order_opp x z) as O3.
  destruct (order x y) eqn:XY.
  - rewrite (E eq_refl). destruct (order y z); auto.
  - destruct (order y z) eqn:YZ; cbn [sign CompOpp] in *; destruct D as [->| ->]; intros; try lia.
    + rewrite L by (auto; discriminate). cbn. lia.
    + rewrite L by (auto; discriminate). cbn. lia.
  - destruct (order y z) eqn:YZ; cbn [sign CompOpp] in *; destruct D as [->| ->]; intros; try lia.
    + rewrite E' in O3 by auto. rewrite O1 in O3. destruct (order x z); try discriminate; cbn; lia.
    + rewrite L' in O3; auto; [|rewrite O1; discriminate]. destruct (order x z); try discriminate; cbn; lia.
Qed.

(** ** C43 *)
(** every key has one value, and the comparison of two elements is the order
    of their values *)
Theorem C43_values d m o pa : data_at d m o -> path_ok pa -> exists x, key_is d m o pa x /\ forall y, key_is d m o pa y -> y = x.
Proof.
  intros D PO. destruct (data_holds _ _ _ D) as [bs H].
  assert (U : forall x, key_is d m o pa x -> exists x, key_is d m o pa x /\ forall y, key_is d m o pa y -> y = x).
  { intros x K. exists x. split; [exact K|]. intros y K'. destruct (key_means _ _ _ _ _ _ H PO K) as (v & E & M). destruct (key_means _ _ _ _ _ _ H PO K') as (v' & E' & M').
    rewrite E in E'. injection E' as <-. destruct (get_type_info d pa); [eapply means_fun; eauto|destruct M, M'; congruence]. }
  destruct (value_at pa d m o bs PO H) as [E|[E|(t & w & y & E & T & M)]].
  - apply (U VNull). right. split; [|reflexivity]. unfold observe. rewrite E. reflexivity.
  - apply (U VNull). left. apply value_null. unfold observe. rewrite E. cbn [bind]. destruct (get_type_info d pa); reflexivity.
  - apply (U y). left. eapply means_reads; eauto.
Qed.
Print Assumptions C43_values.
Theorem C43_elements same d1 pa1 m1 o1 x d2 pa2 m2 o2 y : data_at d1 m1 o1 -> data_at d2 m2 o2 -> path_ok pa1 -> path_ok pa2 -> short_names d1 -> short_names d2 ->
  key_is d1 m1 o1 pa1 x -> key_is d2 m2 o2 pa2 y -> (same = true -> get_type_info d1 pa1 = get_type_info d2 pa2) ->
  (comparable_keys (get_type_info d1 pa1) (get_type_info d2 pa2) -> compare_elements_of_tuple same d1 pa1 m1 o1 d2 pa2 m2 o2 = Ok (sign (order x y)))
  /\ (~ comparable_keys (get_type_info d1 pa1) (get_type_info d2 pa2) -> same = false -> compare_elements_of_tuple same d1 pa1 m1 o1 d2 pa2 m2 o2 = Ok (-2)).
Proof.
  intros D1 D2 P1 P2 S1 S2 K1 K2 SM. destruct (data_holds _ _ _ D1) as [b1 H1]. destruct (data_holds _ _ _ D2) as [b2 H2].
  destruct (key_means _ _ _ _ _ _ H1 P1 K1) as (v1 & E1 & M1). destruct (key_means _ _ _ _ _ _ H2 P2 K2) as (v2 & E2 & M2).
  pose proof (proj1 (good_size _ _ (h_good _ _ _ _ H1))) as W1. pose proof (proj1 (good_size _ _ (h_good _ _ _ _ H2))) as W2.
  assert (F1 : fine (get_type_info d1 pa1)). { destruct (get_type_info d1 pa1) as [t|] eqn:T; [|exact I]. split; [apply (type_wf pa1 d1 t)|apply (type_short pa1 d1 t)]; auto. }
  assert (F2 : fine (get_type_info d2 pa2)). { destruct (get_type_info d2 pa2) as [t|] eqn:T; [|exact I]. split; [apply (type_wf pa2 d2 t)|apply (type_short pa2 d2 t)]; auto. }
  unfold compare_elements_of_tuple. rewrite E1, E2. cbn [bind]. destruct same.
  - split; [|discriminate]. intros _. rewrite (SM eq_refl) in M1. apply compare_datum2_meant; assumption.
  - destruct (compare_datum_meant _ _ _ _ _ _ F1 F2 M1 M2). auto.
Qed.
Print Assumptions C43_elements.
Theorem C43_element_with_datum same d1 pa1 m1 o1 x t2 v2 y : data_at d1 m1 o1 -> path_ok pa1 -> short_names d1 ->
  key_is d1 m1 o1 pa1 x -> typed_datum t2 v2 y -> (same = true -> get_type_info d1 pa1 = t2) ->
  (comparable_keys (get_type_info d1 pa1) t2 -> compare_element_with_datum same d1 pa1 m1 o1 v2 t2 = Ok (sign (order x y)))
  /\ (~ comparable_keys (get_type_info d1 pa1) t2 -> same = false -> compare_element_with_datum same d1 pa1 m1 o1 v2 t2 = Ok (-2)).
Proof.
  intros D1 P1 S1 K1 TD SM. destruct (data_holds _ _ _ D1) as [b1 H1]. 
  destruct (key_means _ _ _ _ _ _ H1 P1 K1) as (v1 & E1 & M1). destruct (datum_meant _ _ _ TD) as [M2 F2].
  pose proof (proj1 (good_size _ _ (h_good _ _ _ _ H1))) as W1. 
  assert (F1 : fine (get_type_info d1 pa1)). { destruct (get_type_info d1 pa1) as [t|] eqn:T; [|exact I]. split; [apply (type_wf pa1 d1 t)|apply (type_short pa1 d1 t)]; auto. }
  unfold compare_element_with_datum. rewrite E1. cbn [bind]. destruct same.
  - split; [|discriminate]. intros _. rewrite (SM eq_refl) in M1. apply compare_datum2_meant; assumption.
  - destruct (compare_datum_meant _ _ _ _ _ _ F1 F2 M1 M2). auto.
Qed.
Print Assumptions C43_element_with_datum.
Theorem C43_datums t1 v1 x t2 v2 y : typed_datum t1 v1 x -> typed_datum t2 v2 y ->
  (comparable_keys t1 t2 -> compare_datum v1 t1 v2 t2 = Ok (sign (order x y))) /\ (~ comparable_keys t1 t2 -> compare_datum v1 t1 v2 t2 = Ok (-2)).
Proof. intros T1 T2. destruct (datum_meant _ _ _ T1). destruct (datum_meant _ _ _ T2). apply compare_datum_meant; assumption. Qed.
Print Assumptions C43_datums.

(** a key: a path in each tuple, whether the types there are the same object,
    a direction, and the values read *)
Definition keys_of (d1 : dti) (m1 : mem) (o1 : Z) (d2 : dti) (m2 : mem) (o2 : Z) : list ((list Z * list Z * bool) * Z) -> list (value * value * Z) -> Prop :=
  Forall2 (fun k v => let '((pa1, pa2, same), dir) := k in let '(x, y, dir') := v in
    dir = dir' /\ direction dir' /\ path_ok pa1 /\ path_ok pa2 /\ key_is d1 m1 o1 pa1 x /\ key_is d2 m2 o2 pa2 y
    /\ (same = true -> get_type_info d1 pa1 = get_type_info d2 pa2) /\ comparable_keys (get_type_info d1 pa1) (get_type_info d2 pa2)).
Lemma keys_compare d1 m1 o1 d2 m2 o2 keys vals : data_at d1 m1 o1 -> data_at d2 m2 o2 -> short_names d1 -> short_names d2 -> keys_of d1 m1 o1 d2 m2 o2 keys vals ->
  Forall2 (fun k v => let '(x, y, dir) := v in snd k = dir /\ direction dir
    /\ (let '(pa1, pa2, same) := fst k in compare_elements_of_tuple same d1 pa1 m1 o1 d2 pa2 m2 o2) = Ok (sign (order x y))) keys vals.
Proof.
  intros D1 D2 S1 S2 F. eapply Forall2_weaken; [|exact F]. intros [[[pa1 pa2] same] dir] [[x y] dir'] (E & D & P1 & P2 & K1 & K2 & SM & C). cbn [fst snd].
  split; [exact E|]. split; [exact D|]. apply C43_elements; auto.
Qed.
Theorem C43_compare_tuples d1 m1 o1 d2 m2 o2 keys vals : data_at d1 m1 o1 -> data_at d2 m2 o2 -> short_names d1 -> short_names d2 ->
  keys_of d1 m1 o1 d2 m2 o2 keys vals ->
  compare_tuples false m1 o1 d1 m2 o2 d2 keys = Ok (by_keys vals).
Proof. intros D1 D2 S1 S2 F. unfold compare_tuples. apply keys_order. apply (keys_compare d1 m1 o1 d2 m2 o2); auto. Qed.
Print Assumptions C43_compare_tuples.
(** keys after the first difference do not matter *)
Theorem C43_first_difference d1 m1 o1 d2 m2 o2 pre vals pa1 pa2 same dir post x y : data_at d1 m1 o1 -> data_at d2 m2 o2 -> short_names d1 -> short_names d2 ->
  keys_of d1 m1 o1 d2 m2 o2 (pre ++ [((pa1, pa2, same), dir)]) (vals ++ [(x, y, dir)]) ->
  by_keys vals = 0 -> order x y <> Eq ->
  compare_tuples false m1 o1 d1 m2 o2 d2 (pre ++ ((pa1, pa2, same), dir) :: post) = Ok (dir * sign (order x y)).
Proof.
  intros D1 D2 S1 S2 F Z N. apply (keys_compare d1 m1 o1 d2 m2 o2) in F; auto. apply Forall2_app_inv_l in F. destruct F as (l1 & l2 & F1 & F2 & E).
  inversion F2 as [|? v ? l3 K F3]; subst. inversion F3; subst. apply app_inj_tail in E. destruct E as [-> <-]. destruct K as (_ & D & K). cbn [fst] in K.
  unfold compare_tuples. rewrite (keys_stop _ pre l1 (pa1, pa2, same) dir post (sign (order x y)) F1 Z D K); [destruct (order x y); reflexivity|destruct (order x y); cbn; auto; congruence].
Qed.
Print Assumptions C43_first_difference.
Theorem C43_incomparable d1 m1 o1 d2 m2 o2 pre vals pa1 pa2 dir post : data_at d1 m1 o1 -> data_at d2 m2 o2 -> short_names d1 -> short_names d2 ->
  keys_of d1 m1 o1 d2 m2 o2 pre vals -> by_keys vals = 0 ->
  path_ok pa1 -> path_ok pa2 -> direction dir -> ~ comparable_keys (get_type_info d1 pa1) (get_type_info d2 pa2) ->
  compare_tuples false m1 o1 d1 m2 o2 d2 (pre ++ ((pa1, pa2, false), dir) :: post) = Ok (-2).
Proof.
  intros D1 D2 S1 S2 F Z P1 P2 D N. apply (keys_compare d1 m1 o1 d2 m2 o2) in F; auto.
  destruct (C43_values d1 m1 o1 pa1 D1 P1) as (x & X & _). destruct (C43_values d2 m2 o2 pa2 D2 P2) as (y & Y & _).
  unfold compare_tuples. rewrite (keys_stop _ pre vals (pa1, pa2, false) dir post (-2) F Z D); [reflexivity| |auto].
  apply (C43_elements false d1 pa1 m1 o1 x d2 pa2 m2 o2 y); auto. discriminate.
Qed.
Print Assumptions C43_incomparable.

(** the comparison of two tuples of one definition *)
Lemma elements2_order d pa m1 o1 x m2 o2 y : data_at d m1 o1 -> data_at d m2 o2 -> path_ok pa -> key_is d m1 o1 pa x -> key_is d m2 o2 pa y ->
  compare_elements_of_tuple2 d pa m1 o1 m2 o2 = Ok (sign (order x y)).
Proof.
  intros D1 D2 P K1 K2. destruct (data_holds _ _ _ D1) as [b1 H1]. destruct (data_holds _ _ _ D2) as [b2 H2].
  destruct (key_means _ _ _ _ _ _ H1 P K1) as (v1 & E1 & M1). destruct (key_means _ _ _ _ _ _ H2 P K2) as (v2 & E2 & M2).
  unfold compare_elements_of_tuple2. rewrite E1, E2. apply compare_datum2_meant; assumption.
Qed.
Theorem C43_compare_tuples2 d m1 o1 m2 o2 keys vals : data_at d m1 o1 -> data_at d m2 o2 ->
  Forall2 (fun k v => let '(pa, dir) := k in let '(x, y, dir') := v in
    dir = dir' /\ direction dir' /\ path_ok pa /\ key_is d m1 o1 pa x /\ key_is d m2 o2 pa y) keys vals ->
  compare_tuples2 m1 o1 m2 o2 d keys = Ok (by_keys vals)
  /\ forall same, compare_tuples true m1 o1 d m2 o2 d (map (fun k => ((fst k, fst k, same), snd k)) keys) = Ok (by_keys vals).
Proof.
  intros D1 D2 F. assert (G : compare_tuples2 m1 o1 m2 o2 d keys = Ok (by_keys vals)).
  { unfold compare_tuples2. apply keys_order. eapply Forall2_weaken; [|exact F]. intros [pa dir] [[x y] dir'] (E & D & P & K1 & K2). cbn [fst snd].
    split; [exact E|]. split; [exact D|]. apply elements2_order; auto. }
  split; [exact G|]. intro same. unfold compare_tuples. rewrite map_map. cbn [fst snd]. rewrite <- G. f_equal. rewrite <- (map_id keys) at 2. apply map_ext. intros []. reflexivity.
Qed.
Print Assumptions C43_compare_tuples2.
(** ordering by keys is a total preorder on the tuples of a definition, as
    sorting and searching need; every key list can be used *)
Theorem C43_total_preorder d m1 o1 m2 o2 m3 o3 keys : data_at d m1 o1 -> data_at d m2 o2 -> data_at d m3 o3 ->
  Forall (fun k => path_ok (fst k) /\ direction (snd k)) keys ->
  exists c12 c21 c23 c13, compare_tuples2 m1 o1 m2 o2 d keys = Ok c12 /\ compare_tuples2 m2 o2 m1 o1 d keys = Ok c21
  /\ compare_tuples2 m2 o2 m3 o3 d keys = Ok c23 /\ compare_tuples2 m1 o1 m3 o3 d keys = Ok c13
  /\ (c12 = -1 \/ c12 = 0 \/ c12 = 1) /\ c21 = - c12 /\ (c12 <= 0 -> c23 <= 0 -> c13 <= 0) /\ compare_tuples2 m1 o1 m1 o1 d keys = Ok 0.
Proof.
  intros D1 D2 D3 F.
  assert (V : exists vals : list (value * value * value * Z), Forall (fun v => direction (snd v)) vals
    /\ Forall2 (fun k v => let '(x, y, z, dir) := v in snd k = dir /\ path_ok (fst k) /\ key_is d m1 o1 (fst k) x /\ key_is d m2 o2 (fst k) y /\ key_is d m3 o3 (fst k) z) keys vals).
  { induction F as [|[pa dir] keys [P D] F (vals & A & B)]; [exists []; split; constructor|]. cbn [fst snd] in *.
    destruct (C43_values d m1 o1 pa D1 P) as (x & X & _). destruct (C43_values d m2 o2 pa D2 P) as (y & Y & _). destruct (C43_values d m3 o3 pa D3 P) as (z & Z & _).
    exists ((x, y, z, dir) :: vals). split; constructor; cbn; auto. }
  destruct V as (vals & A & B).
  assert (B' : Forall2 (fun k v => let '(x, y, z, dir) := v in snd k = dir /\ direction dir /\ path_ok (fst k) /\ key_is d m1 o1 (fst k) x /\ key_is d m2 o2 (fst k) y /\ key_is d m3 o3 (fst k) z) keys vals).
  { clear F. induction B as [|k [[[x y] z] dir] keys vals K B IH]; [constructor|]. inversion A; subst. constructor; auto. cbn in *. tauto. }
  assert (Q : forall (f : value * value * value * Z -> value * value * Z) ma oa mb ob, data_at d ma oa -> data_at d mb ob ->
    (forall k v, (let '(x, y, z, dir) := v in snd k = dir /\ direction dir /\ path_ok (fst k) /\ key_is d m1 o1 (fst k) x /\ key_is d m2 o2 (fst k) y /\ key_is d m3 o3 (fst k) z) ->
      let '(x, y, dir) := f v in snd k = dir /\ direction dir /\ compare_elements_of_tuple2 d (fst k) ma oa mb ob = Ok (sign (order x y))) ->
    compare_tuples2 ma oa mb ob d keys = Ok (by_keys (map f vals))).
  { intros f ma oa mb ob _ _ G. unfold compare_tuples2. apply keys_order. clear - B' G. induction B' as [|k v keys vals K B IH]; constructor; auto. apply G. exact K. }
  exists (by_keys (map (fun v => let '(x, y, z, dir) := v in (x, y, dir)) vals)), (by_keys (map (fun v => let '(x, y, z, dir) := v in (y, x, dir)) vals)),
    (by_keys (map (fun v => let '(x, y, z, dir) := v in (y, z, dir)) vals)), (by_keys (map (fun v => let '(x, y, z, dir) := v in (x, z, dir)) vals)).
  assert (T : forall ma oa mb ob pa x y, data_at d ma oa -> data_at d mb ob -> path_ok pa -> key_is d ma oa pa x -> key_is d mb ob pa y -> compare_elements_of_tuple2 d pa ma oa mb ob = Ok (sign (order x y))) by (intros; apply elements2_order; auto).
  do 4 (split; [apply Q; auto; intros k [[[x y] z] dir] (E & D & P & X & Y & Z); auto|]).
  split; [apply by_keys_range; clear - A; induction A as [|[[[x y] z] dir] l D A IH]; constructor; auto|].
  split; [rewrite <- by_keys_swap, map_map; f_equal; apply map_ext; intros [[[x y] z] dir]; reflexivity|].
  split; [apply by_keys_trans; exact A|].
  rewrite (Q (fun v => let '(x, y, z, dir) := v in (x, x, dir)) m1 o1 m1 o1); auto; [|intros k [[[x y] z] dir] (E & D & P & X & Y & Z); auto].
  f_equal. apply by_keys_refl. clear. induction vals as [|[[[x y] z] dir] l IH]; constructor; auto.
Qed.
Print Assumptions C43_total_preorder.
(** swapping the arguments negates the result, also for tuples of different
    definitions *)
Theorem C43_swapped d1 m1 o1 d2 m2 o2 keys vals : data_at d1 m1 o1 -> data_at d2 m2 o2 -> short_names d1 -> short_names d2 ->
  keys_of d1 m1 o1 d2 m2 o2 keys vals ->
  exists c, compare_tuples false m1 o1 d1 m2 o2 d2 keys = Ok c
  /\ compare_tuples false m2 o2 d2 m1 o1 d1 (map (fun k => let '((pa1, pa2, same), dir) := k in ((pa2, pa1, same), dir)) keys) = Ok (- c).
Proof.
  intros D1 D2 S1 S2 F. exists (by_keys vals). split; [apply C43_compare_tuples; auto|]. rewrite <- by_keys_swap. apply C43_compare_tuples; auto.
  clear - F. induction F as [|[[[pa1 pa2] same] dir] [[x y] dir'] keys vals (E & D & P1 & P2 & K1 & K2 & SM & C) F IH]; constructor; auto.
  subst. repeat (split; auto). { intro. symmetry. auto. } 
  destruct (get_type_info d1 pa1) as [t1|], (get_type_info d2 pa2) as [t2|]; cbn in *; auto. apply comparable_sym. exact C.
Qed.
Print Assumptions C43_swapped.
Theorem C43_compare_with_datums d1 m1 o1 keys vals : data_at d1 m1 o1 -> short_names d1 ->
  Forall2 (fun (k : (list Z * datum * option dti * bool) * Z) v => let '((pa, v2, t2, same), dir) := k in let '(x, y, dir') := v in
    dir = dir' /\ direction dir' /\ path_ok pa /\ key_is d1 m1 o1 pa x /\ typed_datum t2 v2 y
    /\ (same = true -> get_type_info d1 pa = t2) /\ comparable_keys (get_type_info d1 pa) t2) keys vals ->
  compare_tuple_with_datum m1 o1 d1 keys = Ok (by_keys vals).
Proof.
  intros D1 S1 F. unfold compare_tuple_with_datum. apply keys_order. eapply Forall2_weaken; [|exact F]. intros [[[[pa v2] t2] same] dir] [[x y] dir'] (E & D & P & K & TD & SM & C). cbn [fst snd].
  split; [exact E|]. split; [exact D|]. apply C43_element_with_datum; auto.
Qed.
Print Assumptions C43_compare_with_datums.
Theorem C43_compare_datums keys vals :
  Forall2 (fun (k : (datum * datum * option dti) * Z) v => let '((v1, v2, t), dir) := k in let '(x, y, dir') := v in
    dir = dir' /\ direction dir' /\ typed_datum t v1 x /\ typed_datum t v2 y) keys vals ->
  compare_datums3 keys = Ok (by_keys vals).
Proof.
  intro F. unfold compare_datums3. apply keys_order. eapply Forall2_weaken; [|exact F]. intros [[[v1 v2] t] dir] [[x y] dir'] (E & D & T1 & T2). cbn [fst snd].
  split; [exact E|]. split; [exact D|]. apply compare_datum2_meant; apply datum_meant; assumption.
Qed.
Print Assumptions C43_compare_datums.

(** ** C44 *)
Theorem C44_implementations_agree t v1 x v2 y : typed_datum t v1 x -> typed_datum t v2 y ->
  compare_datum2 v1 v2 t = compare_datum v1 t v2 t /\ compare_datum2 v1 v2 t = Ok (sign (order x y)).
Proof.
  intros T1 T2. destruct (datum_meant _ _ _ T1) as [M1 F1]. destruct (datum_meant _ _ _ T2) as [M2 F2].
  rewrite (compare_datum2_meant t v1 x v2 y) by assumption. split; [|reflexivity]. symmetry. apply compare_datum_meant; auto.
  destruct t as [t|]; cbn; [|exact I]. apply comp_same. apply wf_sd_refl. apply F1.
Qed.
Print Assumptions C44_implementations_agree.

(** ** examples: the tuples of TupleExamples.v *)
Example ex_e7_names : short_names exd.
Proof. vm_compute. repeat split. Qed.
Lemma value_list_cases d m o pa bs l : observe d pa m o = Ok (Some (OData bs)) -> element_count_of d pa m o = Ok (zlen l) ->
  (forall i, (i < length l)%nat -> has_value d m o (pa ++ [Z.of_nat i]) (nth i l VNull)) -> has_value d m o pa (VList l).
Proof. intros A B C. eapply value_list; eauto. intros i x E. rewrite <- (nth_error_nth l i VNull E). apply C. apply nth_error_Some. congruence. Qed.
Definition text (s : string) : value := bytes_value (list_byte_of_string s).
(** the element at [3] of e7 is an array of a NULL and a pair *)
Example ex_values : key_is exd e7 0 [0] VNull /\ key_is exd e7 0 [1] (text "good bye") /\ key_is exd e7 0 [2] (VNum (OInt (-5)))
  /\ key_is exd e7 0 [3] (VList [VNull; VList [VNum (OUint 0); text "ab"]]) /\ key_is exd e7 0 [3; 5; 1] VNull.
Proof.
  split; [left; apply value_null; vm_compute; reflexivity|]. split; [left; apply value_string; vm_compute; reflexivity|].
  split; [left; eapply value_num; vm_compute; reflexivity|]. split.
  - left. eapply value_list_cases; [vm_compute; reflexivity|vm_compute; reflexivity|]. intros [|[|i]] L; [| |cbn in L; lia]; cbn [nth app].
    + apply value_null. vm_compute. reflexivity.
    + eapply value_list_cases; [vm_compute; reflexivity|vm_compute; reflexivity|]. intros [|[|i]] L'; [| |cbn in L'; lia]; cbn [nth app].
      * eapply value_num; vm_compute; reflexivity.
      * apply value_string. vm_compute. reflexivity.
  - right. split; [vm_compute; reflexivity|reflexivity].
Qed.
(** comparing e7 with e6 by the keys [0] ascending, [3] descending, [1] descending *)
Example ex_compare : compare_tuples2 e7 0 e6 0 exd [([0], 1); ([3], -1); ([1], -1)] = Ok 1
  /\ by_keys [(VNull, VNull, 1); (VList [VNull; VList [VNum (OUint 0); text "ab"]], VList [VNull; VList [VNum (OUint 0); text "ab"]], -1); (text "good bye", text "hello", -1)] = 1.
Proof. split; vm_compute; reflexivity. Qed.
Example ex_preorder : exists c12 c21 c23 c13, compare_tuples2 e7 0 e6 0 exd [([3; 1; 1], 1); ([1], -1)] = Ok c12 /\ compare_tuples2 e6 0 e7 0 exd [([3; 1; 1], 1); ([1], -1)] = Ok c21
  /\ compare_tuples2 e6 0 e3 0 exd [([3; 1; 1], 1); ([1], -1)] = Ok c23 /\ compare_tuples2 e7 0 e3 0 exd [([3; 1; 1], 1); ([1], -1)] = Ok c13 /\ c21 = - c12 /\ c12 = 1 /\ c23 = 1 /\ c13 = 1.
Proof.
  destruct (C43_total_preorder exd e7 0 e6 0 e3 0 [([3; 1; 1], 1); ([1], -1)] data_e7 data_e6 data_e3) as (a & b & c & d & A & B & C & D & _ & S & _).
  { constructor; [split; [pathy|left; reflexivity]|constructor; [split; [pathy|right; reflexivity]|constructor]]. }
  exists a, b, c, d. vm_compute in A, B, C, D. injection A as <-. injection B as <-. injection C as <-. injection D as <-. repeat split.
Qed.
(** a 4 byte signed element with a 2 byte unsigned one; a string with a number *)
Example ex_incomparable : compare_tuples false e7 0 exd e7 0 exd [(([0], [0], true), 1); (([2], [3; 1; 0], false), 1)] = Ok (-1)
  /\ comparable_keys (get_type_info exd [2]) (get_type_info exd [3; 1; 0])
  /\ compare_tuples false e7 0 exd e7 0 exd [(([0], [0], true), 1); (([1], [2], false), 1)] = Ok (-2)
  /\ ~ comparable_keys (get_type_info exd [1]) (get_type_info exd [2]).
Proof.
  split; [vm_compute; reflexivity|]. split; [vm_compute; apply comp_numerals; exact I|]. split; [vm_compute; reflexivity|].
  intro C. vm_compute in C. inversion C as [? ? A B|? ? D|? ? x y A B K]; subst; [exact A| |].
  - destruct D as (D & _). discriminate D.
  - discriminate B.
Qed.
Example ex_keys_of : keys_of exd e7 0 exd e6 0 [(([0], [0], true), 1); (([1], [3; 1; 1], false), -1)] [(VNull, VNull, 1); (text "good bye", text "ab", -1)]
  /\ compare_tuples false e7 0 exd e6 0 exd [(([0], [0], true), 1); (([1], [3; 1; 1], false), -1)] = Ok (-1).
Proof.
  split; [|vm_compute; reflexivity]. constructor; [|constructor; [|constructor]]; repeat (split; [solve [reflexivity | unfold direction; auto | repeat constructor; lia | left; apply value_null; vm_compute; reflexivity | left; apply value_string; vm_compute; reflexivity | auto | discriminate]|]).
  - apply comp_numerals; exact I.
  - vm_compute. eapply comp_sequences; [reflexivity|reflexivity|]. apply comp_numerals; exact I.
Qed.
(** the string of e7 as a datum and as an array of bytes *)
Definition bytes_array : dti := final (var_array 40 (num UINT false 1)).
Example ex_usable : usable bytes_array /\ usable (final (var_string 300)).
Proof.
  split.
  - exists (var_array 40 (num UINT false 1)), bytes_array, []. split; [unfold var_array, num; build; congruence|]. split; [vm_compute; reflexivity|]. split; [constructor|]. split; [reflexivity|]. vm_compute. auto.
  - exists (var_string 300), (final (var_string 300)), []. split; [unfold var_string; build; congruence|]. split; [vm_compute; reflexivity|]. split; [constructor|]. split; [reflexivity|]. vm_compute. auto.
Qed.
Example ex_datum : typed_datum (Some (final (var_string 300))) (str "good") (text "good")
  /\ compare_element_with_datum false exd [1] e7 0 (str "good") (Some (final (var_string 300))) = Ok 1
  /\ compare_datum2 (str "good") (str "goad") (Some (final (var_string 300))) = Ok 1.
Proof.
  split; [|split; vm_compute; reflexivity]. split; [apply ex_usable|]. split; [left; reflexivity|]. exists (list_byte_of_string "good"). split; vm_compute; reflexivity.
Qed.
