(** * C45 and C52: hashing *)
From Coq Require Import String.
From Verif Require Import HashFacts SizeProps TupleProps TupleExamples SerdeProps CompareProps.
From Coq Require Import ZifyBool ZifyNat ZifyN Zify.
Ltac Zify.zify_post_hook ::= Z.div_mod_to_equations.
Open Scope list_scope.
Open Scope Z_scope.
Notation holds := holds.

(** the hash of an element with value [x] of type [t], for every update
    function [up]: the bytes of CompareSpec.v are fed one after the other *)
Definition fed {H} (up : H -> byte -> H) (h : H) (t : option dti) (x : value) : H :=
  fold_left up (match t with Some t => hashed t x | None => [] end) h.

(** the uninitialized buffer [junk] on the stack of hash_datum does not matter *)
Theorem C45_datum {H} (up : H -> byte -> H) junk t v x h : zlen junk = 40 -> usable t -> datum_is t v x ->
  hash_datum up junk v t h = Ok (fed up h (Some t) x).
Proof. intros J U D. apply hash_datum_means; [exact J|apply datum_means; exact D|apply usable_wf; exact U]. Qed.
Print Assumptions C45_datum.
Theorem C45_element {H} (up : H -> byte -> H) junk d pa m o x h : zlen junk = 40 -> data_at d m o -> path_ok pa -> key_is d m o pa x ->
  hash_element up junk d pa m o h = Ok (fed up h (get_type_info d pa) x).
Proof.
  intros J D PO K. destruct (data_holds _ _ _ D) as [bs HD]. destruct (key_means _ _ _ _ _ _ HD PO K) as (v & E & M). pose proof (proj1 (good_size _ _ (h_good _ _ _ _ HD))) as W.
  unfold hash_element, fed. destruct (get_type_info d pa) as [t|] eqn:T; [|reflexivity]. unfold key_value in E. apply bind_inv in E. destruct E as (w & E & Q). rewrite E. cbn [bind].
  destruct w as [w|]; injection Q as <-.
  - apply hash_datum_means; auto. apply (type_wf pa d t); auto.
  - inversion M; subst; [reflexivity|congruence].
Qed.
Print Assumptions C45_element.
Lemma element_holds d pa m o t a : element_at d pa m o t a -> path_ok pa -> forall bs, holds d m o bs ->
  get_type_info d pa = Some t /\ wf t /\ (type t <> BIT_FIELD -> exists c, holds t m a c /\ get_value d pa m o = get_datum t m a).
Proof.
  induction 1 as [d m o | d i pa m o t a t' a' CH EA IH]; intros PO bs HD.
  - split; [reflexivity|]. split; [apply (proj1 (good_size _ _ (h_good _ _ _ _ HD)))|]. intros _. exists bs. auto.
  - inversion PO as [|? ? P1 P2]; subst. assert (C : is_container_type_info d = true) by (unfold child in CH; destruct (is_container_type_info d); [reflexivity|discriminate]).
    destruct (holds_cv d m o bs HD C) as (es & CT & V & _ & GE). destruct (Z_lt_le_dec i (zlen es)) as [L|L]; [|rewrite (child_none d m o _ es i CT V L) in CH; discriminate].
    destruct (znth_lt es i ltac:(lia)) as [e En]. rewrite (child_ok d m o _ es i e CT V ltac:(lia) En) in CH. rewrite (step_type d m o _ es i pa CT V ltac:(lia)).
    rewrite (value_step d m o _ es i e pa CT V ltac:(lia) En). pose proof (cv_el _ _ _ _ _ V i e ltac:(lia) En) as [_ A]. destruct e as [|z|c]; cbn [ptr_of] in CH; [discriminate| |].
    + assert (t = etype d i) as -> by congruence. destruct A as (B & _). apply is_bit_field_spec in B. inversion EA as [|? j pb ? ? t2 a2 ? ? CH2 EA2]; subst.
      * split; [reflexivity|]. split; [apply (cv_etype_wf d m o _ es i CT V ltac:(lia))|]. congruence.
      * unfold child, is_container_type_info in CH2. rewrite B in CH2. discriminate.
    + assert (t = etype d i) as -> by congruence. assert (a = addr d (zlen es) m o i) as -> by congruence. apply (IH P2 c). apply (child_holds d m o bs es i c CT V ltac:(lia) En). apply (GE i c ltac:(lia) En).
Qed.
(** the hash of data in place is that of the element *)
Theorem C45_in_place {H} (up : H -> byte -> H) junk d pa m o t a h : zlen junk = 40 -> data_at d m o -> path_ok pa -> element_at d pa m o t a -> type t <> BIT_FIELD ->
  hash_data up t m a h = hash_element up junk d pa m o h.
Proof.
  intros J D PO EA NB. destruct (data_holds _ _ _ D) as [bs HD]. destruct (element_holds d pa m o t a EA PO bs HD) as (T & W & K). destruct (K NB) as (c & HC & G).
  destruct (means_exists t c (h_good _ _ _ _ HC) m a HC) as (w & x & E & M). rewrite (hash_data_means up t c (h_good _ _ _ _ HC) m a w x h HC E M).
  unfold hash_element. rewrite T, G, E. cbn [bind]. symmetry. apply hash_datum_means; assumption.
Qed.
Print Assumptions C45_in_place.
Theorem C45_containee_in_place {H} (up : H -> byte -> H) junk d pa i m o t a h : zlen junk = 40 -> data_at d m o -> path_ok (pa ++ [i]) -> element_at d pa m o t a ->
  hash_containee up t m a i h = hash_element up junk d (pa ++ [i]) m o h.
Proof.
  intros J D PO EA. destruct (data_holds _ _ _ D) as [bs HD]. apply Forall_app in PO. destruct PO as [PO PI]. destruct (element_holds d pa m o t a EA PO bs HD) as (T & W & K).
  unfold hash_element. rewrite (type_app pa d [i] t T). destruct (value_app pa d m o t a [i] EA ltac:(discriminate)) as [-> _]. unfold hash_containee.
  destruct (is_container_type_info t) eqn:C; cbn [negb].
  2: { cbn [get_type_info]. unfold containee_type_without_data. rewrite C. reflexivity. }
  destruct K as (c & HC & _); [intro B; unfold is_container_type_info in C; rewrite B in C; discriminate|].
  destruct (holds_cv t m a c HC C) as (es & CT & V & _ & GE). rewrite (cv_get_count _ _ _ _ _ CT V). cbn [bind]. assert (I0 : 0 <= i) by (inversion PI; lia).
  destruct (Z_lt_le_dec i (zlen es)) as [L|L].
  - replace (zlen es <=? i) with false by lia. rewrite (cv_pos t m a _ es i CT V ltac:(lia)). cbn [bind]. rewrite (elem_type t m a _ es i CT V ltac:(lia)).
    rewrite (pos_type t (zlen es) i CT (cv_n _ _ _ _ _ V)) by lia.
    destruct (znth_lt es i ltac:(lia)) as [e En].
    assert (GV : exists w x, get_value t [i] m a = Ok (Some w) /\ means (etype t i) w x /\ forall b h, e = CBytes b -> hash_data up (etype t i) m (addr t (zlen es) m a i) h = Ok (hash_bytes up h (hashed (etype t i) x))).
    { pose proof (cv_el _ _ _ _ _ V i e I0 En) as [_ EO]. rewrite (value_step t m a _ es i e [] CT V I0 En). destruct e as [|z|b].
      - exists DNull, VNull. split; [reflexivity|]. split; [constructor|discriminate].
      - exists (DBits z), (VNum (OBits z)). split; [reflexivity|]. split; [|discriminate]. constructor; [|discriminate|reflexivity]. destruct EO as (B & Z & _). apply is_bit_field_spec in B. split; auto.
      - pose proof (child_holds t m a c es i b CT V I0 En (GE i b I0 En)) as HB. destruct (means_exists _ _ (h_good _ _ _ _ HB) m _ HB) as (w & x & E & M).
        exists w, x. cbn [get_value]. split; [exact E|]. split; [exact M|]. intros b' h' Q. apply (hash_data_means up _ b (h_good _ _ _ _ HB) m _ w x h' HB E M). }
    destruct GV as (w & x & G & M & R). rewrite (present_ok up (fun a h => hash_data up (etype t i) m a h) t m a _ es i e w x h CT V I0 En G M (fun b h => R b h)). rewrite G. cbn [bind]. symmetry. apply hash_datum_means; auto. apply (cv_etype_wf t m a _ es i CT V). lia.
  - replace (zlen es <=? i) with true by lia. assert (GN : get_value t [i] m a = Ok None).
    { cbn [get_value]. unfold get_containee_datum. rewrite C. cbn [negb]. rewrite (cv_get_count _ _ _ _ _ CT V). cbn [bind]. replace (zlen es <=? i) with true by lia. reflexivity. }
    rewrite GN. destruct (get_type_info t [i]); reflexivity.
Qed.
Print Assumptions C45_containee_in_place.
(** several elements *)
Theorem C45_hash_tuple {H} (up : H -> byte -> H) junk d m o h pas xs : zlen junk = 40 -> data_at d m o -> Forall path_ok pas -> Forall2 (key_is d m o) pas xs ->
  hash_tuple up junk d pas m o h = Ok (fold_left (fun h k => fed up h (get_type_info d (fst k)) (snd k)) (combine pas xs) h).
Proof.
  intros J D PO F. revert h PO. induction F as [|pa x pas xs K F IH]; intros h PO; [reflexivity|]. inversion PO; subst. cbn [hash_tuple combine fold_left fst snd]. rewrite (C45_element up junk d pa m o x h) by auto. cbn [bind]. apply IH. assumption.
Qed.
Print Assumptions C45_hash_tuple.
(** tuples with the same values hash alike, whatever their layout *)
Theorem C45_same_content {H} (up : H -> byte -> H) junk1 junk2 d m1 o1 m2 o2 h pas : zlen junk1 = 40 -> zlen junk2 = 40 -> data_at d m1 o1 -> data_at d m2 o2 -> Forall path_ok pas ->
  (forall pa, In pa pas -> exists x, key_is d m1 o1 pa x /\ key_is d m2 o2 pa x) ->
  exists r, hash_tuple up junk1 d pas m1 o1 h = Ok r /\ hash_tuple up junk2 d pas m2 o2 h = Ok r.
Proof.
  intros J1 J2 D1 D2 PO S. assert (V : exists xs, Forall2 (key_is d m1 o1) pas xs /\ Forall2 (key_is d m2 o2) pas xs).
  { clear PO. induction pas as [|pa pas IH]; [exists []; split; constructor|]. destruct (S pa (or_introl eq_refl)) as (x & X1 & X2). destruct IH as (xs & A & B); [intros; apply S; right; assumption|]. exists (x :: xs). split; constructor; auto. }
  destruct V as (xs & A & B). eexists. split; apply (C45_hash_tuple up); eauto.
Qed.
Print Assumptions C45_same_content.
(** a string hashes like the same bytes in an array of 1 byte unsigned integers *)
Theorem C45_string_as_array {H} (up : H -> byte -> H) junk t1 v1 t2 v2 c bs h : zlen junk = 40 -> usable t1 -> usable t2 -> (type t1 = STRING \/ type t1 = BINARY) ->
  type t2 = ARRAY -> (forall i, 0 <= i < zlen bs -> get_type_info t2 [i] = Some c) -> type c = UINT -> size c = 1 ->
  datum_is t1 v1 (bytes_value bs) -> datum_is t2 v2 (bytes_value bs) -> hash_datum up junk v1 t1 h = hash_datum up junk v2 t2 h /\ hash_datum up junk v1 t1 h = Ok (fold_left up bs h).
Proof.
  intros J U1 U2 S T G TC SC D1 D2. rewrite (C45_datum up junk t1 v1 (bytes_value bs) h), (C45_datum up junk t2 v2 (bytes_value bs) h) by assumption. unfold fed. rewrite hashed_string by exact S. split; [|reflexivity].
  f_equal. f_equal. unfold bytes_value. rewrite hashed_vlist. 
  assert (ZL : zlen (map (fun b => VNum (OUint (b2z b))) bs) = zlen bs) by (unfold zlen; rewrite map_length; reflexivity).
  rewrite (hashed_list_ext _ (fun _ => c)) by (intros j Jr; unfold element_type; rewrite Z.add_0_l, G by lia; reflexivity).
  clear - SC. generalize 0. induction bs as [|b bs IH]; intro i; [reflexivity|]. cbn [map hashed_list]. rewrite <- IH. cbn [hashed number_bytes]. rewrite SC. change (Z.to_nat 1) with 1%nat. rewrite enc_1. reflexivity.
Qed.
Print Assumptions C45_string_as_array.

(** ** C52: equal values hash alike, unless there are floats *)
Lemma integer_inj a b : null_order (Some (integer a)) (Some (integer b)) = Eq -> a = b.
Proof.
  intro E. assert (Q : compare_numbers a b = 0) by (rewrite compare_numbers_spec; cbn [null_order] in E; rewrite E; reflexivity). unfold compare_numbers in Q.
  destruct (Z.ltb_spec a b); destruct (Z.ltb_spec b a); lia.
Qed.
Lemma equal_values t v x : means t v x -> wf t -> float_free t -> forall w y, means t w y -> order x y = Eq -> x = y.
Proof.
  induction 1 as [t | t v r IV NN O | t m o n bs S R | t m o bs es ws l T HC CT V L1 L2 G M IH]; intros Wt FF w y Y E.
  - inversion Y as [? | ? ? s IV NN O| |]; subst; cbn in E; try discriminate; reflexivity.
  - assert (N : type t <> FLOAT) by (apply (FF []); [constructor|reflexivity]).
    inversion Y as [? | ? ? s IV' NN' O'| |]; subst; try discriminate E. 
    f_equal. destruct v; try contradiction; cbn in O; injection O as <-; cbn [is_value] in IV; try (exfalso; tauto);
    destruct w; try contradiction; cbn in O'; injection O' as <-; cbn [is_value] in IV'; try (exfalso; tauto); try (exfalso; destruct IV, IV'; congruence);
    cbn [order obs_number] in E; apply integer_inj in E; f_equal; exact E.
  - inversion Y as [? | ? ? s IV NN O|? ? ? ? bs' S' R'|? ? ? ? ? ? l' T' ? ? ? ? ? ? ?]; subst; try discriminate E; [|exfalso; destruct S as [S|S]; destruct T' as [T'|T']; congruence].
    f_equal. clear - E. unfold bytes_value in E. rewrite order_list in E. revert bs' E. induction bs as [|b bs IH]; intros [|b' bs'] E; try discriminate; [reflexivity|]. cbn [map lex] in *.
    destruct (order _ _) eqn:Q; try discriminate. f_equal; [|apply IH; exact E]. cbn [order obs_number] in Q. apply integer_inj in Q. apply b2z_inj. exact Q.
  - inversion Y as [? | ? ? s IV NN O|? ? ? ? bs' S' R'|? ? ? bs' es' ws' l' T' HC' CT' V' L1' L2' G' M']; subst; try discriminate E; [exfalso; destruct S' as [S|S]; destruct T as [T|T]; congruence|].
    f_equal. rewrite order_list in E.
    assert (K : forall k, (forall i a b, nth_error l i = Some a -> nth_error l' i = Some b -> (k <= i)%nat -> order a b = Eq -> a = b)).
    { intros k i a b A B _ Q. pose proof (znth_some _ _ _ A) as I. pose proof (znth_some _ _ _ B) as I'. 
      destruct (nth_error ws i) as [wa|] eqn:Ea; [|apply nth_error_None in Ea; unfold zlen in *; lia]. destruct (nth_error ws' i) as [wb|] eqn:Eb; [|apply nth_error_None in Eb; unfold zlen in *; lia].
      apply (IH i wa a Ea A (cv_etype_wf t m o _ es (Z.of_nat i) CT V ltac:(unfold zlen in *; lia))) with (w := wb); [|apply (M' i wb b Eb B)|exact Q].
      intros pa c PO TY. apply (FF (Z.of_nat i :: pa)); [constructor; [|exact PO]|].
      - pose proof (path_index t (zlen es) (Z.of_nat i) (cv_n _ _ _ _ _ V) ltac:(unfold zlen in *; lia)) as PI. inversion PI; assumption.
      - rewrite (step_type t m o _ es (Z.of_nat i) pa CT V) by (unfold zlen in *; lia). exact TY. }
    clear - E K. specialize (K O). revert l' E K. induction l as [|a l IH]; intros [|b l'] E K; try discriminate; [reflexivity|]. cbn [lex] in E. destruct (order a b) eqn:Q; try discriminate.
    f_equal; [apply (K O a b); auto|]. apply IH; [exact E|]. intros i c d A B _. apply (K (S i) c d A B). lia.
Qed.
Theorem C52_equal_values_hash_alike_partial {H} (up : H -> byte -> H) junk1 junk2 t v1 x v2 y h : zlen junk1 = 40 -> zlen junk2 = 40 -> usable t -> float_free t -> datum_is t v1 x -> datum_is t v2 y ->
  compare_datum2 v1 v2 (Some t) = Ok 0 -> hash_datum up junk1 v1 t h = hash_datum up junk2 v2 t h.
Proof.
  intros J1 J2 U FF D1 D2 C. rewrite (C45_datum up junk1 t v1 x h), (C45_datum up junk2 t v2 y h) by assumption. do 2 f_equal. destruct (usable_wf _ U) as [W _].
  apply datum_means in D1, D2. apply (equal_values t v1 x D1 W FF v2 y D2). rewrite (compare_datum2_meant (Some t) v1 x v2 y D1 D2) in C. destruct (order x y); [reflexivity|discriminate|discriminate].
Qed.
Print Assumptions C52_equal_values_hash_alike_partial.
(** also for tuples by their keys *)
Theorem C52_equal_tuples_hash_alike_partial {H} (up : H -> byte -> H) junk1 junk2 d m1 o1 m2 o2 keys h : zlen junk1 = 40 -> zlen junk2 = 40 -> data_at d m1 o1 -> data_at d m2 o2 ->
  Forall (fun k => path_ok (fst k) /\ direction (snd k) /\ forall t, get_type_info d (fst k) = Some t -> float_free t) keys ->
  compare_tuples2 m1 o1 m2 o2 d keys = Ok 0 ->
  exists r, hash_tuple up junk1 d (map fst keys) m1 o1 h = Ok r /\ hash_tuple up junk2 d (map fst keys) m2 o2 h = Ok r.
Proof.
  intros J1 J2 D1 D2 F C. destruct (data_holds _ _ _ D1) as [b1 H1]. destruct (data_holds _ _ _ D2) as [b2 H2]. pose proof (proj1 (good_size _ _ (h_good _ _ _ _ H1))) as W.
  apply C45_same_content; auto; [clear - F; induction F as [|k keys (P & _) F IH]; constructor; auto|].
  unfold compare_tuples2 in C. induction F as [|[pa dir] keys (P & D & FF) F IH]; cbn [map]; [contradiction|]. cbn [fst snd] in *. cbn [compare_keys] in C.
  destruct (C43_values d m1 o1 pa D1 P) as (x & X & _). destruct (C43_values d m2 o2 pa D2 P) as (y & Y & _).
  rewrite (elements2_order d pa m1 o1 x m2 o2 y) in C by auto. cbn [bind] in C.
  assert (O : order x y = Eq) by (destruct (order x y); [reflexivity| |]; destruct D as [->| ->]; discriminate C). rewrite O in C.
  intros pb [<-|I]; [|apply IH; auto]. exists x. split; [exact X|].
  destruct (key_means _ _ _ _ _ _ H1 P X) as (v1 & E1 & M1). destruct (key_means _ _ _ _ _ _ H2 P Y) as (v2 & E2 & M2). destruct (get_type_info d pa) as [t|] eqn:T.
  - rewrite (equal_values t v1 x M1 (type_wf pa d t W P T) (FF t eq_refl) v2 y M2 O). exact Y.
  - destruct M1 as [_ ->]. destruct M2 as [_ <-]. exact Y.
Qed.
Print Assumptions C52_equal_tuples_hash_alike_partial.
(** with floats it fails: 0.0 and -0.0 compare equal and hash differently *)
Definition float4 : dti := final (num FLOAT false 4).
Theorem C52_refuted : exists t v1 x v2 y junk h, usable t /\ zlen junk = 40 /\ datum_is t v1 x /\ datum_is t v2 y /\ compare_datum2 v1 v2 (Some t) = Ok 0
  /\ hash_datum fnv_64_update junk v1 t h <> hash_datum fnv_64_update junk v2 t h.
Proof.
  exists float4, (DFloat 0), (VNum (OFloat 0)), (DFloat (2 ^ 31)), (VNum (OFloat (2 ^ 31))), (repeat Byte.x00 40), 14695981039346656037.
  split; [exists (num FLOAT false 4), float4, []; split; [unfold num; build; congruence|]; split; [vm_compute; reflexivity|]; split; [constructor|]; split; [reflexivity|]; vm_compute; auto|].
  split; [reflexivity|]. split; [split; [vm_compute; intuition congruence|eexists; split; reflexivity]|]. split; [split; [vm_compute; intuition congruence|eexists; split; reflexivity]|].
  split; [vm_compute; reflexivity|]. vm_compute. discriminate.
Qed.
Print Assumptions C52_refuted.

(** ** examples *)
Definition junk : mem := repeat Byte.xaa 40.
(** the text at [1] and the array of a NULL and a pair at [3] of e7 *)
Example ex_hash : hash_tuple fnv_64_update junk exd [[0]; [1]; [3]] e7 0 14695981039346656037
    = Ok (fold_left fnv_64_update (list_byte_of_string "good bye" ++ enc 2 0 ++ list_byte_of_string "ab") 14695981039346656037)
  /\ hash_data fnv_64_update exd e7 0 7 = hash_element fnv_64_update junk exd [] e7 0 7.
Proof. split; vm_compute; reflexivity. Qed.
Example ex_hash_in_place : hash_data fnv_64_update exd e7 0 7 = hash_element fnv_64_update junk exd [] e7 0 7 /\ hash_containee fnv_64_update exd e7 0 3 7 = hash_element fnv_64_update junk exd [3] e7 0 7.
Proof.
  split.
  - apply (C45_in_place fnv_64_update junk exd [] e7 0 exd 0); [reflexivity|exact data_e7|constructor|constructor|discriminate].
  - apply (C45_containee_in_place fnv_64_update junk exd [] 3 e7 0 exd 0); [reflexivity|exact data_e7|constructor; [lia|constructor]|constructor].
Qed.
(** a check that there are no floats in a type *)
Fixpoint no_float (t : dti) : bool :=
  negb (data_type_eqb (type t) FLOAT)
  && match containee_ t with Some c => no_float c | None => true end
  && (fix all (cs : list (position * dti)) : bool := match cs with [] => true | (_, c) :: cs' => no_float c && all cs' end) (containees t).
Lemma no_float_free t : no_float t = true -> float_free t.
Proof.
  induction t as [t IC IT] using dti_induction. intros N [|i pa] c PO G; cbn [get_type_info] in G.
  - injection G as <-. destruct t; cbn in *. destruct (data_type_eqb type FLOAT) eqn:E; [discriminate|]. intros ->. discriminate.
  - inversion PO; subst. destruct (containee_type_without_data t i) as [t'|] eqn:CT; [|discriminate]. cut (float_free t'); [intro F; apply (F pa c); assumption|].
    unfold containee_type_without_data in CT. destruct (negb (is_container_type_info t)); [discriminate|]. destruct (negb (is_variable_element_count t) && (element_count t <=? i)); [discriminate|].
    assert (A : (forall c', containee_ t = Some c' -> no_float c' = true) /\ forall p c', In (p, c') (containees t) -> no_float c' = true).
    { clear - N. destruct t; cbn [no_float DataType.containee_ DataType.containees DataType.type] in *. apply andb_prop in N. destruct N as [N N3]. apply andb_prop in N. destruct N as [_ N2].
      split; [intros c' Q; rewrite Q in N2; exact N2|].
      clear - N3. induction containees as [|[q e] cs IH]; [contradiction|]. apply andb_prop in N3. destruct N3 as [A B]. intros p c' [Q|Q]; [congruence|apply (IH B p c' Q)]. }
    destruct A as (A1 & A3). assert (U : float_free uint8_type).
    { intros [|j pb] e _ G'; [injection G' as <-; discriminate|discriminate G']. }
    assert (CC : float_free (containee t)) by (unfold containee; destruct (containee_ t) as [e|] eqn:Ce; [apply IC; auto|exact U]).
    destruct (type t) eqn:T; try (injection CT as <-; assumption).
    destruct (nth_error (containees t) (Z.to_nat i)) as [[p e]|] eqn:En; [|discriminate]. injection CT as <-. apply nth_error_In in En. apply (IT p e En), (A3 p e En).
Qed.
(** e6 and e7 differ, but only in the element [1] *)
Example ex_equal : e6 <> e7 /\ exists r, hash_tuple fnv_64_update junk exd [[0]; [3]] e6 0 7 = Ok r /\ hash_tuple fnv_64_update (repeat Byte.x00 40) exd [[0]; [3]] e7 0 7 = Ok r.
Proof.
  split; [intro E; assert (F : (if list_eq_dec Byte.byte_eq_dec e6 e7 then true else false) = false) by (vm_compute; reflexivity); rewrite E in F; destruct (list_eq_dec Byte.byte_eq_dec e7 e7); [discriminate|contradiction]|].
  apply (C52_equal_tuples_hash_alike_partial fnv_64_update junk (repeat Byte.x00 40) exd e6 0 e7 0 [([0], 1); ([3], -1)]); [reflexivity|reflexivity|exact data_e6|exact data_e7| |vm_compute; reflexivity].
  assert (FE : forall pa t, get_type_info exd pa = Some t -> no_float t = true -> float_free t) by (intros; apply no_float_free; assumption).
  constructor; [|constructor; [|constructor]]; (split; [constructor; [lia|constructor]|]); (split; [vm_compute; auto|]); intros t G; apply no_float_free; revert G; vm_compute; intro G; injection G as <-; reflexivity.
Qed.
(** the array of the bytes of "ab" *)
Definition a0 : mem := init0 bytes_array (zmem 40).
Definition a1 : mem := get a0 (expand_element bytes_array [] a0 0 0 2 20).
Definition a2 : mem := get a1 (set_element bytes_array [0] a1 0 (DUint 97) 10).
Definition a3 : mem := get a2 (set_element bytes_array [1] a2 0 (DUint 98) 10).
Example data_a3 : data_at bytes_array a3 0.
Proof.
  assert (data_at bytes_array a0 0) as D0.
  { apply (init0_data (var_array 40 (num UINT false 1))); [unfold var_array, num; build; congruence|reflexivity|reflexivity|vm_compute; discriminate|vm_compute; discriminate]. }
  assert (data_at bytes_array a1 0) as D1.
  { eapply (da_expand bytes_array a0 0 [] 0 2 20); [exact D0|pathy|roomy|lia| |vm_compute; reflexivity]. intros t a s n EA E1 E2. inversion EA; subst.
    vm_compute in E1, E2. injection E1 as <-. injection E2 as <-. split; [lia|]. split; [vm_compute; reflexivity|]. intro B. vm_compute in B. discriminate. }
  assert (data_at bytes_array a2 0) as D2.
  { eapply (da_set bytes_array a1 0 [0] (DUint 97) 10); [exact D1|pathy|roomy| | |vm_compute; reflexivity]; [intros t E; vm_compute in E; injection E as <-; vm_compute; intuition discriminate|intros; discriminate]. }
  eapply (da_set bytes_array a2 0 [1] (DUint 98) 10); [exact D2|pathy|roomy| | |vm_compute; reflexivity]; [intros t E; vm_compute in E; injection E as <-; vm_compute; intuition discriminate|intros; discriminate].
Qed.
Example ex_string_as_array : hash_datum fnv_64_update junk (str "ab") (final (var_string 300)) 7 = hash_datum fnv_64_update junk (DPtr a3 0) bytes_array 7.
Proof.
  refine (proj1 (C45_string_as_array fnv_64_update junk _ (str "ab") bytes_array (DPtr a3 0) (containee bytes_array) (list_byte_of_string "ab") 7 eq_refl (proj2 ex_usable) (proj1 ex_usable) _ _ _ _ _ _ _)).
  - left. reflexivity.
  - reflexivity.
  - intros i I. assert (i = 0 \/ i = 1) as [-> | ->] by (change (zlen (list_byte_of_string "ab")) with 2 in I; lia); vm_compute; reflexivity.
  - reflexivity.
  - reflexivity.
  - split; [left; reflexivity|]. exists (list_byte_of_string "ab"). split; vm_compute; reflexivity.
  - split; [right; reflexivity|]. split; [apply data_a3|]. eapply value_list_cases; [vm_compute; reflexivity|vm_compute; reflexivity|].
    intros [|[|k]] L; [| |cbn in L; lia]; eapply value_num; vm_compute; reflexivity.
Qed.
