(** * C43 for tuples of different definitions *)
From Coq Require Import String.
From Verif Require Import HashFacts SizeProps TupleProps TupleExamples SerdeProps CompareProps HashProps.
From Coq Require Import ZifyBool ZifyNat ZifyN Zify.
Ltac Zify.zify_post_hook ::= idtac.
Open Scope list_scope.
Open Scope Z_scope.

Lemma same_sequence a b x : same_description false a b -> sequence_of a = Some x -> exists y, sequence_of b = Some y /\ comparable x y.
Proof.
  intros D E. apply sd_unfold in D. destruct D as [(T & _) K]. unfold sequence_of in *. rewrite <- T. destruct (type a) eqn:TA; try discriminate.
  - injection E as <-. exists uint8_type. split; [reflexivity|apply comp_numerals; exact I].
  - injection E as <-. exists uint8_type. split; [reflexivity|apply comp_numerals; exact I].
  - destruct K as (_ & _ & x' & y & Ex & Ey & K). exists y. split; [exact Ey|]. assert (x' = x) as -> by congruence. apply comp_same, K.
Qed.
Lemma numeral_sequence a x : numeral a -> sequence_of a = Some x -> False.
Proof. unfold numeral, sequence_of. destruct (type a); try contradiction; discriminate. Qed.
Lemma same_numeral a b : same_description false a b -> numeral a -> numeral b.
Proof. intros D N. apply sd_unfold in D. destruct D as [(T & _) _]. unfold numeral in *. rewrite <- T. exact N. Qed.
Lemma comparable_trans a b c : comparable a b -> comparable b c -> comparable a c.
Proof.
  assert (S : forall b c, comparable b c -> forall a, same_description false a b -> comparable a c).
  { clear. induction 1 as [b c B C|b c D|b c x y B C K IH]; intros a Q.
    - apply comp_numerals; [|exact C]. apply (same_numeral b a (sd_sym _ _ _ Q) B).
    - apply comp_same. eapply sd_trans; eauto.
    - apply sd_unfold in Q. destruct Q as [(T & _) Q]. unfold sequence_of in B. rewrite <- T in B. destruct (type a) eqn:TA; try discriminate.
      + apply (comp_sequences a c x y); [unfold sequence_of; rewrite TA; exact B|exact C|exact K].
      + apply (comp_sequences a c x y); [unfold sequence_of; rewrite TA; exact B|exact C|exact K].
      + destruct Q as (_ & _ & x' & x0 & Ex & Ey & Q). assert (x0 = x) as -> by congruence. apply (comp_sequences a c x' y); [unfold sequence_of; rewrite TA; exact Ex|exact C|apply IH, Q]. }
  intro H. revert c. induction H as [a b A B|a b D|a b x y A B K IH]; intros c H.
  - inversion H as [? ? B' C|? ? D|? ? x y B' C K]; subst.
    + apply comp_numerals; assumption.
    + apply comp_numerals; [exact A|apply (same_numeral b c D B)].
    + destruct (numeral_sequence b x B B').
  - eapply S; eauto.
  - inversion H as [? ? B' C|? ? D|? ? x' y' B' C K']; subst.
    + destruct (numeral_sequence b y B' B).
    + destruct (same_sequence b c y D B) as (z & C & Z). apply (comp_sequences a c x z A C). apply IH, Z.
    + assert (x' = y) as -> by congruence. apply (comp_sequences a c x y' A C). apply IH, K'.
Qed.
(** which values can be compared is an equivalence between types *)
Theorem C43_comparable t1 t2 t3 : usable t1 ->
  comparable t1 t1 /\ (comparable t1 t2 -> comparable t2 t1) /\ (comparable t1 t2 -> comparable t2 t3 -> comparable t1 t3).
Proof.
  intro U. split; [apply comp_same, wf_sd_refl, usable_wf, U|]. split; [apply comparable_sym|apply comparable_trans].
Qed.
Print Assumptions C43_comparable.
(** a key of three tuples of three definitions, and that the types can be compared *)
Definition common_key (d1 d2 d3 : dti) (k : (list Z * list Z * list Z) * Z) : Prop :=
  let '(pa1, pa2, pa3, dir) := k in
  path_ok pa1 /\ path_ok pa2 /\ path_ok pa3 /\ direction dir
  /\ comparable_keys (get_type_info d1 pa1) (get_type_info d2 pa2)
  /\ comparable_keys (get_type_info d2 pa2) (get_type_info d3 pa3)
  /\ comparable_keys (get_type_info d1 pa1) (get_type_info d3 pa3).
(** ordering by keys is a total preorder also on tuples of several definitions,
    for example for the merge of tables that keep a key as integers of
    different widths, or as a string here and as an array there *)
Theorem C43_mixed_preorder d1 m1 o1 d2 m2 o2 d3 m3 o3 (keys : list ((list Z * list Z * list Z) * Z)) :
  data_at d1 m1 o1 -> data_at d2 m2 o2 -> data_at d3 m3 o3 -> short_names d1 -> short_names d2 -> short_names d3 ->
  Forall (common_key d1 d2 d3) keys ->
  let k12 := map (fun k => let '(pa1, pa2, pa3, dir) := k in ((pa1, pa2, false), dir)) keys in
  let k21 := map (fun k => let '(pa1, pa2, pa3, dir) := k in ((pa2, pa1, false), dir)) keys in
  let k23 := map (fun k => let '(pa1, pa2, pa3, dir) := k in ((pa2, pa3, false), dir)) keys in
  let k13 := map (fun k => let '(pa1, pa2, pa3, dir) := k in ((pa1, pa3, false), dir)) keys in
  exists c12 c21 c23 c13, compare_tuples false m1 o1 d1 m2 o2 d2 k12 = Ok c12 /\ compare_tuples false m2 o2 d2 m1 o1 d1 k21 = Ok c21
  /\ compare_tuples false m2 o2 d2 m3 o3 d3 k23 = Ok c23 /\ compare_tuples false m1 o1 d1 m3 o3 d3 k13 = Ok c13
  /\ (c12 = -1 \/ c12 = 0 \/ c12 = 1) /\ c21 = - c12
  /\ (c12 <= 0 -> c23 <= 0 -> c13 <= 0) /\ (c12 = 0 -> c13 = c23).
Proof.
  intros D1 D2 D3 S1 S2 S3 F k12 k21 k23 k13.
  assert (V : exists vals : list (value * value * value * Z), Forall (fun v => direction (snd v)) vals
    /\ Forall2 (fun k v => let '(pa1, pa2, pa3, dir) := k in let '(x, y, z, dir') := v in dir = dir' /\ common_key d1 d2 d3 k /\ key_is d1 m1 o1 pa1 x /\ key_is d2 m2 o2 pa2 y /\ key_is d3 m3 o3 pa3 z) keys vals).
  { clear k12 k21 k23 k13. induction F as [|[[[pa1 pa2] pa3] dir] keys K F (vals & A & B)]; [exists []; split; constructor|]. pose proof K as (P1 & P2 & P3 & D & _).
    destruct (C43_values d1 m1 o1 pa1 D1 P1) as (x & X & _). destruct (C43_values d2 m2 o2 pa2 D2 P2) as (y & Y & _). destruct (C43_values d3 m3 o3 pa3 D3 P3) as (z & Z & _).
    exists ((x, y, z, dir) :: vals). split; constructor; auto. }
  destruct V as (vals & A & B).
  assert (E12 : compare_tuples false m1 o1 d1 m2 o2 d2 k12 = Ok (by_keys (map (fun v => let '(x, y, z, dir) := v in (x, y, dir)) vals))).
  { apply C43_compare_tuples; auto. unfold k12, keys_of. clear - B. induction B as [|[[[pa1 pa2] pa3] dir] [[[x y] z] dir'] keys vals (E & (P1 & P2 & P3 & D & C1 & C2 & C3) & X & Y & Z) B IH]; cbn [map]; constructor; auto.
    subst. do 6 (split; auto). split; [discriminate|assumption]. }
  assert (E23 : compare_tuples false m2 o2 d2 m3 o3 d3 k23 = Ok (by_keys (map (fun v => let '(x, y, z, dir) := v in (y, z, dir)) vals))).
  { apply C43_compare_tuples; auto. unfold k23, keys_of. clear - B. induction B as [|[[[pa1 pa2] pa3] dir] [[[x y] z] dir'] keys vals (E & (P1 & P2 & P3 & D & C1 & C2 & C3) & X & Y & Z) B IH]; cbn [map]; constructor; auto.
    subst. do 6 (split; auto). split; [discriminate|assumption]. }
  assert (E13 : compare_tuples false m1 o1 d1 m3 o3 d3 k13 = Ok (by_keys (map (fun v => let '(x, y, z, dir) := v in (x, z, dir)) vals))).
  { apply C43_compare_tuples; auto. unfold k13, keys_of. clear - B. induction B as [|[[[pa1 pa2] pa3] dir] [[[x y] z] dir'] keys vals (E & (P1 & P2 & P3 & D & C1 & C2 & C3) & X & Y & Z) B IH]; cbn [map]; constructor; auto.
    subst. do 6 (split; auto). split; [discriminate|assumption]. }
  assert (E21 : compare_tuples false m2 o2 d2 m1 o1 d1 k21 = Ok (by_keys (map (fun v => let '(x, y, z, dir) := v in (y, x, dir)) vals))).
  { apply C43_compare_tuples; auto. unfold k21, keys_of. clear - B. induction B as [|[[[pa1 pa2] pa3] dir] [[[x y] z] dir'] keys vals (E & (P1 & P2 & P3 & D & C1 & C2 & C3) & X & Y & Z) B IH]; cbn [map]; constructor; auto.
    subst. do 6 (split; auto). split; [discriminate|]. destruct (get_type_info d1 pa1), (get_type_info d2 pa2); cbn in *; auto. apply comparable_sym, C1. }
  eexists _, _, _, _. split; [exact E12|]. split; [exact E21|]. split; [exact E23|]. split; [exact E13|].
  split; [apply by_keys_range; clear - A; induction A as [|[[[x y] z] dir] l D A IH]; constructor; auto|].
  split; [rewrite <- by_keys_swap, map_map; f_equal; apply map_ext; intros [[[x y] z] dir]; reflexivity|].
  split; [apply by_keys_trans; exact A|].
  clear - A. induction A as [|[[[x y] z] dir] l D A IH]; cbn [map by_keys]; [reflexivity|]. cbn [snd] in D. destruct (order x y) eqn:O.
  - rewrite (proj1 (order_compat x y z) O). intro Q. destruct (order y z); auto.
  - cbn [sign]. destruct D as [->| ->]; lia.
  - cbn [sign]. destruct D as [->| ->]; lia.
Qed.
Print Assumptions C43_mixed_preorder.
(** the text "good bye" in e7, the array of the bytes of "ab", and the text "ab"
    in the array in e6; the number in e7 with the two other numbers *)
Example ex_common_keys : data_at bytes_array a3 0 /\ short_names bytes_array /\ Forall (common_key exd bytes_array exd) [(([1], [], [3; 1; 1]), -1); (([2], [0], [3; 1; 0]), 1)].
Proof.
  split; [exact data_a3|]. split; [vm_compute; repeat split|]. constructor; [|constructor; [|constructor]].
  - split; [pathy|]. split; [pathy|]. split; [pathy|]. split; [right; reflexivity|].
    split; [|split]; (eapply comp_sequences; [reflexivity|reflexivity|]; apply comp_numerals; exact I).
  - split; [pathy|]. split; [pathy|]. split; [pathy|]. split; [left; reflexivity|].
    split; [|split]; apply comp_numerals; exact I.
Qed.
Example ex_mixed : compare_tuples false e7 0 exd a3 0 bytes_array [(([1], [], false), -1); (([2], [0], false), 1)] = Ok (-1)
  /\ compare_tuples false a3 0 bytes_array e6 0 exd [(([], [3; 1; 1], false), -1); (([0], [3; 1; 0], false), 1)] = Ok 1.
Proof. split; vm_compute; reflexivity. Qed.
(** C52 speaks of one type for a reason: the same number in types of different
    widths compares equal and hashes differently *)
Theorem C52_refuted_across_types : exists t1 t2 v x junk h, usable t1 /\ usable t2 /\ zlen junk = 40 /\ datum_is t1 v x /\ datum_is t2 v x
  /\ compare_datum v (Some t1) v (Some t2) = Ok 0 /\ hash_datum fnv_64_update junk v t1 h <> hash_datum fnv_64_update junk v t2 h.
Proof.
  exists (final (num UINT false 1)), (final (num UINT false 2)), (DUint 5), (VNum (OUint 5)), (repeat Byte.x00 40), 14695981039346656037.
  split; [exists (num UINT false 1), (final (num UINT false 1)), []; split; [unfold num; build; congruence|]; split; [vm_compute; reflexivity|]; split; [constructor|]; split; [reflexivity|]; vm_compute; auto|].
  split; [exists (num UINT false 2), (final (num UINT false 2)), []; split; [unfold num; build; congruence|]; split; [vm_compute; reflexivity|]; split; [constructor|]; split; [reflexivity|]; vm_compute; auto|].
  split; [reflexivity|]. split; [split; [vm_compute; intuition congruence|eexists; split; reflexivity]|]. split; [split; [vm_compute; intuition congruence|eexists; split; reflexivity]|].
  split; [vm_compute; reflexivity|]. vm_compute. discriminate.
Qed.
Print Assumptions C52_refuted_across_types.
