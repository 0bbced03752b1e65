(** * C79: sets in place on different entries of a page do not interact

    [reachable], [in_place_ok], [contents], [header] are in PageSpec.v. *)
From Coq Require Import String.
From Verif Require Import OpFacts SizeProps TupleProps TupleExamples.
From Coq Require Import ZifyBool ZifyNat ZifyN Zify.
From Verif Require Import BytesFacts SpecFacts PageReach PageExamples PageElement PageElementProps PlaceProps.
From Verif Require Import PlaceSpec.
Ltac Zify.zify_post_hook ::= idtac.
Open Scope list_scope.
Open Scope Z_scope.

(** what the functions of page_layout.h tell about two pages is the same *)
Definition tell_the_same (ps : Z) (d : size_def) (p q : mem) : Prop :=
  header ps p = header ps q /\ contents ps d p = contents ps d q
  /\ get_free_space_on_page p ps d = get_free_space_on_page q ps d
  /\ get_space_occupied_by_all_tuples_on_page p ps d = get_space_occupied_by_all_tuples_on_page q ps d
  /\ forall k, is_u32 k -> get_nth_tuple_on_page p ps d k = get_nth_tuple_on_page q ps d k.

Lemma replace_swap i j (x y : ext) c : 0 <= i < zlen c -> 0 <= j < zlen c -> i <> j ->
  replace_at j y (replace_at i x c) = replace_at i x (replace_at j y c).
Proof.
  intros I J N. assert (L : forall k z, 0 <= k < zlen c -> zlen (replace_at k z c) = zlen c) by (intros; apply zlen_replace_at; assumption).
  apply (list_ext_z _ _ None); [rewrite !zlen_replace_at; rewrite ?L; lia|]. intros k Hk. rewrite !zlen_replace_at in Hk by (rewrite ?L; lia).
  rewrite !nth_replace_at by (rewrite ?L; lia). destruct (Z.eqb_spec k i), (Z.eqb_spec k j); try reflexivity; lia.
Qed.

(** one set in place moves no tuple and leaves the free space as it is *)
Lemma set_keeps ps h d p ty t i pa v r p' : limits ps h d -> reachable ps h d p -> in_place_ok ps d p ty t i pa v -> set_element_in_place p ps t d i pa v = Ok (r, p') ->
  get_free_space_on_page p' ps d = get_free_space_on_page p ps d /\ forall k, is_u32 k -> get_nth_tuple_on_page p' ps d k = get_nth_tuple_on_page p ps d k.
Proof.
  intros L R IP E. pose proof (reachable_set ps h d p ty t i pa v r p' R IP E) as R'. pose proof L as (Hps & Hh & Hdef).
  destruct (reach_view _ _ Hps Hdef _ _ Hh R) as (hb & c & f & V & Hz).
  destruct (in_place_step ps d Hps Hdef _ _ _ _ _ _ _ _ _ V IP) as (r1 & p1 & c' & f' & E1 & V' & F & M). rewrite E in E1. injection E1 as <- <-.
  assert (Hi : is_u32 i) by apply IP. unfold is_u32 in *.
  destruct (sd_variable d) eqn:Ev.
  - destruct (C77_have_places ps h d p L R) as (l & P & _). pose proof (C77_in_place _ _ _ _ _ _ _ _ _ _ _ _ L Ev R P IP E) as P'.
    destruct (C77_free_space ps h d p l L Ev R P) as (a & A & FS). destruct (C77_free_space ps h d p' l L Ev R' P') as (a' & A' & FS').
    rewrite (v_allotted ps d Hps Hdef _ _ _ _ V) in A. rewrite (v_allotted ps d Hps Hdef _ _ _ _ V') in A'. injection A as <-. injection A' as <-.
    split; [congruence|]. intros k Hk. destruct P as [PC P], P' as [PC' P']. destruct (Z_lt_le_dec k (zlen l)) as [K|K]; [rewrite P, P' by lia; reflexivity|].
    pose proof (v_count ps d Hps Hdef _ _ _ _ V) as C1. pose proof (v_count ps d Hps Hdef _ _ _ _ V') as C2. rewrite PC in C1. rewrite PC' in C2. injection C1 as C1. injection C2 as C2.
    destruct (v_get_nth ps d Hps Hdef _ _ _ _ k V ltac:(lia)) as ([o|] & G & X); [lia|]. destruct (v_get_nth ps d Hps Hdef _ _ _ _ k V' ltac:(lia)) as ([o|] & G' & X'); [lia|]. congruence.
  - destruct (nth (Z.to_nat i) c None) as [x|] eqn:En; [|destruct (F M) as [-> _]; auto]. destruct r; [|destruct (F eq_refl) as [-> _]; auto].
    destruct M as (b & n & _ & _ & _ & _ & _ & M). specialize (M eq_refl). subst c'.
    assert (Hlt : i < zlen c) by (destruct (Z.ltb_spec i (zlen c)); [assumption|]; rewrite nth_overflow in En by (unfold zlen in *; lia); discriminate).
    assert (Lr : zlen (replace_at i (Some (slice b 0 n)) c) = zlen c) by (apply zlen_replace_at; lia).
    rewrite (v_free ps d Hps Hdef _ _ _ _ V), (v_free ps d Hps Hdef _ _ _ _ V').
    unfold view in V, V'. rewrite Ev in V, V'. destruct V as [V ->], V' as [V' ->]. split; [rewrite Lr; reflexivity|].
    intros k Hk. unfold get_nth_tuple_on_page, get_page_layout_type, is_variable_sized. rewrite Ev.
    rewrite (proj1 (fr_get_nth ps d Hps Hdef Ev _ _ _ k V ltac:(lia))), (proj1 (fr_get_nth ps d Hps Hdef Ev _ _ _ k V' ltac:(lia))). rewrite Lr.
    destruct (Z.ltb_spec k (zlen c)); [|reflexivity]. rewrite nth_replace_at by lia. destruct (Z.eqb_spec k i) as [->|]; [rewrite En; reflexivity|reflexivity].
Qed.

(** the second set is within the contract after the first one, and has the same
    answer as without it *)
Lemma set_after ps h d p ty t i pa v ty' t' j pb w r p' : limits ps h d -> reachable ps h d p -> in_place_ok ps d p ty t i pa v -> in_place_ok ps d p ty' t' j pb w -> i <> j ->
  set_element_in_place p ps t d i pa v = Ok (r, p') -> in_place_ok ps d p' ty' t' j pb w.
Proof.
  intros L R IP (TB & FIN & SDD & Hj & PO & FT & DP & HD) N E. repeat (split; [assumption|]). intros x X. apply HD. rewrite <- X. symmetry.
  destruct r.
  - destruct (C38_reads_back ps h d p ty t i pa v p' L R IP E) as (_ & _ & _ & _ & _ & _ & _ & _ & _ & _ & _ & OT). apply OT; [exact Hj|congruence].
  - pose proof L as (Hps & Hh & Hdef). destruct (reach_view _ _ Hps Hdef _ _ Hh R) as (hb & c & f & V & Hz).
    destruct (in_place_step ps d Hps Hdef _ _ _ _ _ _ _ _ _ V IP) as (r1 & p1 & c' & f' & E1 & _ & F & _). rewrite E in E1. injection E1 as <- <-. destruct (F eq_refl) as [-> _]. reflexivity.
Qed.

Theorem C79_commute : forall ps h d p ty t i pa v ty' t' j pb w, limits ps h d -> reachable ps h d p ->
  in_place_ok ps d p ty t i pa v -> in_place_ok ps d p ty' t' j pb w -> i <> j ->
  exists r s p1 p12 p2 p21,
    set_element_in_place p ps t d i pa v = Ok (r, p1) /\ set_element_in_place p1 ps t' d j pb w = Ok (s, p12)
    /\ set_element_in_place p ps t' d j pb w = Ok (s, p2) /\ set_element_in_place p2 ps t d i pa v = Ok (r, p21)
    /\ reachable ps h d p12 /\ reachable ps h d p21 /\ tell_the_same ps d p12 p21.
Proof.
  intros ps h d p ty t i pa v ty' t' j pb w L R I1 I2 N. pose proof L as (Hps & Hh & Hdef).
  destruct (reach_view _ _ Hps Hdef _ _ Hh R) as (hb & c & f & V & Hz).
  destruct (in_place_step ps d Hps Hdef _ _ _ _ _ _ _ _ _ V I1) as (r & p1 & c1 & f1 & E1 & V1 & F1 & M1).
  destruct (in_place_step ps d Hps Hdef _ _ _ _ _ _ _ _ _ V I2) as (s & p2 & c2 & f2 & E2 & V2 & F2 & M2).
  pose proof (set_after ps h d p ty t i pa v ty' t' j pb w r p1 L R I1 I2 N E1) as J2.
  pose proof (set_after ps h d p ty' t' j pb w ty t i pa v s p2 L R I2 I1 ltac:(congruence) E2) as J1.
  pose proof (reachable_set ps h d p ty t i pa v r p1 R I1 E1) as R1. pose proof (reachable_set ps h d p ty' t' j pb w s p2 R I2 E2) as R2.
  destruct (in_place_step ps d Hps Hdef _ _ _ _ _ _ _ _ _ V1 J2) as (s' & p12 & c12 & f12 & E12 & V12 & F12 & M12).
  destruct (in_place_step ps d Hps Hdef _ _ _ _ _ _ _ _ _ V2 J1) as (r' & p21 & c21 & f21 & E21 & V21 & F21 & M21).
  assert (Hi : is_u32 i) by apply I1. assert (Hj : is_u32 j) by apply I2. unfold is_u32 in Hi, Hj.
  assert (HL : forall k x, 0 <= k -> nth (Z.to_nat k) c None = Some x -> k < zlen c).
  { intros k x K Ek. destruct (Z.ltb_spec k (zlen c)); [assumption|]. rewrite nth_overflow in Ek by (unfold zlen in *; lia). discriminate. }
  (* an entry is as it was after a set of the other *)
  assert (K1 : nth (Z.to_nat j) c1 None = nth (Z.to_nat j) c None).
  { destruct (nth (Z.to_nat i) c None) as [x|] eqn:En; [|destruct (F1 M1) as [_ ->]; reflexivity]. destruct r; [|destruct (F1 eq_refl) as [_ ->]; reflexivity].
    destruct M1 as (b & n & _ & _ & _ & _ & _ & M1). rewrite (M1 eq_refl). pose proof (HL i x ltac:(lia) En). rewrite nth_replace_at by lia. destruct (Z.eqb_spec j i); [congruence|reflexivity]. }
  assert (K2 : nth (Z.to_nat i) c2 None = nth (Z.to_nat i) c None).
  { destruct (nth (Z.to_nat j) c None) as [x|] eqn:En; [|destruct (F2 M2) as [_ ->]; reflexivity]. destruct s; [|destruct (F2 eq_refl) as [_ ->]; reflexivity].
    destruct M2 as (b & n & _ & _ & _ & _ & _ & M2). rewrite (M2 eq_refl). pose proof (HL j x ltac:(lia) En). rewrite nth_replace_at by lia. destruct (Z.eqb_spec i j); [congruence|reflexivity]. }
  rewrite K1 in M12. rewrite K2 in M21.
  assert (C : s' = s /\ r' = r /\ c12 = c21).
  { destruct (nth (Z.to_nat i) c None) as [x|] eqn:Ei; destruct (nth (Z.to_nat j) c None) as [y|] eqn:Ej.
    - destruct M1 as (b & n & A1 & _ & A2 & _ & _ & A3), M21 as (b' & n' & B1 & _ & B2 & _ & _ & B3). rewrite A1 in B1. injection B1 as <- <-. rewrite A2 in B2. injection B2 as <-.
      destruct M2 as (e & m & C1 & _ & C2 & _ & _ & C3), M12 as (e' & m' & D1 & _ & D2 & _ & _ & D3). rewrite C1 in D1. injection D1 as <- <-. rewrite C2 in D2. injection D2 as <-.
      split; [reflexivity|]. split; [reflexivity|]. pose proof (HL i x ltac:(lia) Ei). pose proof (HL j y ltac:(lia) Ej).
      destruct r, s.
      + rewrite (D3 eq_refl), (B3 eq_refl), (A3 eq_refl), (C3 eq_refl). apply replace_swap; lia.
      + rewrite (proj2 (F12 eq_refl)), (B3 eq_refl), (A3 eq_refl), (proj2 (F2 eq_refl)). reflexivity.
      + rewrite (D3 eq_refl), (proj2 (F21 eq_refl)), (proj2 (F1 eq_refl)), (C3 eq_refl). reflexivity.
      + rewrite (proj2 (F12 eq_refl)), (proj2 (F21 eq_refl)), (proj2 (F1 eq_refl)), (proj2 (F2 eq_refl)). reflexivity.
    - subst s s'. destruct M1 as (b & n & A1 & _ & A2 & _ & _ & A3), M21 as (b' & n' & B1 & _ & B2 & _ & _ & B3). rewrite A1 in B1. injection B1 as <- <-. rewrite A2 in B2. injection B2 as <-.
      split; [reflexivity|]. split; [reflexivity|]. rewrite (proj2 (F12 eq_refl)). destruct r; [rewrite (B3 eq_refl), (A3 eq_refl), (proj2 (F2 eq_refl))|rewrite (proj2 (F21 eq_refl)), (proj2 (F1 eq_refl)), (proj2 (F2 eq_refl))]; reflexivity.
    - subst r r'. destruct M2 as (e & m & C1 & _ & C2 & _ & _ & C3), M12 as (e' & m' & D1 & _ & D2 & _ & _ & D3). rewrite C1 in D1. injection D1 as <- <-. rewrite C2 in D2. injection D2 as <-.
      split; [reflexivity|]. split; [reflexivity|]. rewrite (proj2 (F21 eq_refl)). destruct s; [rewrite (D3 eq_refl), (C3 eq_refl), (proj2 (F1 eq_refl))|rewrite (proj2 (F12 eq_refl)), (proj2 (F1 eq_refl)), (proj2 (F2 eq_refl))]; reflexivity.
    - subst. split; [reflexivity|]. split; [reflexivity|]. rewrite (proj2 (F12 eq_refl)), (proj2 (F21 eq_refl)), (proj2 (F1 eq_refl)), (proj2 (F2 eq_refl)). reflexivity. }
  destruct C as (-> & -> & C). exists r, s, p1, p12, p2, p21. do 4 (split; [assumption|]).
  split; [exact (reachable_set _ _ _ _ _ _ _ _ _ _ _ R1 J2 E12)|]. split; [exact (reachable_set _ _ _ _ _ _ _ _ _ _ _ R2 J1 E21)|].
  destruct (set_keeps _ _ _ _ _ _ _ _ _ _ _ L R I1 E1) as [X1 Y1]. destruct (set_keeps _ _ _ _ _ _ _ _ _ _ _ L R1 J2 E12) as [X2 Y2].
  destruct (set_keeps _ _ _ _ _ _ _ _ _ _ _ L R I2 E2) as [X3 Y3]. destruct (set_keeps _ _ _ _ _ _ _ _ _ _ _ L R2 J1 E21) as [X4 Y4].
  split; [rewrite (v_header ps d Hps Hdef _ _ _ _ V12), (v_header ps d Hps Hdef _ _ _ _ V21); reflexivity|].
  split; [rewrite (v_contents ps d Hps Hdef _ _ _ _ V12), (v_contents ps d Hps Hdef _ _ _ _ V21), C; reflexivity|].
  split; [congruence|]. split; [|intros k Hk; rewrite Y2, Y4, Y1, Y3 by exact Hk; reflexivity].
  rewrite (v_occupied ps d Hps Hdef _ _ _ _ V12), (v_occupied ps d Hps Hdef _ _ _ _ V21), C. reflexivity.
Qed.
Print Assumptions C79_commute.

(** ** a case: the strings of entries 0 and 2 of the page of C38 become shorter *)
Open Scope string_scope.
Open Scope Z_scope.
Example esp_in_place_ok_2 : in_place_ok 128 exs esp ex_type exd 2 [1] (str "ab").
Proof.
  split; [apply ex_type_built|]. split; [vm_compute; reflexivity|]. split; [exists sd0; vm_compute; reflexivity|]. split; [vm_compute; intuition discriminate|].
  split; [pathy|]. split; [intros u E; vm_compute in E; injection E as <-; vm_compute; intuition discriminate|]. split; [intros; discriminate|].
  intros x E. assert (x = tuple_in exd e2) as -> by (vm_compute in E; vm_compute; congruence).
  eapply tuple_in_data; [apply data_e2|vm_compute; reflexivity|vm_compute; discriminate].
Qed.
Example C79_case : exists p1 p12 p2 p21, set_element_in_place esp 128 exd exs 0 [1] (str "bye") = Ok (true, p1) /\ set_element_in_place p1 128 exd exs 2 [1] (str "ab") = Ok (true, p12)
  /\ set_element_in_place esp 128 exd exs 2 [1] (str "ab") = Ok (true, p2) /\ set_element_in_place p2 128 exd exs 0 [1] (str "bye") = Ok (true, p21)
  /\ tell_the_same 128 exs p12 p21 /\ observe exd [1] p12 92 = Ok (Some (bytes_of "bye")) /\ observe exd [1] p12 74 = Ok (Some (bytes_of "ab")).
Proof.
  destruct esp_reachable as [L R].
  destruct (C79_commute 128 10 exs esp ex_type exd 0 [1] (str "bye") ex_type exd 2 [1] (str "ab") L R esp_in_place_ok esp_in_place_ok_2 ltac:(discriminate)) as (r & s & p1 & p12 & p2 & p21 & E1 & E2 & E3 & E4 & _ & _ & S).
  pose proof E1 as X1. vm_compute in X1. injection X1 as <- X1. pose proof E3 as X3. vm_compute in X3. injection X3 as <- X3.
  exists p1, p12, p2, p21. do 4 (split; [assumption|]). split; [exact S|]. rewrite <- X1 in E2. vm_compute in E2. injection E2 as <-. split; vm_compute; reflexivity.
Qed.
