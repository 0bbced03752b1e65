(** * C71: what a tuple answers depends on its contents, not on its history

    Two tuples of one definition with the same contents - the same tree of
    values, in the sense of TreeSpec.v - may have been built by different
    histories, lie in different buffers and differ in their bytes.  All sizes,
    hashes, comparisons and results of further operations are the same. *)
From Coq Require Import String.
From Verif Require Import SameFacts TreeProps SuccessProps CompareProps HashFacts HashProps TupleProps TupleExamples.
From Coq Require Import ZifyBool ZifyNat ZifyN Zify.
Ltac Zify.zify_post_hook ::= idtac.
Open Scope string_scope.
Open Scope list_scope.
Open Scope Z_scope.

(** the size of the whole *)
Theorem C71_size d m1 o1 m2 o2 : same_contents d m1 o1 m2 o2 -> get_size d m1 o1 = get_size d m2 o2.
Proof. intro S. apply same_size. apply contents_same. exact S. Qed.
Print Assumptions C71_size.
(** the same elements are there, with the same sizes and numbers of elements *)
Theorem C71_element_sizes d m1 o1 m2 o2 pa t a1 : same_contents d m1 o1 m2 o2 -> path_ok pa -> element_at d pa m1 o1 t a1 ->
  exists a2, element_at d pa m2 o2 t a2 /\ get_size t m2 a2 = get_size t m1 a1 /\ get_element_count t m2 a2 = get_element_count t m1 a1.
Proof. intros S PO EA. pose proof (contents_same _ _ _ _ _ S) as S12. exact (same_there pa d m1 o1 m2 o2 t a1 PO S12 EA). Qed.
Print Assumptions C71_element_sizes.
(** the growth that is left *)
Theorem C71_growth d m1 o1 m2 o2 pa : same_contents d m1 o1 m2 o2 -> path_ok pa -> get_max_size_increment_allowed d pa m1 o1 = get_max_size_increment_allowed d pa m2 o2.
Proof.
  intro S0. pose proof (contents_same _ _ _ _ _ S0) as S12. destruct S0 as (D1 & D2 & T & T1 & T2). intro PO. pose proof (same_sym _ _ _ _ _ S12) as S21. destruct (C57_max_increment d pa m1 o1 D1 PO) as (g1 & E1 & G1 & K1 & N1). destruct (C57_max_increment d pa m2 o2 D2 PO) as (g2 & E2 & G2 & K2 & N2).
  rewrite E1, E2. f_equal.
  assert (CV : forall ma oa mb ob, same_tree d ma oa mb ob -> can_vary d pa ma oa -> can_vary d pa mb ob).
  { intros ma oa mb ob S (t & a & EA & V). destruct (same_there pa d ma oa mb ob t a PO S EA) as (b & EB & _). exists t, b. auto. }
  assert (AL : forall ma oa mb ob k, same_tree d mb ob ma oa -> all_allow d pa ma oa k -> all_allow d pa mb ob k).
  { intros ma oa mb ob k S A pb pc t b s E EB Z. assert (PB : path_ok pb) by (apply (path_pre pb pc); rewrite <- E; exact PO).
    destruct (same_there pb d mb ob ma oa t b PB S EB) as (a & EA & ZZ & _). apply (A pb pc t a s E EA). congruence. }
  assert (Q : forall g h ma oa mb ob, same_tree d ma oa mb ob -> 0 <= g -> 0 <= h -> (can_vary d pa ma oa -> forall k, k <= g <-> all_allow d pa ma oa k) -> (~ can_vary d pa ma oa -> g = 0) ->
    (can_vary d pa mb ob -> forall k, k <= h <-> all_allow d pa mb ob k) -> g <= h).
  { intros g h ma oa mb ob S G H K N K'. destruct (Z.le_gt_cases g h) as [L|L]; [exact L|exfalso].
    assert (NV : ~ can_vary d pa ma oa).
    { intro V. assert (g <= h); [|lia]. apply (K' (CV _ _ _ _ S V)). apply (AL ma oa mb ob); [apply same_sym; exact S|]. apply (K V). lia. }
    rewrite (N NV) in L. lia. }
  apply Z.le_antisymm; [apply (Q g1 g2 m1 o1 m2 o2)|apply (Q g2 g1 m2 o2 m1 o1)]; auto.
Qed.
Print Assumptions C71_growth.

(** what is read: numbers, strings, NULLs and numbers of elements; the bytes
    of whole containers may differ *)
Theorem C71_readings d m1 o1 m2 o2 pa : same_contents d m1 o1 m2 o2 -> path_ok pa ->
  element_count_of d pa m1 o1 = element_count_of d pa m2 o2
  /\ (observe d pa m1 o1 = observe d pa m2 o2 \/ exists c1 c2, observe d pa m1 o1 = Ok (Some (OData c1)) /\ observe d pa m2 o2 = Ok (Some (OData c2))).
Proof. intro S0. pose proof (contents_same _ _ _ _ _ S0) as S12. destruct S0 as (D1 & D2 & T & T1 & T2). intro PO. split; [apply same_count_of; auto; exact S12|apply same_observe; auto; exact S12]. Qed.
Print Assumptions C71_readings.
(** hashes *)
Theorem C71_hash {H} (up : H -> byte -> H) d m1 o1 m2 o2 junk1 junk2 h pas : same_contents d m1 o1 m2 o2 -> zlen junk1 = 40 -> zlen junk2 = 40 -> Forall path_ok pas ->
  hash_tuple up junk1 d pas m1 o1 h = hash_tuple up junk2 d pas m2 o2 h.
Proof.
  intro S0. pose proof (contents_same _ _ _ _ _ S0) as S12. destruct S0 as (D1 & D2 & T & T1 & T2). intros J1 J2 PO. destruct (C45_same_content up junk1 junk2 d m1 o1 m2 o2 h pas J1 J2 D1 D2 PO) as (r & E1 & E2); [|congruence].
  intros pa I. pose proof (proj1 (Forall_forall _ _) PO pa I) as P. destruct (C43_values d m1 o1 pa D1 P) as (x & X & _). exists x. split; [exact X|]. apply (same_key d m1 o1 m2 o2 pa x S12 P X).
Qed.
Print Assumptions C71_hash.
(** comparisons with any tuple of the definition; they compare equal *)
Theorem C71_compare d m1 o1 m2 o2 m3 o3 keys : same_contents d m1 o1 m2 o2 -> data_at d m3 o3 -> Forall (fun k => path_ok (fst k) /\ direction (snd k)) keys ->
  compare_tuples2 m1 o1 m3 o3 d keys = compare_tuples2 m2 o2 m3 o3 d keys
  /\ compare_tuples2 m3 o3 m1 o1 d keys = compare_tuples2 m3 o3 m2 o2 d keys
  /\ compare_tuples2 m1 o1 m2 o2 d keys = Ok 0.
Proof.
  intro S0. pose proof (contents_same _ _ _ _ _ S0) as S12. destruct S0 as (D1 & D2 & T & T1 & T2). intros D3 F.
  assert (V : exists v1 v2, Forall2 (fun k v => let '(pa, dir) := k in let '(x, y, dir') := v in dir = dir' /\ direction dir' /\ path_ok pa /\ key_is d m1 o1 pa x /\ key_is d m3 o3 pa y) keys v1
    /\ Forall2 (fun k v => let '(pa, dir) := k in let '(x, y, dir') := v in dir = dir' /\ direction dir' /\ path_ok pa /\ key_is d m2 o2 pa x /\ key_is d m3 o3 pa y) keys v1
    /\ Forall2 (fun k v => let '(pa, dir) := k in let '(x, y, dir') := v in dir = dir' /\ direction dir' /\ path_ok pa /\ key_is d m3 o3 pa x /\ key_is d m1 o1 pa y) keys v2
    /\ Forall2 (fun k v => let '(pa, dir) := k in let '(x, y, dir') := v in dir = dir' /\ direction dir' /\ path_ok pa /\ key_is d m3 o3 pa x /\ key_is d m2 o2 pa y) keys v2).
  { induction F as [|[pa dir] keys [P R] F (v1 & v2 & A & B & C & E)]; [exists [], []; repeat split; constructor|]. cbn [fst snd] in *.
    destruct (C43_values d m1 o1 pa D1 P) as (x & X & _). destruct (C43_values d m3 o3 pa D3 P) as (y & Y & _). pose proof (same_key d m1 o1 m2 o2 pa x S12 P X) as X2.
    exists ((x, y, dir) :: v1), ((y, x, dir) :: v2). repeat split; constructor; auto. }
  destruct V as (v1 & v2 & A & B & C & E).
  split; [rewrite (proj1 (C43_compare_tuples2 _ _ _ _ _ _ _ D1 D3 A)), (proj1 (C43_compare_tuples2 _ _ _ _ _ _ _ D2 D3 B)); reflexivity|].
  split; [rewrite (proj1 (C43_compare_tuples2 _ _ _ _ _ _ _ D3 D1 C)), (proj1 (C43_compare_tuples2 _ _ _ _ _ _ _ D3 D2 E)); reflexivity|].
  assert (V' : exists v, Forall2 (fun k v => let '(pa, dir) := k in let '(x, y, dir') := v in dir = dir' /\ direction dir' /\ path_ok pa /\ key_is d m1 o1 pa x /\ key_is d m1 o1 pa y) keys v
    /\ Forall2 (fun k v => let '(pa, dir) := k in let '(x, y, dir') := v in dir = dir' /\ direction dir' /\ path_ok pa /\ key_is d m1 o1 pa x /\ key_is d m2 o2 pa y) keys v).
  { clear A B C E. induction F as [|[pa dir] keys [P R] F (v & A & B)]; [exists []; split; constructor|]. cbn [fst snd] in *.
    destruct (C43_values d m1 o1 pa D1 P) as (x & X & _). pose proof (same_key d m1 o1 m2 o2 pa x S12 P X) as X2. exists ((x, x, dir) :: v). split; constructor; auto. }
  destruct V' as (v & A' & B'). rewrite (proj1 (C43_compare_tuples2 _ _ _ _ _ _ _ D1 D2 B')), <- (proj1 (C43_compare_tuples2 _ _ _ _ _ _ _ D1 D1 A')).
  destruct (C43_total_preorder d m1 o1 m1 o1 m1 o1 keys D1 D1 D1 F) as (c1 & c2 & c3 & c4 & _ & _ & _ & _ & _ & _ & _ & Z). exact Z.
Qed.
Print Assumptions C71_compare.

(** an operation answers the same on both *)
Theorem C71_same_answer d m1 o1 m2 o2 op : same_contents d m1 o1 m2 o2 -> allowed d op m1 o1 -> allowed d op m2 o2 ->
  exists r m1' m2', run d op m1 o1 = Ok (r, m1') /\ run d op m2 o2 = Ok (r, m2').
Proof.
  intro S0. pose proof (contents_same _ _ _ _ _ S0) as S12. destruct S0 as (D1 & D2 & T & T1 & T2). pose proof (same_sym _ _ _ _ _ S12) as S21.
  assert (FIN : forall (A B : res (bool * mem)) (X Y : Prop), (exists r m', A = Ok (r, m') /\ (r = true <-> X)) -> (exists r m', B = Ok (r, m') /\ (r = true <-> Y)) -> (X <-> Y) ->
    exists r a b, A = Ok (r, a) /\ B = Ok (r, b)).
  { intros A B X Y (r1 & a & E1 & I1) (r2 & b & E2 & I2) XY. assert (r1 = r2) by (destruct r1, r2; intuition congruence). subst r2. eauto. }
  destruct op as [pa v inc|pa index slots inc|pa index slots]; cbn [allowed run]; intros A1 A2.
  - destruct A1 as (PO & R1 & FT & DP). destruct A2 as (_ & R2 & _ & _). destruct (get_type_info d pa) as [t|] eqn:TI.
    + eapply FIN; [eapply (C55_set_succeeds d pa t m1 o1 v inc); eauto|eapply (C55_set_succeeds d pa t m2 o2 v inc); eauto|].
      split; apply same_settable; assumption.
    + unfold set_element. rewrite TI. eauto.
  - destruct A1 as (PO & R1 & HI & L1). destruct A2 as (_ & R2 & _ & L2).
    eapply FIN; [apply (C55_expand_succeeds_partial d pa m1 o1 index slots inc); auto|apply (C55_expand_succeeds_partial d pa m2 o2 index slots inc); auto|].
    split; apply same_expandable; assumption.
  - destruct A1 as (PO & HI & HS). eapply FIN; [apply (C55_discard_succeeds d pa m1 o1 index slots); auto|apply (C55_discard_succeeds d pa m2 o2 index slots); auto|].
    split; apply same_discardable; assumption.
Qed.
Print Assumptions C71_same_answer.

(** one history, performed on both: all answers are the same, and the contents
    stay the same *)
Theorem C71_history d o1 o2 m1 m2 ops1 ops2 m1' m2' : same_contents d m1 o1 m2 o2 ->
  history d o1 m1 ops1 m1' -> history d o2 m2 ops2 m2' -> map fst ops1 = map fst ops2 -> Forall (fun op => op_specified d (fst op)) ops1 ->
  map snd ops1 = map snd ops2 /\ same_contents d m1' o1 m2' o2.
Proof.
  intros S H1. revert m2 ops2 S. induction H1 as [m1|m1 op r m1a ops1 m1' A1 E1 H1 IH]; intros m2 ops2 S H2 M F.
  - inversion H2; subst; [|discriminate]. auto.
  - inversion H2 as [|m2x op2 r2 m2a ops2' m2y A2 E2 H2']; subst; [discriminate|]. cbn [map fst snd] in *. injection M as -> M. inversion F as [|x y SP F']; subst. cbn [fst] in SP.
    destruct (C71_same_answer d m1 o1 m2 o2 op2 S A1 A2) as (r0 & x1 & x2 & X1 & X2). rewrite E1 in X1. rewrite E2 in X2. injection X1 as -> _. injection X2 as -> _.
    destruct S as (D1 & D2 & T & T1 & T2).
    destruct (C63_step d op2 m1 o1 T D1 A1 T1) as (ra & ma & Ta & Ea & Da & Ha & Sa). rewrite E1 in Ea. injection Ea as <- <-.
    destruct (C63_step d op2 m2 o2 T D2 A2 T2) as (rb & mb & Tb & Eb & Db & Hb & Sb). rewrite E2 in Eb. injection Eb as <- <-.
    pose proof (step_det d op2 r0 T Ta Tb SP Sa Sb). subst Tb.
    destruct (IH m2a ops2' (conj Da (conj Db (ex_intro _ Ta (conj Ha Hb)))) H2' M F') as (Q & R). split; [f_equal; exact Q|exact R].
Qed.
Print Assumptions C71_history.

(** ** two histories that lead to the same contents with different bytes *)
Definition other_ops : list (operation * bool) :=
  [ (Set_element [3] DEmpty 100, true); (Expand_element [3] 0 1 80, true); (Set_element [3; 0] DEmpty 80, true); (Set_element [3; 0; 1] (str "ab") 80, true);
    (Set_element [2] (DInt (-5)) 80, true); (Set_element [1] (str "good bye") 80, true) ].
Definition k1 : mem := get e0 (set_element exd [3] e0 0 DEmpty 100).
Definition k2 : mem := get k1 (expand_element exd [3] k1 0 0 1 80).
Definition k3 : mem := get k2 (set_element exd [3; 0] k2 0 DEmpty 80).
Definition k4 : mem := get k3 (set_element exd [3; 0; 1] k3 0 (str "ab") 80).
Definition k5 : mem := get k4 (set_element exd [2] k4 0 (DInt (-5)) 80).
Definition k6 : mem := get k5 (set_element exd [1] k5 0 (str "good bye") 80).
Example C71_example_histories : history exd 0 e0 ex_ops e8 /\ history exd 0 e0 other_ops k6.
Proof.
  split; [apply C63_example_history|]. unfold other_ops. by_set_op k1.
  apply (history_cons _ _ _ _ _ k2); [cbn [allowed]; split; [pathy|]; split; [roomy|]; split; [lia|]|vm_compute; reflexivity|].
  { intros t a s n EA E1 E2. apply element_at_one in EA. vm_compute in EA. injection EA as <- <-. vm_compute in E1. vm_compute in E2. injection E1 as <-. injection E2 as <-.
    split; [lia|]. split; [vm_compute; reflexivity|]. intro B. vm_compute in B. discriminate. }
  by_set_op k3. by_set_op k4. by_set_op k5. by_set_op k6. constructor.
Qed.
Definition ex_tree : tree := TNode [TNull; TreeProps.text "good bye"; TNum (OInt (-5)); TNode [TNode [TNum (OUint 0); TreeProps.text "ab"]]].
Lemma history_data d o m ops m' : data_at d m o -> history d o m ops m' -> data_at d m' o.
Proof.
  intros D H. induction H as [|m op r m1 ops m' A E H IH]; [exact D|]. apply IH. destruct (C63_one_tree d m o D) as (T & HT & _).
  destruct (C63_step d op m o T D A HT) as (ra & ma & Ta & Ea & Da & _). rewrite E in Ea. injection Ea as <- <-. exact Da.
Qed.
Example C71_example_same : same_contents exd e8 0 k6 0 /\ slice e8 0 34 <> slice k6 0 34 /\ get_size exd e8 0 = Ok 34.
Proof.
  split; [|split; [vm_compute; discriminate|vm_compute; reflexivity]].
  split; [apply (history_data exd 0 e0 ex_ops); [apply data_e0|apply C71_example_histories]|]. split; [apply (history_data exd 0 e0 other_ops); [apply data_e0|apply C71_example_histories]|].
  exists ex_tree. split; [apply C63_example_after|]. unfold ex_tree, TreeProps.text, bytes_tree. cbn [list_byte_of_string map]. see_tree.
Qed.
Example C71_example_answers : map (fun op => (match run exd op e8 0 with Ok (r, _) => r | UB => false end, match run exd op k6 0 with Ok (r, _) => r | UB => false end))
    [Set_element [1] (str "good morning") 3; Set_element [1] (str "good morning") 4; Set_element [1] DNull 0; Discard_elements [3] 0 1; Discard_elements [3] 1 1]
  = [(false, false); (true, true); (true, true); (true, true); (false, false)].
Proof. vm_compute. reflexivity. Qed.
Example C71_example_specified : Forall (fun op => op_specified exd (fst op)) ex_ops.
Proof. unfold ex_ops. repeat constructor; cbn [fst op_specified]; intros t E; vm_compute in E; injection E as <-; intros K; vm_compute in K; discriminate. Qed.

(** the exception: whether the data counts as minimal is decided by its bytes.
    An integer that was set and made NULL again leaves its bytes behind. *)
Definition back : mem := get e1 (set_element exd [2] e1 0 DNull 100).
Theorem C71_refuted_is_minimal : exists d m1 m2, same_contents d m1 0 m2 0 /\ is_minimal d m1 0 = Ok true /\ is_minimal d m2 0 = Ok false.
Proof.
  exists exd, e0, back. split; [|split; vm_compute; reflexivity]. split; [apply data_e0|].
  split; [pose proof data_e1; by_set e1 [2] DNull 100|]. exists (TNode [TNull; TNull; TNull; TNull]). split; see_tree.
Qed.
Print Assumptions C71_refuted_is_minimal.
