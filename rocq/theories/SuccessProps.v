(** * When setting, expanding and discarding succeed, and the size of data

    The definitions used in the statements are in SuccessSpec.v. *)
From Coq Require Import String.
From Verif Require Import SuccessFacts TupleExamples SizeProps.
From Coq Require Import ZifyBool ZifyNat ZifyN Zify.
Ltac Zify.zify_post_hook ::= Z.div_mod_to_equations.
Open Scope string_scope.
Open Scope list_scope.
Open Scope Z_scope.

(** ** C55: success exactly when it fits *)
Theorem C55_set_succeeds d pa t m o v inc : data_at d m o -> path_ok pa -> room d m o inc -> get_type_info d pa = Some t -> fits t v ->
  (forall vm vo, v = DPtr vm vo -> data_at t vm vo) ->
  exists r m', set_element d pa m o v inc = Ok (r, m') /\ (r = true <-> settable d pa m o t v inc).
Proof.
  intros D PO RM TI FT DP. destruct (set_element_ok d pa m o v inc D PO RM) as (r & m' & E & CS & _);
    [intros t0 T0; assert (t0 = t) by congruence; subst; exact FT|intros t0 vm vo T0; assert (t0 = t) by congruence; subst; auto|].
  exists r, m'. split; [exact E|]. destruct (data_holds d m o D) as [bs H]. destruct RM as [RI _].
  eapply can_set_exact; eauto. apply holds_points. intros vm vo ->. apply data_holds. apply DP. reflexivity.
Qed.
Print Assumptions C55_set_succeeds.

(** partial, as C36: under [expand_limits] *)
Theorem C55_expand_succeeds_partial d pa m o index slots inc : data_at d m o -> path_ok pa -> room d m o inc -> 0 <= index < 4294967296 ->
  (forall t a s n, element_at d pa m o t a -> get_size t m a = Ok s -> get_element_count t m a = Ok n -> expand_limits t s n slots) ->
  exists r m', expand_element d pa m o index slots inc = Ok (r, m') /\ (r = true <-> expandable d pa m o index slots inc).
Proof.
  intros D PO RM HI LIM. destruct (expand_element_ok d pa m o index slots inc D PO RM HI LIM) as (r & m' & E & CE & _).
  exists r, m'. split; [exact E|]. destruct (data_holds d m o D) as [bs H]. destruct RM as [RI _].
  unfold can_expand_element in CE. destruct (is_expandable d pa) eqn:EX; cbn [negb] in CE; unfold is_expandable in EX.
  - destruct (get_type_info d pa) as [t|] eqn:TI; [|discriminate]. eapply can_expand_nested; eauto. lia.
  - injection CE as <-. split; [discriminate|]. intros (t & a & s & n & EA & SC & _ & GC & _). pose proof (element_type pa d m o bs t a PO H EA) as TI. rewrite TI in EX.
    destruct (good_size _ _ (h_good _ _ _ _ H)) as (W & _). destruct (type_info_wf pa d t PO W TI) as [Wt _].
    assert (C : is_container_type_info t = true) by (unfold stores_count in SC; unfold is_container_type_info; destruct (type t); try discriminate; reflexivity).
    destruct (prefix_spec t (conj Wt C)) as (_ & Q & _). congruence.
Qed.
Print Assumptions C55_expand_succeeds_partial.

Theorem C55_discard_succeeds d pa m o index slots : data_at d m o -> path_ok pa -> 0 <= index < 4294967296 -> 0 <= slots < 4294967296 ->
  exists r m', discard_elements d pa m o index slots = Ok (r, m') /\ (r = true <-> discardable d pa m o index slots).
Proof.
  intros D PO HI HS. destruct (discard_elements_ok d pa m o index slots D PO HI HS) as (r & m' & E & CE & _).
  exists r, m'. split; [exact E|]. destruct (data_holds d m o D) as [bs H].
  unfold can_discard_elements in CE. destruct (is_expandable d pa) eqn:EX; cbn [negb] in CE; unfold is_expandable in EX.
  - destruct (get_type_info d pa) as [t|] eqn:TI; [|discriminate]. eapply can_discard_nested; eauto.
  - injection CE as <-. split; [discriminate|]. intros (t & a & n & EA & SC & _). pose proof (element_type pa d m o bs t a PO H EA) as TI. rewrite TI in EX.
    destruct (good_size _ _ (h_good _ _ _ _ H)) as (W & _). destruct (type_info_wf pa d t PO W TI) as [Wt _].
    assert (C : is_container_type_info t = true) by (unfold stores_count in SC; unfold is_container_type_info; destruct (type t); try discriminate; reflexivity).
    destruct (prefix_spec t (conj Wt C)) as (_ & Q & _). congruence.
Qed.
Print Assumptions C55_discard_succeeds.

(** "hello" becomes "good bye": 3 more bytes are needed *)
Example C55_example : data_at exd e6 0
  /\ map (fun inc => can_set_element exd [1] e6 0 (str "good bye") inc) [2; 3] = [Ok false; Ok true]
  /\ map (fun inc => can_set_element exd [3; 0] e6 0 DEmpty inc) [3; 4] = [Ok false; Ok true]
  /\ map (fun inc => can_expand_element exd [3] e6 0 1 2 inc) [3; 4] = [Ok false; Ok true]
  /\ map (fun k => can_discard_elements exd [3] e6 0 1 k) [1; 2] = [Ok true; Ok false].
Proof. split; [apply data_e6|]. vm_compute. auto. Qed.
Example C55_settable : settable exd [1] e6 0 (final (var_string 300)) (str "good bye") 3 /\ ~ settable exd [1] e6 0 (final (var_string 300)) (str "good bye") 2.
Proof.
  assert (TI : get_type_info exd [1] = Some (final (var_string 300))) by (vm_compute; reflexivity).
  assert (FT : fits (final (var_string 300)) (str "good bye")) by (vm_compute; intuition discriminate).
  assert (NP : forall vm vo, str "good bye" = DPtr vm vo -> data_at (final (var_string 300)) vm vo) by (intros; discriminate).
  split.
  - destruct (C55_set_succeeds exd [1] _ e6 0 (str "good bye") 3 data_e6 ltac:(pathy) ltac:(roomy) TI FT NP) as (r & m' & E & Q). apply Q. vm_compute in E. injection E as <- _. reflexivity.
  - destruct (C55_set_succeeds exd [1] _ e6 0 (str "good bye") 2 data_e6 ltac:(pathy) ltac:(roomy) TI FT NP) as (r & m' & E & Q). intro K. apply Q in K. vm_compute in E. injection E as <- _. discriminate.
Qed.

(** ** C56: data takes no more bytes than its elements need *)
Theorem C56_no_gaps d m o : data_at d m o -> is_container_type_info d = true ->
  exists n l, get_element_count d m o = Ok n /\ zlen l = n /\ variable_part d m o 0 l /\ get_size d m o = Ok (fixed_part d n + total l).
Proof. intros D C. destruct (data_holds d m o D) as [bs H]. eapply no_gaps; eauto. Qed.
Print Assumptions C56_no_gaps.

(** at every depth *)
Theorem C56_no_gaps_nested d pa m o t a : data_at d m o -> path_ok pa -> element_at d pa m o t a -> is_container_type_info t = true ->
  exists n l, get_element_count t m a = Ok n /\ zlen l = n /\ variable_part t m a 0 l /\ get_size t m a = Ok (fixed_part t n + total l).
Proof.
  intros D PO EA C. destruct (data_holds d m o D) as [bs H]. revert d o bs D H PO EA.
  assert (G : forall pa d o bs, holds d m o bs -> element_at d pa m o t a -> path_ok pa -> exists c, holds t m a c).
  { induction pa0 as [|i pa0 IH]; intros d o bs H EA PO.
    - apply element_at_nil in EA. destruct EA as [-> ->]. eauto.
    - inversion EA as [|d0 i0 pa1 m0 o0 t1 a1 t2 a2 CH EA2 X1 X2 X3 X4 X5 X6]; subst. pose proof (Forall_inv PO) as I. cbn beta in I.
      assert (Cd : is_container_type_info d = true) by (unfold child in CH; destruct (is_container_type_info d); [reflexivity|discriminate]).
      destruct (holds_cv d m o bs H Cd) as (es & CT & V & _ & GE).
      assert (LE : i < zlen es). { destruct (Z.ltb_spec i (zlen es)); [assumption|]. rewrite (child_none d m o _ es i CT V) in CH by lia. discriminate. }
      destruct (znth_lt es i ltac:(lia)) as [e En]. rewrite (child_ok d m o _ es i e CT V ltac:(lia) En) in CH.
      destruct e as [|z|c]; cbn [ptr_of] in CH; [discriminate| |].
      + injection CH as <- <-. pose proof (cv_el _ _ _ _ _ V i _ ltac:(lia) En) as (_ & B & _). apply is_bit_field_spec in B. exfalso. destruct pa0 as [|j pa0].
        * apply element_at_nil in EA2. destruct EA2 as [-> _]. unfold is_container_type_info in C. rewrite B in C. discriminate.
        * inversion EA2; subst. match goal with K : child _ _ _ _ = _ |- _ => unfold child, is_container_type_info in K; rewrite B in K; discriminate end.
      + injection CH as <- <-. eapply IH; [|exact EA2|exact (Forall_inv_tail PO)]. apply (child_holds d m o bs es i c CT V ltac:(lia) En). apply GE; auto. lia. }
  intros d o bs D H PO EA. destruct (G pa d o bs H EA PO) as [c Hc]. eapply no_gaps; eauto.
Qed.
Print Assumptions C56_no_gaps_nested.

Example C56_example : data_at exd e7 0 /\ is_container_type_info exd = true /\ get_size exd e7 0 = Ok 36 /\ fixed_part exd 4 = 11
  /\ map (fun pa => observe exd pa e7 0) [[1]; [3; 1; 1]] = [Ok (Some (bytes_of "good bye")); Ok (Some (bytes_of "ab"))].
Proof. split; [apply data_e7|]. vm_compute. auto. Qed.

(** ** C57: the growth that is left *)
Theorem C57_max_increment d pa m o : data_at d m o -> path_ok pa ->
  exists g, get_max_size_increment_allowed d pa m o = Ok g /\ 0 <= g
    /\ (can_vary d pa m o -> forall k, k <= g <-> all_allow d pa m o k)
    /\ (~ can_vary d pa m o -> g = 0).
Proof.
  intros D PO. destruct (data_holds d m o D) as [bs H].
  destruct (max_increment pa d m o bs 4294967295 PO H ltac:(lia)) as (g & E & G0 & G1 & G2). exists g. split; [exact E|]. split; [exact G0|]. split; [|exact G2].
  intros CV k. rewrite (G1 CV k). split; [intros [_ A]; exact A|]. intro A. split; [|exact A].
  pose proof (A [] pa d o _ eq_refl (at_self _ _ _) (holds_size _ _ _ _ H)) as L. destruct (good_size _ _ (h_good _ _ _ _ H)) as (W & _). pose proof (wf_node d W) as (_ & _ & MSD & _).
  unfold max_bytes in *. pose proof (zlen_nonneg bs). lia.
Qed.
Print Assumptions C57_max_increment.
Example C57_example : data_at exd e7 0 /\ map (fun pa => get_max_size_increment_allowed exd pa e7 0) [[]; [1]; [2]; [3]; [3; 0]; [3; 1]; [3; 1; 1]; [3; 7]]
  = map (@Ok Z) [964; 290; 0; 385; 0; 93; 47; 0].
Proof. split; [apply data_e7|]. vm_compute. reflexivity. Qed.

(** ** C58: minimal data is recognised *)
Theorem C58_is_minimal d m o : data_at d m o ->
  exists b s, is_minimal d m o = Ok b /\ get_size d m o = Ok s
    /\ forall m0 o0 s0 m1, init_minimal d m0 o0 = Ok (s0, m1) -> (b = true <-> s = s0 /\ slice m o s = slice m1 o0 s0).
Proof.
  intro D. destruct (data_holds d m o D) as [bs H]. destruct (minimal_bytes d m o bs H) as (b & E & Q). exists b, (zlen bs).
  split; [exact E|]. split; [apply (holds_size _ _ _ _ H)|]. intros m0 o0 s0 m1 EI.
  destruct (good_size _ _ (h_good _ _ _ _ H)) as (W & B & _). destruct (init_minimal_inv d m0 o0 s0 m1 W B EI) as (A1 & A2 & -> & ->).
  pose proof (zlen_min_data d W B) as ZM. rewrite (h_slice _ _ _ _ H). rewrite Q.
  assert (S1 : slice (upd m0 o0 (min_data d)) o0 (size d) = min_data d) by (apply slice_upd_same'; lia). rewrite S1. split; [intros ->; auto|intros [_ K]; exact K].
Qed.
Print Assumptions C58_is_minimal.
Example C58_example : data_at exd e0 0 /\ data_at exd e7 0 /\ is_minimal exd e0 0 = Ok true /\ is_minimal exd e7 0 = Ok false.
Proof. split; [apply data_e0|]. split; [apply data_e7|]. vm_compute. auto. Qed.

(** ** C59: paths that are accessible *)
Theorem C59_accessible_def d pas : positions_accessible_def d pas = true <-> forall pa, In pa pas -> exists t, get_type_info d pa = Some t.
Proof.
  induction pas as [|pa r IH]; cbn [positions_accessible_def]; [split; [intros _ pa []|reflexivity]|]. destruct (get_type_info d pa) as [t|] eqn:E.
  - rewrite IH. split; [intros K pb [<-|I]; eauto|intros K pb I; apply K; right; exact I].
  - split; [discriminate|]. intro K. destruct (K pa (or_introl eq_refl)) as [t T]. congruence.
Qed.
Print Assumptions C59_accessible_def.

Theorem C59_accessible d m o pas : data_at d m o -> Forall path_ok pas ->
  exists b, positions_accessible d m o pas = Ok b /\ (b = true <-> forall pa, In pa pas -> place_exists d pa m o \/ below_null d pa m o).
Proof.
  intros D. destruct (data_holds d m o D) as [bs H]. induction pas as [|pa r IH]; intro F; cbn [positions_accessible].
  { exists true. split; [reflexivity|]. split; [intros _ pa []|reflexivity]. }
  destruct (readable_place pa d m o bs (Forall_inv F) H) as (v & E & Q). rewrite E. cbn [bind]. destruct v as [v|].
  - destruct (IH (Forall_inv_tail F)) as (b & E2 & Q2). exists b. split; [exact E2|]. rewrite Q2. split.
    + intros K pb [<-|I]; [apply Q; eauto|auto].
    + intros K pb I. apply K. right. exact I.
  - exists false. split; [reflexivity|]. split; [discriminate|]. intro K. destruct (proj2 Q (K pa (or_introl eq_refl))) as [x X]. discriminate.
Qed.
Print Assumptions C59_accessible.
(** positions of the type and of the tuple: the elements 0 to 3 exist, the array
    has 2 elements.  Below the NULL element 0 of the array every position is
    accessible, also one that the type does not have. *)
Example C59_example : data_at exd e7 0
  /\ positions_accessible_def exd [[0]; [1]; [3; 9; 1]] = true /\ positions_accessible_def exd [[0]; [4]] = false
  /\ positions_accessible exd e7 0 [[0]; [1]; [3; 1; 1]] = Ok true /\ positions_accessible exd e7 0 [[0]; [3; 2; 0]] = Ok false
  /\ positions_accessible exd e7 0 [[3; 0; 1]; [3; 0; 5]] = Ok true /\ positions_accessible_def exd [[3; 0; 1]; [3; 0; 5]] = false.
Proof. split; [apply data_e7|]. vm_compute. auto 10. Qed.
