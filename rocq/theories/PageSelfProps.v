(** * C78: copying an element within one entry of a page

    The same entry is source and target.  The cases in which that is as good as a
    copy are those of C70 (SelfSetProps.v), with [copying_within] and
    [stored_before] from there. *)
From Coq Require Import String.
From Verif Require Import SizeProps TupleProps CopyProps HashFacts IdentFacts AlikeFacts IdentProps TupleExamples.
From Verif Require Import SelfSet NestedProps OpFacts SelfSetFacts PageCopyFacts.
From Coq Require Import ZifyBool ZifyNat ZifyN Zify.
From Verif Require Import BytesFacts SpecFacts PageReach PageExamples PageElement PageElementProps PageCopy PageCopyProps.
From Verif Require SelfSetProps.
From Verif Require Import ImageSpec.
Import SelfSetProps(copying_within, stored_before).
Ltac Zify.zify_post_hook ::= idtac.
Open Scope string_scope.
Open Scope list_scope.
Open Scope Z_scope.

(** may the element at [pa], of type [u], be set from the one at [pa_in] of the
    same tuple without a copy?  Yes if the target has a fixed size, or if it lies
    in another element of the tuple, stored behind the one with the source *)
Definition needs_no_copy (t : dti) (p : mem) (o : Z) (pa : list Z) (u : dti) (pa_in : list Z) : Prop :=
  t_variable u = false
  \/ exists k pb l pc, pa = k :: pb /\ pa_in = l :: pc /\ k <> l /\ stored_before t p o l k.

Theorem C78_same_entry : forall ps h d p t i o pa u pa_in u_in v, limits ps h d -> reachable ps h d p -> is_u32 i ->
  lies ps d p i o -> copying_within t pa p o u pa_in u_in -> get_value t pa_in p o = Ok (Some v) -> may_be_stored u u_in ->
  needs_no_copy t p o pa u pa_in \/ is_primitive_numeral u_in = true ->
  set_own_element_in_place p ps t d i pa v = set_element_in_place p ps t d i pa v.
Proof.
  intros ps h d p t i o pa u pa_in u_in v L R Hi Li CW E MS NC. pose proof CW as (D & PO & PI & TI & TJ).
  destruct (data_holds t p o D) as [bs H]. destruct (good_size _ _ (h_good _ _ _ _ H)) as (W & _).
  destruct (type_info_wf pa t u PO W TI) as [Wt _]. destruct (type_info_wf pa_in t u_in PI W TJ) as [Wi _].
  assert (K : seen_in p v = v /\ set_own_element t pa p o v 0 = set_element t pa p o v 0).
  { destruct (is_primitive_numeral u_in) eqn:P.
    - pose proof (source_value pa_in t p o bs u_in v PI H TJ P E) as SV.
      assert (NP : not_pointer v) by (destruct SV as [->|[V _]]; [exact I|destruct v; try exact I; contradiction]).
      split; [destruct v; try reflexivity; contradiction|apply own_value; exact NP].
    - destruct MS as [MS|MS]; [congruence|]. destruct NC as [NC|NC]; [|discriminate].
      assert (S : stored_as_is u u_in) by (destruct MS as [MS|MS]; [left; exact MS|right; split; [exact Wt|]; split; [exact Wi|exact MS]]).
      destruct (value_in pa_in t p o bs v u_in u H PI TJ E (stored_reads _ _ S)) as (lo & hi & X1 & X2 & X3 & X4).
      split; [destruct v; try reflexivity; cbn [reads_in] in X4; destruct X4 as (<- & _); reflexivity|].
      destruct NC as [F|(k & pb & l & pc & -> & -> & NE & SB)].
      + exact (proj2 (SelfSetProps.C70_fixed any t pa p o u pa_in u_in 0 CW F) v E MS).
      + destruct (t_variable u) eqn:F; [exact (proj2 (SelfSetProps.C70_variable any t k pb p o u l pc u_in 0 CW F NE SB) v E MS)|exact (proj2 (SelfSetProps.C70_fixed any t _ p o u _ u_in 0 CW F) v E MS)]. }
  destruct K as [K1 K2]. unfold lies, get_nth_tuple_on_page in Li. unfold set_own_element_in_place, set_element_in_place. destruct (get_page_layout_type d).
  - unfold sl_set_own_in_place, sl_set_in_place. rewrite Li. cbn [bind]. rewrite K1, K2. reflexivity.
  - unfold fa_set_own_in_place, fa_set_in_place. rewrite Li. cbn [bind]. exact K2.
Qed.
Print Assumptions C78_same_entry.

(** ** a case: in entry 0 of the page of C38 the array, element 3, lies before the
    string, element 1 *)
Example C78_same_entry_case : lies 128 exs esp 0 92 /\ copying_within exd [1] esp 92 (type_at exd [1]) [3; 1; 1] (type_at exd [3; 1; 1])
  /\ may_be_stored (type_at exd [1]) (type_at exd [3; 1; 1]) /\ needs_no_copy exd esp 92 [1] (type_at exd [1]) [3; 1; 1]
  /\ exists p', set_own_element_in_place esp 128 exd exs 0 [1] (value_at [3; 1; 1] esp 92) = Ok (true, p')
     /\ observe exd [1] p' 92 = Ok (Some (bytes_of "ab")) /\ observe exd [3; 1; 1] p' 92 = Ok (Some (bytes_of "ab")).
Proof.
  split; [vm_compute; reflexivity|]. split.
  { split; [eapply (da_copy exd e7 0 36 esp 92 data_e7); vm_compute; (reflexivity || discriminate)|]. split; [pathy|]. split; [pathy|]. split; vm_compute; reflexivity. }
  split; [right; left; split; left; reflexivity|]. split.
  { right. exists 1, [], 3, [1; 1]. split; [reflexivity|]. split; [reflexivity|]. split; [discriminate|].
    intros ti ai tj aj E1 E2. apply element_at_one in E1. apply element_at_one in E2. vm_compute in E1. vm_compute in E2. injection E1 as _ <-. injection E2 as _ <-. lia. }
  eexists. split; [vm_compute; reflexivity|]. split; vm_compute; reflexivity.
Qed.
(** ** otherwise it goes wrong on a page too
    an entry with two strings: the first is set from the second, which is stored
    behind it; 1 is returned, and the first becomes another string than it does
    with a copy *)
Definition pair_type : dti := tup 100 [var_string 40; var_string 40].
Example pair_type_built : type_built pair_type.
Proof. unfold pair_type, tup, var_string. cbn [map]. build; congruence. Qed.
Definition prd : dti := final pair_type.
Definition prs : size_def := match initialize_size_def sd0 pair_type with Some sd => sd | None => sd0 end.
Definition q0 : mem := init0 prd (zmem 60).
Definition q1 : mem := get q0 (set_element prd [0] q0 0 (str "longer") 40).
Definition q2 : mem := get q1 (set_element prd [1] q1 0 (str "abc") 30).
Ltac set_q m pa v inc := eapply (da_set prd m 0 pa v inc); [eassumption | pathy | | | | vm_compute; reflexivity ];
  [ roomy | intros t E; vm_compute in E; injection E as <-; vm_compute; intuition discriminate | intros; discriminate ].
Example data_q2 : data_at prd q2 0.
Proof.
  assert (data_at prd q0 0) by (apply init0_data; [apply pair_type_built|reflexivity|reflexivity|vm_compute; discriminate|vm_compute; discriminate]).
  assert (data_at prd q1 0) by (set_q q0 [0] (str "longer") 40). set_q q1 [1] (str "abc") 30.
Qed.
Definition qp_ops : list page_op := [Append (Some (tuple_in prd q2))].
Definition qp : mem := Eval vm_compute in value_of (run_ops 128 prs qp_ops (fresh 128 10 prs)).
Theorem C78_refuted_same_entry : exists ps h d p t i o pa u pa_in u_in v p' p'', limits ps h d /\ reachable ps h d p /\ is_u32 i
  /\ lies ps d p i o /\ copying_within t pa p o u pa_in u_in /\ get_value t pa_in p o = Ok (Some v) /\ may_be_stored u u_in
  /\ set_element_in_place p ps t d i pa v = Ok (true, p') /\ observe t pa p' o = Ok (Some (bytes_of "abc"))
  /\ set_own_element_in_place p ps t d i pa v = Ok (true, p'') /\ observe t pa p'' o <> Ok (Some (bytes_of "abc")).
Proof.
  exists 128, 10, prs, qp, prd, 0, (128 - zlen (tuple_in prd q2)), [0], (type_at prd [0]), [1], (type_at prd [1]). eexists. eexists. eexists.
  split; [unfold limits, def_ok, max_tuple_size; vm_compute; intuition discriminate|]. split.
  { apply run_ops_reachable with (ops := qp_ops) (p := fresh 128 10 prs).
    - eapply reachable_init with (p0 := repeat Byte.xff 128); vm_compute; reflexivity.
    - repeat constructor; vm_compute; intuition discriminate.
    - vm_compute. reflexivity. }
  split; [unfold is_u32; lia|]. split; [vm_compute; reflexivity|]. split.
  { split; [eapply (da_copy prd q2 0 _ qp _ data_q2); vm_compute; (reflexivity || discriminate)|]. split; [pathy|]. split; [pathy|]. split; vm_compute; reflexivity. }
  split; [vm_compute; reflexivity|]. split; [right; left; split; left; reflexivity|].
  split; [vm_compute; reflexivity|]. split; [vm_compute; reflexivity|]. split; [vm_compute; reflexivity|]. vm_compute. discriminate.
Qed.
Print Assumptions C78_refuted_same_entry.
