(** * C63: a tuple behaves like the tree of its values

    The contents of a tuple are exactly a tree of numbers, NULLs and lists, and
    every history of operations on the tuple does to it what the specification
    of TreeSpec.v says about trees. *)
From Coq Require Import String.
From Verif Require Import TreeFacts TupleProps TupleExamples.
From Coq Require Import ZifyBool ZifyNat ZifyN Zify.
Ltac Zify.zify_post_hook ::= Z.div_mod_to_equations.
Open Scope string_scope.
Open Scope list_scope.
Open Scope Z_scope.

(** every well formed data has one tree, and only one *)
Theorem C63_one_tree d m o : data_at d m o -> exists T, has_tree d m o [] T /\ forall T', has_tree d m o [] T' -> T' = T.
Proof.
  intro D. destruct (data_holds d m o D) as [bs H]. destruct (tr_exists_good d bs (h_good _ _ _ _ H)) as [T R]. exists T.
  pose proof (holds_tree _ _ _ _ _ H R) as HT. split; [exact HT|]. intros T' H'. apply (has_tree_det _ _ _ _ _ H' _ HT).
Qed.
Print Assumptions C63_one_tree.

(** the tree tells what is read, and how many elements there are, at every path
    - also at paths that lead nowhere or into a NULL *)
Theorem C63_tree_tells_readings d m o T pa : data_at d m o -> has_tree d m o [] T -> path_ok pa ->
  match look T pa with
  | None => observe d pa m o = Ok None
  | Some x => exists r, observe d pa m o = Ok (Some r) /\ ((exists t, get_type_info d pa = Some t /\ shows t x r) \/ (x = TNull /\ r = ONull))
  end
  /\ element_count_of d pa m o = Ok (match look T pa with Some (TNode l) => zlen l | _ => 0 end).
Proof.
  intros D HT PO. destruct (data_holds d m o D) as [bs H]. destruct (tr_exists_good d bs (h_good _ _ _ _ H)) as [T0 R].
  pose proof (has_tree_det _ _ _ _ _ HT _ (holds_tree _ _ _ _ _ H R)). subst T0.
  rewrite (observe_local pa d m o bs PO H), (count_local pa d m o bs PO H). apply (tr_look pa d (CBytes bs) T PO R).
Qed.
Print Assumptions C63_tree_tells_readings.

(** an initialized tuple has nothing set *)
Theorem C63_initial t d m o s m' : type_built t -> finalize t = (true, d) -> is_bit_field d = false -> 0 <= o ->
  init_minimal d m o = Ok (s, m') -> exists T, has_tree d m' o [] T /\ fresh d T.
Proof.
  intros TB F B Ho E. destruct (built_finalized t d TB F) as [W _]. destruct (init_minimal_inv d m o s m' W B E) as (_ & Hl & -> & ->).
  destruct (tr_fresh d W B) as (T & R & FR). exists T. split; [|exact FR]. apply (holds_tree d _ _ (min_data d)); [|exact R]. apply holds_min; auto.
Qed.
Print Assumptions C63_initial.

(** an allowed operation runs, and does to the tree what it should *)
Theorem C63_step d op m o T : data_at d m o -> allowed d op m o -> has_tree d m o [] T ->
  exists r m' T', run d op m o = Ok (r, m') /\ data_at d m' o /\ has_tree d m' o [] T' /\ tree_step d op r T T'.
Proof. apply step_tree. Qed.
Print Assumptions C63_step.

(** any history of operations *)
Theorem C63_history d o m ops m' T : data_at d m o -> history d o m ops m' -> has_tree d m o [] T ->
  exists T', has_tree d m' o [] T' /\ tree_history d T ops T'.
Proof.
  intros D H. revert D T. induction H as [m|m op r m1 ops m' A E H IH]; intros D T HT.
  - exists T. split; [exact HT|constructor].
  - destruct (step_tree d op m o T D A HT) as (r1 & m2 & T1 & E1 & D1 & HT1 & S1). rewrite E in E1. injection E1 as <- <-.
    destruct (IH D1 T1 HT1) as (T' & HT' & TH). exists T'. split; [exact HT'|]. econstructor; eauto.
Qed.
Print Assumptions C63_history.

(** ** a history that meets the hypotheses, and the trees before and after *)
Definition text (s : string) : tree := bytes_tree (list_byte_of_string s).
Definition ex_ops : list (operation * bool) :=
  [ (Set_element [2] (DInt (-5)) 100, true); (Set_element [1] (str "hello") 90, true); (Set_element [3] DEmpty 80, true);
    (Expand_element [3] 0 2 80, true); (Set_element [3; 1] DEmpty 70, true); (Set_element [3; 1; 1] (str "ab") 60, true);
    (Set_element [1] (str "good bye") 50, true); (Discard_elements [3] 0 1, true) ].
Ltac by_set_op m := apply (history_cons _ _ _ _ _ m);
  [cbn [allowed]; split; [pathy|]; split; [roomy|]; split; [intros t E; vm_compute in E; injection E as <-; vm_compute; intuition discriminate|intros; discriminate]
  |vm_compute; reflexivity|].
Example C63_example_history : history exd 0 e0 ex_ops e8.
Proof.
  unfold ex_ops.
  by_set_op e1.
  by_set_op e2.
  by_set_op e3.
  apply (history_cons _ _ _ _ _ e4); [cbn [allowed]; split; [pathy|]; split; [roomy|]; split; [lia|apply limits_e3]|vm_compute; reflexivity|].
  by_set_op e5.
  by_set_op e6.
  by_set_op e7.
  apply (history_cons _ _ _ _ _ e8); [cbn [allowed]; split; [pathy|]; split; lia|vm_compute; reflexivity|].
  constructor.
Qed.
Ltac see_tree := first
  [ apply ht_null; vm_compute; reflexivity
  | apply ht_num; [vm_compute; reflexivity|reflexivity]
  | eapply ht_node; [vm_compute; reflexivity|reflexivity|vm_compute; reflexivity|];
    let i := fresh "i" in let E := fresh "E" in intros i ? E; repeat (destruct i as [|i]; [injection E as <-; cbn [app]; see_tree|]); destruct i; discriminate E ].
Example C63_example_before : has_tree exd e0 0 [] (TNode [TNull; TNull; TNull; TNull]).
Proof. see_tree. Qed.
Example C63_example_after : has_tree exd e8 0 [] (TNode [TNull; text "good bye"; TNum (OInt (-5)); TNode [TNode [TNum (OUint 0); text "ab"]]]).
Proof. unfold text, bytes_tree. cbn [list_byte_of_string map]. see_tree. Qed.
