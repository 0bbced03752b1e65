(** * C65: a page of tuples of one type is a list of trees

    [rows_on_page], [table], [row_effect], [row_history] are in TableSpec.v,
    [has_tree] and [at_path] in TreeSpec.v. *)
From Coq Require Import String.
From Verif Require Import OpFacts SizeProps TupleProps TupleExamples.
From Coq Require Import ZifyBool ZifyNat ZifyN Zify.
From Verif Require Import BytesFacts SpecFacts PageExamples PageElementProps TreeFacts TreeProps TableFacts TableSpec.
Ltac Zify.zify_post_hook ::= Z.div_mod_to_equations.
Open Scope list_scope.
Open Scope Z_scope.

(** a page that any history of allowed operations left shows one list of rows,
    and only one *)
Theorem C65_rows ps h d ty t p : table_setup ps h d ty t -> table ps h d t p ->
  exists c, rows_on_page ps d t p c /\ forall c', rows_on_page ps d t p c' -> c' = c.
Proof.
  intros (TB & FIN & [d0 SD] & Hps & Hh) T. destruct (table_holds ps h d0 d ty t Hps Hh TB FIN SD p T) as (c & R & H & F2).
  pose proof (fun r => shown ps h d0 d ty t Hps TB FIN SD p c r H) as SH. exists R. split; [apply SH, F2|]. intros R' H'. apply SH in H'.
  clear - F2 H'. revert R' H'. induction F2 as [|x y c R XY F2 IH]; intros R' H'; inversion H' as [|? y' ? R1 XY' H1]; subst; [reflexivity|].
  rewrite (row_det _ _ _ _ XY XY'), (IH _ H1). reflexivity.
Qed.
Print Assumptions C65_rows.

(** a new page has no rows *)
Theorem C65_new ps h d ty t p0 p : table_setup ps h d ty t -> zlen p0 = ps -> init_page p0 ps h d = Ok (true, p) ->
  table ps h d t p /\ rows_on_page ps d t p [].
Proof.
  intros (TB & FIN & [d0 SD] & Hps & Hh) L E. split; [exact (table_init ps h d t p0 p L E)|].
  destruct (table_holds ps h d0 d ty t Hps Hh TB FIN SD p (table_init ps h d t p0 p L E)) as (c & R & H & F2).
  destruct (PageFacts.v_init ps d Hps (table_def_ok d0 d ty t TB FIN SD) p0 h L Hh) as (p1 & E1 & V). rewrite E1 in E. injection E as Eb Ep. rewrite Eb in V. subst p1.
  apply (shown ps h d0 d ty t Hps TB FIN SD p []); [|constructor]. eexists _, _. split; [exact V|]. split; [rewrite zlen_repeat; lia|constructor].
Qed.
Print Assumptions C65_new.

(** every allowed operation runs, and does to the rows what it should *)
Theorem C65_step ps h d ty t p op c : table_setup ps h d ty t -> table ps h d t p -> rows_on_page ps d t p c -> table_allowed h t op ->
  exists r p' c', run_table ps d t op p = Ok (r, p') /\ table ps h d t p' /\ rows_on_page ps d t p' c' /\ row_effect t op c r c'.
Proof.
  intros (TB & FIN & [d0 SD] & Hps & Hh) T RP A. destruct (table_holds ps h d0 d ty t Hps Hh TB FIN SD p T) as (b & R & H & _).
  apply (shown ps h d0 d ty t Hps TB FIN SD p b c H) in RP.
  destruct (table_step ps h d0 d ty t Hps Hh TB FIN SD op p b c H A RP) as (r & p' & b' & c' & E & H' & F' & RE).
  exists r, p', c'. split; [exact E|]. split; [exact (table_next ps h d t p op r p' T A E)|]. split; [apply (shown ps h d0 d ty t Hps TB FIN SD p' b' c' H'), F'|exact RE].
Qed.
Print Assumptions C65_step.

(** any history of operations *)
Theorem C65_history ps h d ty t p l p' c : table_setup ps h d ty t -> table ps h d t p -> rows_on_page ps d t p c -> table_history ps h d t p l p' ->
  exists c', table ps h d t p' /\ rows_on_page ps d t p' c' /\ row_history t c l c'.
Proof.
  intros SU T RP H. revert c T RP. induction H as [p|p op r p1 l p2 A E H IH]; intros c T RP; [exists c; split; [exact T|split; [exact RP|constructor]]|].
  destruct (C65_step _ _ _ _ _ _ _ _ SU T RP A) as (r1 & p3 & c1 & E1 & T1 & RP1 & RE). rewrite E in E1. injection E1 as <- <-.
  destruct (IH c1 T1 RP1) as (c' & T' & RP' & RH). exists c'. split; [exact T'|]. split; [exact RP'|]. econstructor; eauto.
Qed.
Print Assumptions C65_history.

(** ** a history that meets the hypotheses, and the rows at its end *)
Open Scope string_scope.
Open Scope Z_scope.
Definition tb_ops : list (table_op * answer) :=
  [ (Page (Append (Some (tuple_in exd e7))), (1, false)); (Page (Append None), (1, false)); (Page (Append (Some (tuple_in exd e2))), (1, false));
    (Set_in_place 0 [1] (str "bye"), (1, false)); (Set_in_place 1 [1] (str "bye"), (0, false)); (Page (Swap 0 2), (1, false));
    (Page (Discard 1), (1, false)) ].
Example C65_setup : table_setup 128 10 exs ex_type exd.
Proof. split; [apply ex_type_built|]. split; [vm_compute; reflexivity|]. split; [exists sd0; vm_compute; reflexivity|]. vm_compute; intuition discriminate. Qed.
Lemma tuple_e7 : is_tuple exd (Some (tuple_in exd e7)).
Proof. split; [eapply tuple_in_data; [apply data_e7|vm_compute; reflexivity|vm_compute; discriminate]|vm_compute; reflexivity]. Qed.
Lemma tuple_e2 : is_tuple exd (Some (tuple_in exd e2)).
Proof. split; [eapply tuple_in_data; [apply data_e2|vm_compute; reflexivity|vm_compute; discriminate]|vm_compute; reflexivity]. Qed.
Fixpoint run_table_ops (ps : Z) (d : size_def) (t : dti) (l : list (table_op * answer)) (p : mem) : mem :=
  match l with
  | [] => p
  | (op, _) :: l => match run_table ps d t op p with Ok (_, p) => run_table_ops ps d t l p | UB => [] end
  end.
Definition tbp : mem := Eval vm_compute in run_table_ops 128 exs exd tb_ops (PageExamples.fresh 128 10 exs).
Ltac tb_step := eapply tbh_cons; [|vm_compute; reflexivity|].
Example C65_example_history : table_history 128 10 exs exd (PageExamples.fresh 128 10 exs) tb_ops tbp.
Proof.
  unfold tb_ops.
  tb_step; [exact tuple_e7|]. tb_step; [exact I|]. tb_step; [exact tuple_e2|].
  tb_step; [split; [vm_compute; intuition discriminate|]; split; [pathy|]; split; [intros u E; vm_compute in E; injection E as <-; vm_compute; intuition discriminate|intros; discriminate]|].
  tb_step; [split; [vm_compute; intuition discriminate|]; split; [pathy|]; split; [intros u E; vm_compute in E; injection E as <-; vm_compute; intuition discriminate|intros; discriminate]|].
  tb_step; [vm_compute; intuition discriminate|]. tb_step; [vm_compute; intuition discriminate|]. constructor.
Qed.
Example C65_example_rows : rows_on_page 128 exs exd tbp
  [ Some (TNode [TNull; text "hello"; TNum (OInt (-5)); TNull]);
    Some (TNode [TNull; text "bye"; TNum (OInt (-5)); TNode [TNull; TNode [TNum (OUint 0); text "ab"]]]) ].
Proof.
  split; [vm_compute; reflexivity|]. intros i Hi. unfold is_u32 in Hi.
  destruct (Z.eq_dec i 0) as [->|N0]; [eexists; split; [vm_compute; reflexivity|]; eexists; split; [reflexivity|]; unfold text, bytes_tree; cbn [list_byte_of_string map]; see_tree|].
  destruct (Z.eq_dec i 1) as [->|N1]; [eexists; split; [vm_compute; reflexivity|]; eexists; split; [reflexivity|]; unfold text, bytes_tree; cbn [list_byte_of_string map]; see_tree|].
  exists None. split.
  - destruct (C65_new _ _ _ _ _ (repeat Byte.xff 128) (PageExamples.fresh 128 10 exs) C65_setup ltac:(vm_compute; reflexivity) ltac:(vm_compute; reflexivity)) as [T RP].
    destruct (C65_history _ _ _ _ _ _ _ _ _ C65_setup T RP C65_example_history) as (c & _ & [CN RC] & _).
    destruct (RC i Hi) as (x & G & X). rewrite G. change (get_tuple_count_on_page tbp 128 exs) with (Ok 2) in CN. injection CN as CN.
    rewrite (proj2 (nth_error_None c _)) in X by (unfold zlen in CN; lia). congruence.
  - rewrite (proj2 (nth_error_None _ _)); [reflexivity|]. cbn [length]. lia.
Qed.
