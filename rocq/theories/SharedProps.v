(** * C67: programs that know a table only by its stored bytes can share it

    [shared_setup], [user], [shared], [all_see] are in SharedSpec.v,
    [rows_on_page] and [row_effect] in TableSpec.v. *)
From Coq Require Import String.
From Verif Require Import OpFacts SizeProps TupleProps TupleExamples.
From Coq Require Import ZifyBool ZifyNat ZifyN Zify.
From Verif Require Import BytesFacts SpecFacts PageExamples PageElementProps TreeFacts TreeProps TableFacts TableProps SerdeProps SharedSpec SharedFacts.
Ltac Zify.zify_post_hook ::= Z.div_mod_to_equations.
Open Scope list_scope.
Open Scope Z_scope.

(** the descriptions can be read, wherever their bytes are, and give types that
    [are_identical_type_info] calls identical and whose fields have the same
    names *)
Theorem C67_readable ps h dw tyw tw bs sbs : shared_setup ps h dw tyw tw bs sbs ->
  (forall e m o n, valid_environment e -> 0 <= o -> o + n <= zlen m -> zlen bs <= n < 4294967296 -> slice m o (zlen bs) = bs ->
     exists ty t, deserialize_type_info e m o n = Ok (Some ty) /\ finalize ty = (true, t) /\ are_identical tw t = Ok true /\ are_identical t tw = Ok true
     /\ (forall s, (forall b, In b s -> b2z b <> 0) -> zlen s < 64 -> find_containee t s = find_containee tw s)
     /\ forall any, exists d, initialize_size_def any ty = Some d)
  /\ (forall any rest n, zlen sbs <= n <= zlen (sbs ++ rest) -> exists d, deserialize_size_def any (sbs ++ rest) n = Ok (Some d)).
Proof.
  intros SU. pose proof SU as ((TB & FIN & [d0 SD] & Hps & Hh) & (_ & ESB) & _). split.
  - intros e m o n VE O L N SL. destruct (type_found ps h dw tyw tw bs sbs SU e m o n VE O L N SL) as (ty & t & D & F & B & SDt & I1 & I2).
    exists ty, t. split; [exact D|]. split; [exact F|]. split; [exact I1|]. split; [exact I2|].
    destruct (built_finalized _ _ TB FIN) as [Ww _]. destruct (built_finalized _ _ B F) as [W _]. split.
    + intros s NZ Ls. apply same_find; auto.
    + intro any. assert (A : alike tw t) by (split; [exact Ww|split; [exact W|apply sd_weaken; exact SDt]]).
      destruct (proj1 (made_like d0 tyw tw dw ty t TB FIN SD B F A) any) as (d & E & _). exists d. exact E.
  - subst sbs. intros any rest n N. destruct (read_like d0 tyw tw dw TB FIN SD any rest n N) as (d & E & _). exists d. exact E.
Qed.
Print Assumptions C67_readable.

(** all users see the same rows *)
Theorem C67_rows ps h dw tyw tw bs sbs p : shared_setup ps h dw tyw tw bs sbs -> shared ps h dw tyw tw bs sbs p ->
  exists c, all_see ps dw tyw tw bs sbs p c
  /\ forall d ty t c', user dw tyw tw bs sbs d ty t -> rows_on_page ps d t p c' -> c' = c.
Proof.
  intros SU S1. destruct (shared_shows ps h dw tyw tw bs sbs SU p S1) as (R & c & H & F2). exists R. split.
  - intros d ty t U. apply (user_shown ps h dw tyw tw bs sbs SU d ty t p R c U H). exact F2.
  - intros d ty t c' U RP. apply (user_shown ps h dw tyw tw bs sbs SU d ty t p c' c U H) in RP.
    clear - F2 RP. revert c' RP. induction F2 as [|x y c R XY F2 IH]; intros R' H'; inversion H' as [|? y' ? R1 XY' H1]; subst; [reflexivity|].
    rewrite (row_det _ _ _ _ XY XY'), (IH _ H1). reflexivity.
Qed.
Print Assumptions C67_rows.

(** each user can go on with the page, and does to the rows what it should *)
Theorem C67_step ps h dw tyw tw bs sbs p c d ty t op : shared_setup ps h dw tyw tw bs sbs -> shared ps h dw tyw tw bs sbs p ->
  all_see ps dw tyw tw bs sbs p c -> user dw tyw tw bs sbs d ty t -> table_allowed h t op ->
  exists r p' c', run_table ps d t op p = Ok (r, p') /\ shared ps h dw tyw tw bs sbs p'
  /\ all_see ps dw tyw tw bs sbs p' c' /\ row_effect t op c r c'.
Proof.
  intros SU S1 AS U A. destruct (shared_shows ps h dw tyw tw bs sbs SU p S1) as (R & b & H & F2).
  assert (E : shows_rows ps h dw tw p c). { exists b. split; [exact H|]. apply (user_shown ps h dw tyw tw bs sbs SU d ty t p c b U H). apply (AS d ty t U). }
  destruct (user_step ps h dw tyw tw bs sbs SU d ty t p c op U E A) as (r & p' & c' & E1 & (b' & H' & F') & RE).
  exists r, p', c'. split; [exact E1|]. split; [exact (shared_next ps h dw tyw tw bs sbs d ty t p op r p' S1 U A E1)|]. split; [|exact RE].
  intros d1 ty1 t1 U1. apply (user_shown ps h dw tyw tw bs sbs SU d1 ty1 t1 p' c' b' U1 H'). exact F'.
Qed.
Print Assumptions C67_step.

(** any schedule *)
Theorem C67_history ps h dw tyw tw bs sbs p l p' c : shared_setup ps h dw tyw tw bs sbs -> shared ps h dw tyw tw bs sbs p ->
  all_see ps dw tyw tw bs sbs p c -> shared_history ps h dw tyw tw bs sbs p l p' ->
  exists c', shared ps h dw tyw tw bs sbs p' /\ all_see ps dw tyw tw bs sbs p' c' /\ shared_rows c l c'.
Proof.
  intros SU S1 AS H. revert c S1 AS. induction H as [p|d ty t p op r p1 l p2 U A E H IH]; intros c S1 AS; [exists c; split; [exact S1|split; [exact AS|constructor]]|].
  destruct (C67_step _ _ _ _ _ _ _ _ _ _ _ _ _ SU S1 AS U A) as (r1 & p3 & c1 & E1 & S2 & AS1 & RE). rewrite E in E1. injection E1 as <- <-.
  destruct (IH c1 S2 AS1) as (c' & S' & AS' & RH). exists c'. split; [exact S'|]. split; [exact AS'|]. econstructor; eauto.
Qed.
Print Assumptions C67_history.

(** ** a concrete case: the type [ex_type] is stored by its writer at offset 3
    of a file of zeros; one reader makes its own size definition, another reads
    the stored one, and the three take turns on a page *)
Definition sh_bytes : list byte := Eval vm_compute in
  match serialize_type_info exd (zmem 200) 3 with Ok (n, m) => slice m 3 n | UB => [] end.
Definition sh_size : list byte := Eval vm_compute in serialize_size_def exs.
Example C67_setup : shared_setup 128 10 exs ex_type exd sh_bytes sh_size.
Proof.
  split; [exact C65_setup|]. split; [split; [|vm_compute; reflexivity]|].
  - exists (zmem 200), 3, (zlen sh_bytes), (match serialize_type_info exd (zmem 200) 3 with Ok (_, m) => m | UB => [] end).
    vm_compute. intuition discriminate.
  - split; [|vm_compute; reflexivity]. unfold short_names. vm_compute. intuition discriminate.
Qed.
Definition sh_type : dti := Eval vm_compute in
  match deserialize_type_info ex_env (sh_bytes ++ [z2b 9]) 0 (zlen sh_bytes + 1) with Ok (Some ty) => ty | _ => ex_type end.
Definition sh_final : dti := Eval vm_compute in snd (finalize sh_type).
Definition sh_made : size_def := Eval vm_compute in match initialize_size_def sd0 sh_type with Some d => d | None => sd0 end.
Definition sh_read : size_def := Eval vm_compute in match deserialize_size_def sd0 sh_size (zlen sh_size) with Ok (Some d) => d | _ => sd0 end.
Example C67_type_read : type_read sh_bytes sh_type sh_final.
Proof. exists ex_env, (sh_bytes ++ [z2b 9]), 0, (zlen sh_bytes + 1). split; [exact ex_env_valid|]. vm_compute. intuition discriminate. Qed.
Example C67_reader_1 : user exs ex_type exd sh_bytes sh_size sh_made sh_type sh_final.
Proof. right. split; [exact C67_type_read|]. left. exists sd0. vm_compute. reflexivity. Qed.
Example C67_reader_2 : user exs ex_type exd sh_bytes sh_size sh_read sh_type sh_final.
Proof. right. split; [exact C67_type_read|]. right. exists sd0, [], (zlen sh_size). split; [vm_compute; intuition discriminate|vm_compute; reflexivity]. Qed.
Example C67_writer : user exs ex_type exd sh_bytes sh_size exs ex_type exd.
Proof. left. auto. Qed.
Definition sh_ops : list (dti * table_op * answer) :=
  [ (exd, Page (Append (Some (tuple_in exd e7))), (1, false)); (sh_final, Page (Append None), (1, false));
    (sh_final, Page (Append (Some (tuple_in exd e2))), (1, false)); (exd, Page (Swap 0 2), (1, false)); (sh_final, Page (Discard 1), (1, false)) ].
Definition sh_page : mem := Eval vm_compute in
  run_table_ops 128 exs exd (map (fun x => (snd (fst x), snd x)) sh_ops) (PageExamples.fresh 128 10 exs).
Example C67_example_history : shared_history 128 10 exs ex_type exd sh_bytes sh_size (PageExamples.fresh 128 10 sh_made) sh_ops sh_page.
Proof.
  unfold sh_ops.
  eapply shh_cons; [exact C67_writer|exact tuple_e7|vm_compute; reflexivity|].
  eapply shh_cons; [exact C67_reader_1|exact I|vm_compute; reflexivity|].
  eapply shh_cons; [exact C67_reader_2|apply (user_tuple _ _ _ _ _ _ _ C67_setup _ _ _ _ C67_reader_2); exact tuple_e2|vm_compute; reflexivity|].
  eapply shh_cons; [exact C67_writer|vm_compute; intuition discriminate|vm_compute; reflexivity|].
  eapply shh_cons; [exact C67_reader_2|vm_compute; intuition discriminate|vm_compute; reflexivity|]. constructor.
Qed.
