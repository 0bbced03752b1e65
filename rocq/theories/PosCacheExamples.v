(** * Cases of C69 and positions that may not be kept *)
From Coq Require Import String.
From Verif Require Import ElementType PosCacheProps PosCacheSpec OpFacts SizeProps TupleProps TupleExamples.
Open Scope string_scope.
Open Scope list_scope.
Open Scope Z_scope.

(** element 3, an array, is moved behind element 1, a string, which is then
    moved, set to another string, read and set to NULL *)
Definition ex_calls : list (Z * element_call) :=
  [(1, CPosition); (3, CMoveToEnd); (1, CMoveToEnd); (3, CPointer); (1, CSet (str "hi") 20); (1, CIsNull); (1, CSize); (2, CRead); (2, CSetNull); (2, CRead);
   (1, CSetNull); (1, CRead); (1, CCanSet (str "again") 40); (9, CRead)].
Ltac one_call :=
  split; [split; [lia|]; first [exact I | split; [roomy|split; [intros t E; vm_compute in E; injection E as <-; vm_compute; intuition discriminate|intros; discriminate]]]|];
  let am := fresh "am" in let c := fresh "c" in let E := fresh "E" in intros am c E; vm_compute in E; injection E as <- <-; cbn [snd].
Example C69_case : calls_allowed exd 0 ex_calls e7.
Proof. unfold ex_calls. cbn [calls_allowed]. do 14 one_call. exact I. Qed.
Example C69_case_answers : exists m', calls_kept exd 0 ex_calls e7 (fun _ => None)
  = Ok ([ABool true; ABool true; ABool true; APointer (Some 11); ABool true; ABool false; ASize 4; AValue (Some (DInt (-5))); ABool true; AValue (Some DNull);
         ABool true; AValue (Some DNull); ABool true; AValue None], m').
Proof. eexists. vm_compute. reflexivity. Qed.

(** ** positions that may not be kept *)
Definition bytes_type : dti := var_array 100 (num UINT true 1).
Example bytes_type_built : type_built bytes_type.
Proof. unfold bytes_type, num, var_array. build; congruence. Qed.
Definition bd : dti := final bytes_type.
Definition a0 : mem := init0 bd (zmem 40).
Definition a1 : mem := get a0 (expand_element bd [] a0 0 0 2 30).
Definition a2 : mem := get a1 (set_element bd [0] a1 0 (DUint 7) 0).
Definition a3 : mem := get a2 (set_element bd [1] a2 0 (DUint 9) 0).
Definition a4 : mem := get a3 (expand_element bd [] a3 0 2 7 30).
Lemma at_top d m o t a : element_at d [] m o t a -> t = d /\ a = o.
Proof. intro E. inversion E; auto. Qed.
Ltac limits := intros t a s n EA E1 E2; apply at_top in EA; destruct EA as [-> ->]; vm_compute in E1; vm_compute in E2; injection E1 as <-; injection E2 as <-;
  split; [lia|]; split; [vm_compute; reflexivity|]; vm_compute; discriminate.
Example data_a0 : data_at bd a0 0.
Proof. apply init0_data; [apply bytes_type_built|reflexivity|reflexivity|vm_compute; discriminate|vm_compute; discriminate]. Qed.
Example data_a1 : data_at bd a1 0.
Proof. eapply (da_expand bd a0 0 [] 0 2 30); [apply data_a0|pathy|roomy|lia|limits|vm_compute; reflexivity]. Qed.
Ltac set_a m i v := eapply (da_set bd m 0 [i] v 0); [eassumption | pathy | | | | vm_compute; reflexivity ];
  [ roomy | intros t E; vm_compute in E; injection E as <-; vm_compute; intuition discriminate | intros; discriminate ].
Example data_a2 : data_at bd a2 0.
Proof. pose proof data_a1. set_a a1 0 (DUint 7). Qed.
Example data_a3 : data_at bd a3 0.
Proof. pose proof data_a2. set_a a2 1 (DUint 9). Qed.
Example data_a4 : data_at bd a4 0.
Proof. eapply (da_expand bd a3 0 [] 2 7 30); [apply data_a3|pathy|roomy|lia|limits|vm_compute; reflexivity]. Qed.

(** the condition of [kept] that the number of elements is the same is needed:
    after elements have been added to an array, a position from before reads
    another byte *)
Theorem C69_refuted_after_expand : exists d m m' c, data_at d m 0 /\ position_of d m 0 0 None = Ok (true, c)
  /\ expand_element d [] m 0 2 7 30 = Ok (true, m') /\ data_at d m' 0
  /\ result (read_element d m 0 0 c) = Ok (Some (DUint 7)) /\ result (read_element d m' 0 0 None) = Ok (Some (DUint 7))
  /\ result (read_element d m' 0 0 c) = Ok (Some (DUint 0)).
Proof.
  exists bd, a3, a4. eexists. split; [exact data_a3|]. split; [vm_compute; reflexivity|]. split; [vm_compute; reflexivity|]. split; [exact data_a4|].
  split; [vm_compute; reflexivity|]. split; vm_compute; reflexivity.
Qed.
Print Assumptions C69_refuted_after_expand.
(** the index of a call that gets a valid position is only compared with the
    number of elements: the position decides which element is read *)
Theorem C69_refuted_other_index : exists d m c, data_at d m 0 /\ position_of d m 0 0 None = Ok (true, c)
  /\ result (read_element d m 0 1 None) = Ok (Some (DUint 9)) /\ result (read_element d m 0 1 c) = Ok (Some (DUint 7)).
Proof.
  exists bd, a3. eexists. split; [exact data_a3|]. split; [vm_compute; reflexivity|]. split; vm_compute; reflexivity.
Qed.
Print Assumptions C69_refuted_other_index.
Example C69_kept_case : exists c, c <> None /\ kept bd a3 0 1 c.
Proof. eexists. split; [|right; exists a2, 0; split; [exact data_a2|]; split; vm_compute; reflexivity]. discriminate. Qed.
(** the array in e7 has a type of its elements, and e7 has no element [9] *)
Example C69_case_type : exists t, element_type_of exd e7 0 3 = Ok (Some t) /\ type t = ARRAY /\ element_type_of exd e7 0 9 = Ok None.
Proof. eexists. split; [vm_compute; reflexivity|]. split; reflexivity. Qed.
