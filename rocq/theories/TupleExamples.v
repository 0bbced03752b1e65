(** * The hypotheses of the theorems of TupleProps.v are met

    A history of operations on a tuple with a nullable bit field, a string, a
    nullable integer and an array of tuples, each again with a string. *)
From Coq Require Import String.
From Verif Require Import OpFacts SizeProps TupleProps.
Open Scope string_scope.
Open Scope list_scope.
Open Scope Z_scope.

Definition ex_pair : dti := tup 100 [num UINT false 2; var_string 50].
Definition ex_type : dti := tup 1000 [num BIT_FIELD true 3; var_string 300; num INT true 4; var_array 400 ex_pair].
Example ex_type_built : type_built ex_type.
Proof. unfold ex_type, ex_pair, tup, num, var_string, var_array. cbn [map]. build; congruence. Qed.
Definition exd : dti := final ex_type.

Definition str (s : string) : datum := let b := list_byte_of_string s in DStr b 0 (zlen b).
(** the history: sets of elements at paths, an expansion, a discard *)
Definition e0 : mem := init0 exd (zmem 120).
Definition e1 : mem := get e0 (set_element exd [2] e0 0 (DInt (-5)) 100).
Definition e2 : mem := get e1 (set_element exd [1] e1 0 (str "hello") 90).
Definition e3 : mem := get e2 (set_element exd [3] e2 0 DEmpty 80).
Definition e4 : mem := get e3 (expand_element exd [3] e3 0 0 2 80).
Definition e5 : mem := get e4 (set_element exd [3; 1] e4 0 DEmpty 70).
Definition e6 : mem := get e5 (set_element exd [3; 1; 1] e5 0 (str "ab") 60).
Definition e7 : mem := get e6 (set_element exd [1] e6 0 (str "good bye") 50).
Definition e8 : mem := get e7 (discard_elements exd [3] e7 0 0 1).

Ltac roomy := split; [lia|]; intros _ s E; vm_compute in E; injection E as <-; vm_compute; discriminate.
Ltac pathy := repeat constructor; lia.
Ltac by_set m pa v inc := eapply (da_set exd m 0 pa v inc); [eassumption | pathy | | | | vm_compute; reflexivity ];
  [ roomy | intros t E; vm_compute in E; injection E as <-; vm_compute; intuition discriminate | intros; discriminate ].

Example data_e0 : data_at exd e0 0.
Proof. apply init0_data; [apply ex_type_built|reflexivity|reflexivity|vm_compute; discriminate|vm_compute; discriminate]. Qed.
Example data_e1 : data_at exd e1 0.
Proof. pose proof data_e0. by_set e0 [2] (DInt (-5)) 100. Qed.
Example data_e2 : data_at exd e2 0.
Proof. pose proof data_e1. by_set e1 [1] (str "hello") 90. Qed.
Example data_e3 : data_at exd e3 0.
Proof. pose proof data_e2. by_set e2 [3] DEmpty 80. Qed.
Lemma element_at_one d i m o t a : element_at d [i] m o t a -> child d m o i = Ok (Some (Some (t, a))).
Proof. intro EA. inversion EA as [|? ? ? ? ? t1 a1 ? ? E3 EA']; subst. inversion EA'; subst. exact E3. Qed.
Example limits_e3 : forall t a s n, element_at exd [3] e3 0 t a -> get_size t e3 a = Ok s -> get_element_count t e3 a = Ok n -> expand_limits t s n 2.
Proof.
  intros t a s n EA E1 E2. apply element_at_one in EA. vm_compute in EA. injection EA as <- <-.
  vm_compute in E1. vm_compute in E2. injection E1 as <-. injection E2 as <-.
  split; [lia|]. split; [vm_compute; reflexivity|]. intro B. vm_compute in B. discriminate.
Qed.
Example data_e4 : data_at exd e4 0.
Proof. eapply (da_expand exd e3 0 [3] 0 2 80); [apply data_e3|pathy| |lia|apply limits_e3|vm_compute; reflexivity]. roomy. Qed.
Example data_e5 : data_at exd e5 0.
Proof. pose proof data_e4. by_set e4 [3; 1] DEmpty 70. Qed.
Example data_e6 : data_at exd e6 0.
Proof. pose proof data_e5. by_set e5 [3; 1; 1] (str "ab") 60. Qed.
Example data_e7 : data_at exd e7 0.
Proof. pose proof data_e6. by_set e6 [1] (str "good bye") 50. Qed.

(** all operations return 1 and the readings are as expected *)
Definition bytes_of (s : string) : obs := OStr (list_byte_of_string s).
Example history_results :
  map (fun r => match r with Ok (b, _) => b | UB => false end)
    [ set_element exd [2] e0 0 (DInt (-5)) 100; set_element exd [1] e1 0 (str "hello") 90; set_element exd [3] e2 0 DEmpty 80; expand_element exd [3] e3 0 0 2 80;
      set_element exd [3; 1] e4 0 DEmpty 70; set_element exd [3; 1; 1] e5 0 (str "ab") 60; set_element exd [1] e6 0 (str "good bye") 50; discard_elements exd [3] e7 0 0 1 ]
  = [true; true; true; true; true; true; true; true].
Proof. vm_compute. reflexivity. Qed.
Example readings_e7 :
  map (fun pa => observe exd pa e7 0) [[0]; [1]; [2]; [3; 0]; [3; 1; 0]; [3; 1; 1]; [3; 2]]
  = map (@Ok (option obs)) [Some ONull; Some (bytes_of "good bye"); Some (OInt (-5)); Some ONull; Some (OUint 0); Some (bytes_of "ab"); None].
Proof. vm_compute. reflexivity. Qed.
Example readings_e8 :
  map (fun pa => observe exd pa e8 0) [[1]; [3; 0; 0]; [3; 0; 1]; [3; 1]]
  = map (@Ok (option obs)) [Some (bytes_of "good bye"); Some (OUint 0); Some (bytes_of "ab"); None].
Proof. vm_compute. reflexivity. Qed.

(** C30 *)
Example C30_example : exists sd, initialize_size_def sd0 ex_type = Some sd /\ min_tuple_size sd = 11
  /\ unset_reading exd [1] = Some ONull /\ unset_reading (final ex_pair) [0] = Some (OUint 0).
Proof. exists (match initialize_size_def sd0 ex_type with Some sd => sd | None => sd0 end). vm_compute. auto. Qed.
(** C31: 4 elements in 11 bytes *)
Example C31_example : data_at exd e7 0 /\ is_container_type_info exd = true /\ element_count_of exd [] e7 0 = Ok 4 /\ t_size exd = 11.
Proof. split; [apply data_e7|]. vm_compute. auto. Qed.
(** C32 to C35 *)
Example C32_example : data_at exd e6 0 /\ path_ok [1] /\ room exd e6 0 50 /\ get_type_info exd [1] = Some (final (var_string 300)) /\ fits (final (var_string 300)) (str "good bye")
  /\ exists m', set_element exd [1] e6 0 (str "good bye") 50 = Ok (true, m').
Proof.
  split; [apply data_e6|]. split; [pathy|]. split; [roomy|]. split; [vm_compute; reflexivity|]. split; [vm_compute; intuition discriminate|]. eexists. vm_compute. reflexivity.
Qed.
(** refused: 60 bytes do not fit the increment *)
Example C33_refused : can_set_element exd [1] e6 0 (str "sixty bytes sixty bytes sixty bytes sixty bytes sixty bytes ") 50 = Ok false.
Proof. vm_compute. reflexivity. Qed.
(** a whole element is set from another tuple *)
Example C32_pointer : exists m', set_element exd [3; 0] e7 0 (DPtr e7 (match get_value exd [3; 1] e7 0 with Ok (Some (DPtr _ o)) => o | _ => 0 end)) 50 = Ok (true, m')
  /\ observe exd [3; 0; 1] m' 0 = Ok (Some (bytes_of "ab")).
Proof.
  exists (get [] (set_element exd [3; 0] e7 0 (DPtr e7 (match get_value exd [3; 1] e7 0 with Ok (Some (DPtr _ o)) => o | _ => 0 end)) 50)).
  split; vm_compute; reflexivity.
Qed.
(** C36: in the middle of the array *)
Example C36_example : exists m', expand_element exd [3] e7 0 1 2 40 = Ok (true, m')
  /\ map (fun pa => observe exd pa m' 0) [[3; 0]; [3; 1]; [3; 2]; [3; 3; 1]] = map (@Ok (option obs)) [Some ONull; Some ONull; Some ONull; Some (bytes_of "ab")].
Proof.
  exists (get [] (expand_element exd [3] e7 0 1 2 40)).
  split; vm_compute; reflexivity.
Qed.
(** C37 *)
Example C37_example : discard_elements exd [3] e7 0 0 1 = Ok (true, e8).
Proof.
  vm_compute. reflexivity.
Qed.
(** an array of nullable 64 bit bit fields stays empty: discarding is refused *)
Example C37_wide : let d := final bits65 in let m := init0 d (zmem 1000) in
  data_at d m 0 /\ discard_elements d [] m 0 0 1 = Ok (false, m) /\ discard_elements d [] m 0 0 0 = Ok (false, m).
Proof.
  split; [apply init0_data; [unfold bits65, var_array, num; build; congruence|reflexivity|reflexivity|vm_compute; discriminate|vm_compute; discriminate]|].
  split; vm_compute; reflexivity.
Qed.
