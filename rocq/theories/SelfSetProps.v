(** * C70: copying an element within one tuple

    The header asks for two separate tuples (tuple.h:37) when a string, a binary,
    a tuple or an array is copied.  When is the same tuple as good as a copy of
    it? *)
From Coq Require Import String.
From Verif Require Import SizeProps TupleProps CopyProps HashFacts IdentFacts AlikeFacts IdentProps TupleExamples.
From Verif Require Import SelfSet NestedProps OpFacts SelfSetFacts.
From Coq Require Import ZifyBool ZifyNat ZifyN Zify.
Ltac Zify.zify_post_hook ::= idtac.
Open Scope string_scope.
Open Scope list_scope.
Open Scope Z_scope.

(** the element at [pa], of type [t], is to be set from the one at [pa_in], of
    type [t_in], of the same tuple *)
Definition copying_within (d : dti) (pa : list Z) (m : mem) (o : Z) (t : dti) (pa_in : list Z) (t_in : dti) : Prop :=
  data_at d m o /\ path_ok pa /\ path_ok pa_in /\ get_type_info d pa = Some t /\ get_type_info d pa_in = Some t_in.
(** the tuple itself as source is as good as a copy of it in another buffer, for
    the function that copies, and for storing a value that was read.  What it does
    with a copy is described by C60, and by C32 to C35 and C55. *)
Definition as_good_as_a_copy (cv : conversions) (d : dti) (pa : list Z) (m : mem) (o : Z) (t : dti) (pa_in : list Z) (t_in : dti) (inc : Z) : Prop :=
  set_element_from_itself cv d pa m o pa_in inc = set_element_from_tuple cv d pa m o d pa_in m o inc
  /\ (forall v, get_value d pa_in m o = Ok (Some v) ->
        ((type t = STRING \/ type t = BINARY) /\ (type t_in = STRING \/ type t_in = BINARY)) \/ same_description false t t_in ->
        set_own_element d pa m o v inc = set_element d pa m o v inc).

Lemma as_good cv d pa m o t pa_in t_in inc : copying_within d pa m o t pa_in t_in ->
  (is_primitive_numeral t_in = true \/ forall v, get_value d pa_in m o = Ok (Some v) -> stored_as_is t t_in -> set_own_element d pa m o v inc = set_element d pa m o v inc) ->
  as_good_as_a_copy cv d pa m o t pa_in t_in inc.
Proof.
  intros (D & PO & PI & TI & TJ) K0. destruct (data_holds d m o D) as [bs H]. destruct (good_size _ _ (h_good _ _ _ _ H)) as (W & _).
  destruct (type_info_wf pa d t PO W TI) as [Wt _]. destruct (type_info_wf pa_in d t_in PI W TJ) as [Wi _].
  assert (NP : is_primitive_numeral t_in = true -> forall v, get_value d pa_in m o = Ok (Some v) -> (v = DNull \/ (is_value t_in v /\ v <> DNull)) /\ not_pointer v).
  { intros P v E. pose proof (source_value pa_in d m o bs t_in v PI H TJ P E) as SV. split; [exact SV|]. destruct SV as [->|[V _]]; [exact I|destruct v; try exact I; contradiction]. }
  assert (K : forall v, get_value d pa_in m o = Ok (Some v) -> stored_as_is t t_in -> set_own_element d pa m o v inc = set_element d pa m o v inc).
  { destruct K0 as [P|K]; [|exact K]. intros v E _. apply own_value. apply (NP P v E). }
  split.
  - unfold set_element_from_itself, set_element_from_tuple. destruct (get_value d pa_in m o) as [[v|]|] eqn:E; cbn [bind]; try reflexivity. rewrite TJ, TI.
    pose proof (identical_any t t_in Wt Wi) as ID. destruct (are_identical t t_in) as [[|]|]; cbn [bind]; [| |reflexivity].
    + apply K; [reflexivity|]. right. split; [exact Wt|]. split; [exact Wi|]. apply ID.
    + destruct (is_primitive_numeral t && is_primitive_numeral t_in) eqn:P.
      * apply andb_true_iff in P. destruct P as [P1 P2]. destruct (numeral_ok t Wt P1) as [OK _]. destruct (NP P2 v eq_refl) as [SV _].
        destruct (cast_fits cv t t_in v P1 OK P2 SV) as (c & EC & F). unfold type_cast_into. rewrite EC. cbn [bind]. destruct c as [w|]; [|reflexivity].
        destruct (F w eq_refl) as (FT & NPt & _). cbn [is_datum_NULL andb]. apply own_value. destruct w; try exact I; cbn [fits] in FT; [|exfalso; eapply NPt; reflexivity].
        destruct FT as [[T|T] _]; unfold is_primitive_numeral in P1; rewrite T in P1; discriminate.
      * destruct (type t) eqn:T; try reflexivity; destruct (type t_in) eqn:T'; try reflexivity; apply K; try reflexivity; left; split; unfold string_type; auto.
  - intros v E SD. apply K; [exact E|]. destruct SD as [S|S]; [left; exact S|right; split; [exact Wt|]; split; [exact Wi|exact S]].
Qed.

(** ** numbers: always *)
Theorem C70_numbers cv d pa m o t pa_in t_in inc : copying_within d pa m o t pa_in t_in -> is_primitive_numeral t_in = true ->
  as_good_as_a_copy cv d pa m o t pa_in t_in inc.
Proof. intros CW P. apply as_good; auto. Qed.
Print Assumptions C70_numbers.

(** ** into an element of fixed size: always *)
Theorem C70_fixed cv d pa m o t pa_in t_in inc : copying_within d pa m o t pa_in t_in -> t_variable t = false ->
  as_good_as_a_copy cv d pa m o t pa_in t_in inc.
Proof.
  intros CW F. apply as_good; [exact CW|]. right. intros v E K. destruct CW as (D & PO & PI & TI & TJ). destruct (data_holds d m o D) as [bs H]. destruct (good_size _ _ (h_good _ _ _ _ H)) as (W & _).
  destruct (type_info_wf pa d t PO W TI) as [Wt _]. pose proof (wf_spec t Wt) as [TV _]. rewrite TV in F.
  unfold set_own_element, set_element. rewrite TI. change (is_variable_sized_type_info t) with (is_variable_sized_ t). rewrite F.
  apply (own_fixed pa pa_in d m o bs t t_in v inc H PO PI TI TJ E K F).
Qed.
Print Assumptions C70_fixed.

(** ** into an element of variable size: from another element of the tuple that
    is stored before it (there is nothing behind it to be before, if it is NULL) *)
Definition stored_before (d : dti) (m : mem) (o j i : Z) : Prop :=
  forall ti ai tj aj, element_at d [i] m o ti ai -> element_at d [j] m o tj aj -> aj < ai.
Theorem C70_variable cv d i pa m o t j pa_in t_in inc : copying_within d (i :: pa) m o t (j :: pa_in) t_in -> t_variable t = true ->
  i <> j -> stored_before d m o j i -> as_good_as_a_copy cv d (i :: pa) m o t (j :: pa_in) t_in inc.
Proof.
  intros CW F NE SB. apply as_good; [exact CW|]. right. intros v E K. destruct CW as (D & PO & PI & TI & TJ). destruct (data_holds d m o D) as [bs H]. destruct (good_size _ _ (h_good _ _ _ _ H)) as (W & _).
  destruct (type_info_wf _ d t PO W TI) as [Wt _]. pose proof (wf_spec t Wt) as [TV _]. rewrite TV in F. pose proof (Forall_inv PO) as I. cbn beta in I.
  unfold set_own_element, set_element. rewrite TI. change (is_variable_sized_type_info t) with (is_variable_sized_ t). rewrite F.
  destruct (is_container_type_info d) eqn:C; [|exfalso; cbn [get_type_info] in TI; unfold containee_type_without_data in TI; rewrite C in TI; discriminate].
  destruct (holds_cv d m o bs H C) as (es & CT & V & Vb & GE).
  destruct (value_chunk d m o bs es j pa_in v t_in t H CT V GE PI TJ E (stored_reads _ _ K)) as [J [N|(c & lo & hi & Ej & X1 & X2 & X3 & X4)]]; [apply own_value_internal; exact N|].
  apply (own_var pa d m o bs es i j c t v inc lo hi H CT V GE PO J NE Ej X1 X2 X3 TI X4 F).
  intros ci Ei. pose proof (chunks_apart d m o _ es i j ci c CT V ltac:(lia) J NE Ei Ej) as AP.
  assert (L : addr d (zlen es) m o j < addr d (zlen es) m o i).
  { apply (SB (etype d i) _ (etype d j) _).
    - eapply at_child; [rewrite (child_ok d m o _ es i (CBytes ci) CT V ltac:(lia) Ei); reflexivity|constructor].
    - eapply at_child; [rewrite (child_ok d m o _ es j (CBytes c) CT V J Ej); reflexivity|constructor]. }
  pose proof (zlen_nonneg ci). lia.
Qed.
Print Assumptions C70_variable.

(** ** cases
    in [e7] (TupleExamples.v) the array, element 3, is stored before the string,
    element 1 *)
Ltac within := split; [apply data_e7|]; split; [pathy|]; split; [pathy|]; split; vm_compute; reflexivity.
Definition read_after (r : res (bool * mem)) (pas : list (list Z)) : option (bool * list (res (option obs))) :=
  match r with Ok (b, m) => Some (b, map (fun pa => observe exd pa m 0) pas) | UB => None end.
Example C70_numbers_case : copying_within exd [3; 1; 0] e7 0 (type_at exd [3; 1; 0]) [2] (type_at exd [2]) /\ is_primitive_numeral (type_at exd [2]) = true
  /\ read_after (set_element_from_itself any exd [3; 1; 0] e7 0 [2] 50) [[3; 1; 0]; [2]] = Some (true, [Ok (Some (OUint 65531)); Ok (Some (OInt (-5)))]).
Proof. split; [within|]. split; vm_compute; reflexivity. Qed.
Example C70_variable_case : copying_within exd [1] e7 0 (type_at exd [1]) [3; 1; 1] (type_at exd [3; 1; 1]) /\ t_variable (type_at exd [1]) = true
  /\ stored_before exd e7 0 3 1
  /\ read_after (set_element_from_itself any exd [1] e7 0 [3; 1; 1] 50) [[1]; [2]; [3; 1; 1]] = Some (true, [Ok (Some (bytes_of "ab")); Ok (Some (OInt (-5))); Ok (Some (bytes_of "ab"))]).
Proof.
  split; [within|]. split; [vm_compute; reflexivity|]. split; [|vm_compute; reflexivity].
  intros ti ai tj aj E1 E2. apply element_at_one in E1. apply element_at_one in E2. vm_compute in E1. vm_compute in E2. injection E1 as _ <-. injection E2 as _ <-. lia.
Qed.
(** strings of fixed size: one is copied over the other, and over itself *)
Definition fix_string (n : Z) : dti := mk_dti false [] STRING true false 0 0 false n 0 None [].
Definition fixed_pair : dti := tup 100 [fix_string 4; fix_string 6; var_string 20].
Example fixed_pair_built : type_built fixed_pair.
Proof. unfold fixed_pair, fix_string, tup, var_string. cbn [map]. build; congruence. Qed.
Definition pd : dti := final fixed_pair.
Definition p0 : mem := init0 pd (zmem 60).
Definition p1 : mem := get p0 (set_element pd [1] p0 0 (str "abcdef") 20).
Example data_p0 : data_at pd p0 0.
Proof. apply init0_data; [apply fixed_pair_built|reflexivity|reflexivity|vm_compute; discriminate|vm_compute; discriminate]. Qed.
Example data_p1 : data_at pd p1 0.
Proof.
  eapply (da_set pd p0 0 [1] (str "abcdef") 20); [apply data_p0|pathy|roomy| | |vm_compute; reflexivity]; [intros t E; vm_compute in E; injection E as <-; vm_compute; intuition discriminate|intros; discriminate].
Qed.
Definition read_pd (r : res (bool * mem)) (pas : list (list Z)) : option (bool * list (res (option obs))) :=
  match r with Ok (b, m) => Some (b, map (fun pa => observe pd pa m 0) pas) | UB => None end.
Example C70_fixed_case : copying_within pd [0] p1 0 (type_at pd [0]) [1] (type_at pd [1]) /\ t_variable (type_at pd [0]) = false
  /\ read_pd (set_element_from_itself any pd [0] p1 0 [1] 20) [[0]; [1]; [2]] = Some (true, [Ok (Some (bytes_of "abcd")); Ok (Some (bytes_of "abcdef")); Ok (Some ONull)])
  /\ read_pd (set_element_from_itself any pd [1] p1 0 [1] 20) [[0]; [1]; [2]] = Some (true, [Ok (Some ONull); Ok (Some (bytes_of "abcdef")); Ok (Some ONull)])
  /\ read_pd (set_element_from_itself any pd [2] p1 0 [1] 20) [[0]; [1]; [2]] = Some (true, [Ok (Some ONull); Ok (Some (bytes_of "abcdef")); Ok (Some (bytes_of "abcdef"))]).
Proof. split; [split; [apply data_p1|]; split; [pathy|]; split; [pathy|]; split; vm_compute; reflexivity|]. repeat (split; [vm_compute; reflexivity|]). vm_compute; reflexivity. Qed.

(** ** otherwise the header is right to ask for two tuples
    from an element stored behind the target: 1 is returned and the target
    becomes another string *)
Theorem C70_refuted_from_behind : exists d i pa m o t j pa_in t_in inc m' m'', copying_within d (i :: pa) m o t (j :: pa_in) t_in /\ i <> j /\ room d m o inc
  /\ set_element_from_tuple any d (i :: pa) m o d (j :: pa_in) m o inc = Ok (true, m') /\ observe d (i :: pa) m' o = Ok (Some (bytes_of "good bye"))
  /\ set_element_from_itself any d (i :: pa) m o (j :: pa_in) inc = Ok (true, m'') /\ observe d (i :: pa) m'' o = Ok (Some (bytes_of "")).
Proof.
  exists exd, 3, [1; 1], e7, 0, (type_at exd [3; 1; 1]), 1, [], (type_at exd [1]), 50. eexists. eexists.
  split; [within|]. split; [discriminate|]. split; [roomy|]. repeat (split; [vm_compute; reflexivity|]). vm_compute; reflexivity.
Qed.
Print Assumptions C70_refuted_from_behind.
(** an array is copied over itself: 1 is returned, and reading from the array
    then leaves the buffer *)
Theorem C70_refuted_onto_itself : exists d pa m o t inc m' m'', copying_within d pa m o t pa t /\ room d m o inc
  /\ set_element_from_tuple any d pa m o d pa m o inc = Ok (true, m') /\ observe d (pa ++ [1; 1]) m' o = Ok (Some (bytes_of "ab"))
  /\ set_element_from_itself any d pa m o pa inc = Ok (true, m'') /\ observe d (pa ++ [1; 1]) m'' o = UB.
Proof.
  exists exd, [3], e7, 0, (type_at exd [3]), 50. eexists. eexists.
  split; [within|]. split; [roomy|]. repeat (split; [vm_compute; reflexivity|]). vm_compute; reflexivity.
Qed.
Print Assumptions C70_refuted_onto_itself.
(** within one element that is moved: from element 0 to element 1 of the tuple in
    the array, though it is stored before it *)
Definition inner_pair : dti := tup 100 [var_string 40; var_string 40].
Definition outer_pair : dti := tup 300 [inner_pair; var_string 40].
Example outer_pair_built : type_built outer_pair.
Proof. unfold outer_pair, inner_pair, tup, var_string. cbn [map]. build; congruence. Qed.
Definition od : dti := final outer_pair.
Definition o0 : mem := init0 od (zmem 80).
Definition o1 : mem := get o0 (set_element od [0] o0 0 DEmpty 70).
Definition o2 : mem := get o1 (set_element od [0; 0] o1 0 (str "abc") 50).
Definition o3 : mem := get o2 (set_element od [1] o2 0 (str "xyz") 40).
Ltac set_o m pa v inc := eapply (da_set od m 0 pa v inc); [eassumption | pathy | | | | vm_compute; reflexivity ];
  [ roomy | intros t E; vm_compute in E; injection E as <-; vm_compute; intuition discriminate | intros; discriminate ].
Example data_o0 : data_at od o0 0.
Proof. apply init0_data; [apply outer_pair_built|reflexivity|reflexivity|vm_compute; discriminate|vm_compute; discriminate]. Qed.
Example data_o1 : data_at od o1 0.
Proof. pose proof data_o0. set_o o0 [0] DEmpty 70. Qed.
Example data_o2 : data_at od o2 0.
Proof. pose proof data_o1. set_o o1 [0; 0] (str "abc") 50. Qed.
Example data_o3 : data_at od o3 0.
Proof. pose proof data_o2. set_o o2 [1] (str "xyz") 40. Qed.
Theorem C70_refuted_inside_an_element : exists d m o t t_in inc m' m'', copying_within d [0; 1] m o t [0; 0] t_in /\ room d m o inc
  /\ observe d [0; 1] m o = Ok (Some ONull)
  /\ set_element_from_tuple any d [0; 1] m o d [0; 0] m o inc = Ok (true, m') /\ observe d [0; 1] m' o = Ok (Some (bytes_of "abc"))
  /\ set_element_from_itself any d [0; 1] m o [0; 0] inc = Ok (true, m'') /\ observe d [0; 1] m'' o <> Ok (Some (bytes_of "abc")).
Proof.
  exists od, o3, 0, (type_at od [0; 1]), (type_at od [0; 0]), 30. eexists. eexists.
  split; [split; [apply data_o3|]; split; [pathy|]; split; [pathy|]; split; vm_compute; reflexivity|]. split; [roomy|]. repeat (split; [vm_compute; reflexivity|]). vm_compute. discriminate.
Qed.
Print Assumptions C70_refuted_inside_an_element.
