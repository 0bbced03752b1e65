(** * C49: nested access through a datum *)
From Coq Require Import String.
From Verif Require Import HashFacts SizeProps TupleProps TupleExamples SerdeProps CompareProps HashProps.
From Verif Require CopyProps.
From Coq Require Import ZifyBool ZifyNat ZifyN Zify.
Ltac Zify.zify_post_hook ::= Z.div_mod_to_equations.
Open Scope list_scope.
Open Scope Z_scope.

Lemma not_container_nested t v i pb : is_container_type_info t = false -> get_nested_containee v (Some t) (i :: pb) = Ok None.
Proof. intro C. cbn [get_nested_containee]. unfold get_containee_from_datum. rewrite C. reflexivity. Qed.
Lemma string_reading t m a c i : holds t m a c -> string_type t -> forall n, get_element_count t m a = Ok n -> 0 <= i < n ->
  exists b, rd m (a + offset_of_prefix_bitmap t + i) 1 = Ok [b] /\ get_value t [i] m a = Ok (Some (DUint (b2z b))) /\ forall pb, pb <> [] -> get_value t (i :: pb) m a = Ok None.
Proof.
  intros HD S n N I. pose proof (string_container t S) as C. destruct (holds_cv t m a c HD C) as (es & CT & Vm & Vc & _).
  pose proof CT as [W _]. destruct (string_layout t W S) as (HS & OC & VC & LV & LF & ET & SB & SS). pose proof (pbo_range t) as (P1 & _).
  assert (SO : forall n k, so t n k = pbo t + k) by (intros n' k; unfold so; rewrite SB, SS; unfold bitmap_size_in_bytes; cbn; lia).
  destruct (string_bytes t m a c HD S) as (n' & N1 & N2 & N3 & N4 & _). assert (n' = n) as -> by congruence. rewrite (cv_get_count _ _ _ _ _ CT Vm) in N1. assert (n = zlen es) as -> by congruence.
  pose proof (h_o _ _ _ _ HD) as Ho. pose proof (h_in _ _ _ _ HD) as Hl.
  assert (AD : addr t (zlen es) m a i = a + pbo t + i) by (unfold addr; rewrite ET; cbn [is_variable_sized_ uint8_type]; rewrite SO; lia).
  exists (bat m (a + pbo t + i)). split; [change (offset_of_prefix_bitmap t) with (pbo t); rewrite rd_ok by lia; rewrite slice_1 by lia; reflexivity|].
  destruct (znth_lt es i I) as [e En]. pose proof (cv_el _ _ _ _ _ Vm i e ltac:(lia) En) as [_ A]. rewrite ET in A.
  destruct e as [|z|b]; [destruct A as [A _]; discriminate|destruct A as [A _]; discriminate|]. split.
  - rewrite (value_step t m a _ es i _ [] CT Vm ltac:(lia) En). rewrite ET. cbn [get_value]. rewrite AD. unfold get_datum. cbn [type uint8_type size]. rewrite rd_ok by lia. cbn [bind]. rewrite slice_1 by lia. do 3 f_equal. cbn [dec]. lia.
  - intros pb NE. rewrite (value_step t m a _ es i _ pb CT Vm ltac:(lia) En). rewrite ET. apply not_container_value; [exact NE|reflexivity].
Qed.
Lemma string_datum t m a c v : holds t m a c -> string_type t -> get_datum t m a = Ok (Some v) ->
  exists n k bs, get_element_count t m a = Ok n /\ v = DStr m (a + offset_of_prefix_bitmap t) k /\ 0 <= k <= n /\ rd m (a + offset_of_prefix_bitmap t) k = Ok bs.
Proof.
  intros HD S E. destruct (string_bytes t m a c HD S) as (n & N1 & N2 & N3 & N4 & _). pose proof (h_o _ _ _ _ HD) as Ho. pose proof (h_in _ _ _ _ HD) as Hl.
  assert (K : exists k, 0 <= k <= n /\ v = DStr m (a + offset_of_prefix_bitmap t) k).
  { unfold get_datum in E. destruct S as [S|S]; rewrite S in E; rewrite N1 in E; cbn [bind] in E.
    - apply bind_inv in E. destruct E as (k & R & E). apply strnlen_range in R. exists k. split; [lia|congruence].
    - exists n. split; [lia|congruence]. }
  destruct K as (k & K & ->). exists n, k, (slice m (a + pbo t) k). split; [exact N1|]. split; [reflexivity|]. split; [exact K|]. change (offset_of_prefix_bitmap t) with (pbo t). apply rd_ok; lia.
Qed.
(** nested access below the value of a whole element *)
Lemma nested_agree pb : forall t m a c v, holds t m a c -> get_datum t m a = Ok (Some v) -> path_ok pb ->
  (forall pc i pe, pb = pc ++ i :: pe -> get_value t pc m a <> Ok (Some DNull)) ->
  (forall pc i bs n, pb = pc ++ [i] -> observe t pc m a = Ok (Some (OStr bs)) -> element_count_of t pc m a = Ok n -> i < zlen bs \/ n <= i) ->
  exists r, get_value t pb m a = Ok r /\ get_nested_containee v (Some t) pb = Ok (option_map (fun w => (w, get_type_info t pb)) r).
Proof.
  induction pb as [|i pb IH]; intros t m a c v HD E PO NN SB; [exists (Some v); split; [exact E|reflexivity]|].
  inversion PO as [|? ? I PO']; subst.
  destruct (is_container_type_info t) eqn:C; [|exists None; split; [apply not_container_value; [discriminate|exact C]|apply not_container_nested, C]].
  destruct (holds_cv t m a c HD C) as (es & CT & V & _ & GE). pose proof (cv_get_count _ _ _ _ _ CT V) as EC.
  assert (OUT : zlen es <= i -> get_value t (i :: pb) m a = Ok None).
  { intro L. destruct pb as [|j pb]; cbn [get_value]; [|rewrite (child_none t m a _ es i CT V L); reflexivity]. unfold get_containee_datum. rewrite C. cbn [negb]. rewrite EC. cbn [bind]. replace (zlen es <=? i) with true by lia. reflexivity. }
  destruct (datum_typed t m a c HD) as (v' & E' & [(C' & _)|[(S & _)|(T & ->)]]); [congruence| |].
  - destruct (string_datum t m a c v HD S E) as (n & k & bs & N & -> & K & RB). assert (n = zlen es) as -> by congruence.
    pose proof (cv_etype_wf t m a _ es i CT V) as EW. assert (STY : forall pb, 0 <= i < zlen es -> get_type_info t (i :: pb) = get_type_info uint8_type pb).
    { intros q L. rewrite (step_type t m a _ es i q CT V L). destruct CT as [W _]. destruct (string_layout t W S) as (_ & _ & _ & _ & _ & ET & _). rewrite ET. reflexivity. }
    assert (NC : get_containee_from_datum (DStr m (a + offset_of_prefix_bitmap t) k) t i = if k <=? i then Ok None else let* b := rd m (a + offset_of_prefix_bitmap t + i) 1 in Ok (Some (DUint (dec b), Some uint8_type))).
    { unfold get_containee_from_datum, element_count_for_datum. rewrite C. cbn [negb is_datum_NULL]. destruct S as [S|S]; rewrite S; cbn [string_value bind]; destruct (k <=? i); reflexivity. }
    destruct (Z_lt_le_dec i (zlen es)) as [L|L].
    + destruct (string_reading t m a c i HD S (zlen es) EC ltac:(lia)) as (b & Rb & G1 & G2). destruct (Z_lt_le_dec i k) as [Lk|Lk].
      * replace (k <=? i) with false in NC by lia. rewrite Rb in NC. cbn [bind] in NC. rewrite STY by lia. cbn [get_nested_containee]. rewrite NC. cbn [bind]. destruct pb as [|j pb].
        -- exists (Some (DUint (b2z b))). split; [exact G1|]. cbn [get_nested_containee option_map get_type_info dec]. do 4 f_equal. lia.
        -- exists None. split; [apply G2; discriminate|]. apply not_container_nested. reflexivity.
      * replace (k <=? i) with true in NC by lia. cbn [get_nested_containee]. rewrite NC. cbn [bind]. destruct pb as [|j pb]; [|exists None; split; [apply G2; discriminate|reflexivity]].
        exfalso. destruct (SB [] i bs (zlen es) eq_refl) as [Q|Q]; [| exact EC | apply rd_inv in RB; destruct RB as (R1 & R2 & R3 & ->); rewrite zlen_slice in Q by assumption; lia | lia].
        unfold observe. cbn [get_value get_type_info]. rewrite E. cbn [bind obs_of]. rewrite RB. reflexivity.
    + exists None. split; [apply OUT, L|]. cbn [get_nested_containee]. rewrite NC. replace (k <=? i) with true by lia. reflexivity.
  - assert (v = DPtr m a) as -> by congruence. destruct (Z_lt_le_dec i (zlen es)) as [L|L].
    + destruct (znth_lt es i ltac:(lia)) as [e En]. rewrite (step_type t m a _ es i pb CT V) by lia. pose proof (cv_el _ _ _ _ _ V i e ltac:(lia) En) as [_ A].
      pose proof (value_step t m a _ es i e [] CT V ltac:(lia) En) as G1. cbn [get_nested_containee]. destruct e as [|z|b].
      * destruct pb as [|j pb]; [|exfalso; exact (NN [i] j pb eq_refl G1)]. exists (Some DNull). split; [exact G1|]. rewrite (child_ptr t m a _ es i DNull T CT V ltac:(lia) G1). reflexivity.
      * rewrite (child_ptr t m a _ es i (DBits z) T CT V ltac:(lia) G1). cbn [bind]. destruct A as (B & _). destruct pb as [|j pb]; [exists (Some (DBits z)); split; [exact G1|reflexivity]|].
        exists None. split; [rewrite (value_step t m a _ es i _ (j :: pb) CT V ltac:(lia) En); reflexivity|]. apply not_container_nested. apply is_bit_field_spec in B. unfold is_container_type_info. rewrite B. reflexivity.
      * pose proof (child_holds t m a c es i b CT V (proj1 I) En (GE i b (proj1 I) En)) as HB. destruct (datum_typed _ _ _ _ HB) as (w & Ew & _). cbn [get_value] in G1. rewrite Ew in G1.
        rewrite (child_ptr t m a _ es i w T CT V ltac:(lia) G1). cbn [bind]. rewrite (value_step t m a _ es i _ pb CT V ltac:(lia) En).
        assert (VS : forall pc, get_value t (i :: pc) m a = get_value (etype t i) pc m (addr t (zlen es) m a i)) by (intro pc; apply (value_step t m a _ es i _ pc CT V (proj1 I) En)).
        apply (IH _ m _ b w HB Ew PO').
        -- intros pc j pe -> Q. apply (NN (i :: pc) j pe eq_refl). rewrite VS. exact Q.
        -- intros pc j bs n -> O N. apply (SB (i :: pc) j bs n eq_refl).
           ++ unfold observe in *. rewrite VS. rewrite (step_type t m a _ es i pc CT V) by lia. exact O.
           ++ cbn [element_count_of]. rewrite (child_ok t m a _ es i _ CT V ltac:(lia) En). cbn [ptr_of bind]. exact N.
    + exists None. split; [apply OUT, L|]. cbn [get_nested_containee]. unfold get_containee_from_datum, element_count_for_datum. rewrite C. cbn [negb is_datum_NULL].
      destruct T as [T|T]; rewrite T; cbn [tuple_value bind]; rewrite EC; cbn [bind]; replace (zlen es <=? i) with true by lia; reflexivity.
Qed.

Lemma reached d pa m o bs v : holds d m o bs -> path_ok pa -> get_value d pa m o = Ok (Some v) -> v <> DNull ->
  exists t a, element_at d pa m o t a /\ get_type_info d pa = Some t /\ ((exists c, holds t m a c /\ get_datum t m a = Ok (Some v)) \/ type t = BIT_FIELD).
Proof.
  revert d o bs. induction pa as [|i pa IH]; intros d o bs HD PO E NN.
  - exists d, o. split; [constructor|]. split; [reflexivity|]. left. exists bs. auto.
  - inversion PO as [|? ? I PO']; subst.
    destruct (is_container_type_info d) eqn:C; [|rewrite not_container_value in E by (try discriminate; exact C); discriminate].
    destruct (holds_cv d m o bs HD C) as (es & CT & V & _ & GE). destruct (Z_lt_le_dec i (zlen es)) as [L|L].
    + destruct (znth_lt es i ltac:(lia)) as [e En]. rewrite (value_step d m o _ es i e pa CT V (proj1 I) En) in E. rewrite (step_type d m o _ es i pa CT V) by lia.
      pose proof (child_ok d m o _ es i e CT V (proj1 I) En) as CH. pose proof (cv_el _ _ _ _ _ V i e (proj1 I) En) as [_ A]. destruct e as [|z|b]; cbn [ptr_of] in CH; [congruence| |].
      * destruct pa as [|j pa]; [|discriminate]. eexists _, _. split; [econstructor; [exact CH|constructor]|]. split; [reflexivity|]. right. destruct A as (B & _). apply is_bit_field_spec, B.
      * destruct (IH _ _ b (child_holds d m o bs es i b CT V (proj1 I) En (GE i b (proj1 I) En)) PO' E NN) as (t & a & EA & T & K). exists t, a. split; [econstructor; [exact CH|exact EA]|]. auto.
    + destruct pa as [|j pa]; cbn [get_value] in E; [|rewrite (child_none d m o _ es i CT V L) in E; discriminate].
      unfold get_containee_datum in E. rewrite C in E. cbn [negb] in E. rewrite (cv_get_count _ _ _ _ _ CT V) in E. cbn [bind] in E. replace (zlen es <=? i) with true in E by lia. discriminate.
Qed.
(** nested access below the value of an element and access through the tuple
    agree: on success, on the value and on its type.  Not below a NULL, and not
    for the bytes after the end of a string. *)
Theorem C49_nested_access_partial d m o pa pb v t : data_at d m o -> path_ok pa -> path_ok pb -> get_value d pa m o = Ok (Some v) -> get_type_info d pa = Some t ->
  (forall pc i pe, pb = pc ++ i :: pe -> get_value d (pa ++ pc) m o <> Ok (Some DNull)) ->
  (forall pc i bs n, pb = pc ++ [i] -> observe d (pa ++ pc) m o = Ok (Some (OStr bs)) -> element_count_of d (pa ++ pc) m o = Ok n -> i < zlen bs \/ n <= i) ->
  exists r, get_value d (pa ++ pb) m o = Ok r /\ get_nested_containee v (Some t) pb = Ok (option_map (fun w => (w, get_type_info d (pa ++ pb))) r).
Proof.
  intros D PA PB E T NN SB. destruct (data_holds _ _ _ D) as [bs HD]. destruct pb as [|j pb].
  { rewrite app_nil_r. exists (Some v). split; [exact E|]. cbn [get_nested_containee option_map]. rewrite T. reflexivity. }
  assert (NV : v <> DNull) by (intros ->; apply (NN [] j pb eq_refl); rewrite app_nil_r; exact E).
  destruct (reached d pa m o bs v HD PA E NV) as (t' & a & EA & T' & K). assert (t' = t) as -> by congruence. clear T'.
  rewrite (type_app pa d (j :: pb) t T). destruct (value_app pa d m o t a (j :: pb) EA ltac:(discriminate)) as [-> _]. destruct K as [(c & HC & G)|B].
  - assert (VA : forall pc, get_value d (pa ++ pc) m o = get_value t pc m a) by (intros [|k pc]; [rewrite app_nil_r, E; symmetry; exact G|apply (value_app pa d m o t a (k :: pc) EA); discriminate]).
    apply (nested_agree _ t m a c v HC G PB).
    + intros pc i pe Q X. apply (NN pc i pe Q). rewrite VA. exact X.
    + intros pc i bs' n Q O N. apply (SB pc i bs' n Q).
      * unfold observe in *. rewrite VA, (type_app pa d pc t T). exact O.
      * destruct pc as [|k pc]; [rewrite app_nil_r, (count_at pa d m o t a EA); exact N|]. destruct (value_app pa d m o t a (k :: pc) EA ltac:(discriminate)) as [_ ->]. exact N.
  - exists None. assert (C : is_container_type_info t = false) by (unfold is_container_type_info; rewrite B; reflexivity). split; [apply not_container_value; [discriminate|exact C]|apply not_container_nested, C].
Qed.
Print Assumptions C49_nested_access_partial.
(** access along a path is access along its parts *)
Theorem C49_steps v t pa pb : get_nested_containee v t (pa ++ pb) =
  let* r := get_nested_containee v t pa in match r with None => Ok None | Some (w, u) => get_nested_containee w u pb end.
Proof.
  revert v t. induction pa as [|i pa IH]; intros v t; [reflexivity|]. cbn [app get_nested_containee]. destruct t as [t|]; [|reflexivity].
  destruct (get_containee_from_datum v t i) as [[[w u]|]|]; cbn [bind]; [apply IH|reflexivity|reflexivity].
Qed.
Print Assumptions C49_steps.
(** everything below a NULL is NULL when it is read through the tuple; through
    the datum it is so for one step below a container, below anything else
    there is nothing, and two steps below a container the outcome is undefined *)
Theorem C49_below_null d m o pa pb t : data_at d m o -> path_ok (pa ++ pb) -> pb <> [] -> get_value d pa m o = Ok (Some DNull) -> get_type_info d pa = Some t ->
  get_value d (pa ++ pb) m o = Ok (Some DNull)
  /\ get_nested_containee DNull (Some t) pb = if is_container_type_info t then match pb with [i] => Ok (Some (DNull, None)) | _ => UB end else Ok None.
Proof.
  intros D PO NE E T. split.
  2:{ destruct pb as [|i [|j pb]]; [congruence| |]; cbn [get_nested_containee]; unfold get_containee_from_datum; destruct (is_container_type_info t); reflexivity. }
  destruct (data_holds _ _ _ D) as [bs HD]. apply Forall_app in PO. destruct PO as [PO _]. clear D NE. revert d o bs HD E T.
  induction pa as [|j pa IH]; intros d o bs HD E T.
  - cbn [get_value] in E. destruct (datum_typed _ _ _ _ HD) as (w & W & K). assert (w = DNull) as -> by congruence. destruct K as [(_ & _ & N & _)|[(_ & ? & ? & ? & N & _)|(_ & N)]]; congruence.
  - inversion PO as [|? ? I PO']; subst. destruct (is_container_type_info d) eqn:Cd; [|rewrite not_container_value in E by (try discriminate; exact Cd); discriminate].
    destruct (holds_cv d m o bs HD Cd) as (es & CT & V & _ & GE). destruct (Z_lt_le_dec j (zlen es)) as [L|L].
    + destruct (znth_lt es j ltac:(lia)) as [e En]. cbn [app]. rewrite (value_step d m o _ es j e (pa ++ pb) CT V (proj1 I) En). rewrite (value_step d m o _ es j e pa CT V (proj1 I) En) in E. rewrite (step_type d m o _ es j pa CT V) in T by lia.
      destruct e as [|z|b]; [reflexivity|destruct pa; discriminate|]. apply (IH PO' _ _ b (child_holds d m o bs es j b CT V (proj1 I) En (GE j b (proj1 I) En)) E T).
    + destruct pa as [|k pa]; cbn [get_value] in E; [|rewrite (child_none d m o _ es j CT V L) in E; discriminate].
      unfold get_containee_datum in E. rewrite Cd in E. cbn [negb] in E. rewrite (cv_get_count _ _ _ _ _ CT V) in E. cbn [bind] in E. replace (zlen es <=? j) with true in E by lia. discriminate.
Qed.
Print Assumptions C49_below_null.
(** the bytes of a string behind its end: the tuple has them, the datum has not *)
Theorem C49_behind_string d m o pa v t i bs n : data_at d m o -> path_ok (pa ++ [i]) -> get_value d pa m o = Ok (Some v) -> get_type_info d pa = Some t ->
  observe d pa m o = Ok (Some (OStr bs)) -> element_count_of d pa m o = Ok n -> zlen bs <= i < n ->
  (exists b, get_value d (pa ++ [i]) m o = Ok (Some (DUint b)) /\ 0 <= b < 256) /\ get_nested_containee v (Some t) [i] = Ok None.
Proof.
  intros D PO E T O N L. destruct (data_holds _ _ _ D) as [b0 HD]. apply Forall_app in PO. destruct PO as [PO PI]. inversion PI as [|? ? I _]; subst.
  assert (NV : v <> DNull). { intros ->. unfold observe in O. rewrite E, T in O. cbn [bind obs_of] in O. congruence. }
  destruct (reached d pa m o b0 v HD PO E NV) as (t' & a & EA & T' & K). assert (t' = t) as -> by congruence. clear T'.
  destruct (value_app pa d m o t a [i] EA ltac:(discriminate)) as [-> _]. rewrite (count_at pa d m o t a EA) in N. cbn [element_count_of] in N.
  destruct K as [(c & HC & G)|B].
  2:{ unfold get_element_count, is_container_type_info in N. rewrite B in N. cbn in N. injection N as <-. pose proof (zlen_nonneg bs). lia. }
  destruct (datum_typed t m a c HC) as (v' & E' & [(C' & IV & _ & (r & OB))|[(S & _)|(Ty & ->)]]).
  - unfold get_element_count in N. rewrite C' in N. cbn [negb] in N. injection N as <-. pose proof (zlen_nonneg bs). lia.
  - destruct (string_datum t m a c v HC S G) as (n' & k & bs' & N' & -> & Kr & RB). assert (n' = n) as -> by congruence.
    unfold observe in O. rewrite E, T in O. cbn [bind obs_of] in O. rewrite RB in O. cbn [bind] in O. injection O as ->.
    apply rd_inv in RB. destruct RB as (R1 & R2 & R3 & ->). rewrite zlen_slice in L by assumption.
    destruct (string_reading t m a c i HC S n N ltac:(lia)) as (b & Rb & G1 & _). split; [exists (b2z b); split; [exact G1|apply b2z_range]|].
    cbn [get_nested_containee]. unfold get_containee_from_datum, element_count_for_datum. rewrite (string_container t S). cbn [negb is_datum_NULL].
    destruct S as [S|S]; rewrite S; cbn [string_value bind]; replace (k <=? i) with true by lia; reflexivity.
  - assert (v = DPtr m a) as -> by congruence. unfold observe in O. rewrite E, T in O. cbn [bind obs_of] in O. destruct (get_size t m a) as [s|]; [|discriminate]. cbn [bind] in O. destruct (rd m a s); discriminate.
Qed.
Print Assumptions C49_behind_string.
(** how many elements a value has: as many as its element has in the tuple, a
    string as many as it has bytes, a NULL and a number none *)
Lemma null_count d m o pa bs : holds d m o bs -> path_ok pa -> get_value d pa m o = Ok (Some DNull) -> element_count_of d pa m o = Ok 0.
Proof.
  revert d o bs. induction pa as [|j pa IH]; intros d o bs HD PO E.
  - cbn [get_value] in E. destruct (datum_typed _ _ _ _ HD) as (w & W & K). assert (w = DNull) as -> by congruence. destruct K as [(_ & _ & N & _)|[(_ & ? & ? & ? & N & _)|(_ & N)]]; congruence.
  - inversion PO as [|? ? I PO']; subst. destruct (is_container_type_info d) eqn:Cd; [|rewrite not_container_value in E by (try discriminate; exact Cd); discriminate].
    destruct (holds_cv d m o bs HD Cd) as (es & CT & V & _ & GE). destruct (Z_lt_le_dec j (zlen es)) as [L|L].
    + destruct (znth_lt es j ltac:(lia)) as [e En]. rewrite (value_step d m o _ es j e pa CT V (proj1 I) En) in E.
      cbn [element_count_of]. rewrite (child_ok d m o _ es j e CT V (proj1 I) En). destruct e as [|z|b]; cbn [ptr_of bind]; [reflexivity|destruct pa; discriminate|].
      apply (IH _ _ b (child_holds d m o bs es j b CT V (proj1 I) En (GE j b (proj1 I) En)) PO' E).
    + cbn [element_count_of]. rewrite (child_none d m o _ es j CT V L). reflexivity.
Qed.
Theorem C49_count d m o pa v t : data_at d m o -> path_ok pa -> get_value d pa m o = Ok (Some v) -> get_type_info d pa = Some t ->
  exists n c, element_count_for_datum v t = Ok n /\ element_count_of d pa m o = Ok c
    /\ match observe d pa m o with Ok (Some (OStr bs)) => n = zlen bs /\ n <= c | _ => n = c end.
Proof.
  intros D PO E T. destruct (data_holds _ _ _ D) as [b0 HD]. unfold observe. rewrite E, T. cbn [bind].
  assert (NV : v = DNull \/ v <> DNull) by (destruct v; (left; reflexivity) || (right; discriminate)). destruct NV as [->|NV].
  { exists 0, 0. unfold element_count_for_datum. cbn [is_datum_NULL obs_of]. split; [destruct (is_container_type_info t); reflexivity|]. split; [apply (null_count d m o pa b0 HD PO E)|reflexivity]. }
  destruct (reached d pa m o b0 v HD PO E NV) as (t' & a & EA & T' & K). assert (t' = t) as -> by congruence. clear T'.
  rewrite (count_at pa d m o t a EA). cbn [element_count_of]. destruct K as [(c & HC & G)|B].
  2:{ assert (C : is_container_type_info t = false) by (unfold is_container_type_info; rewrite B; reflexivity). exists 0, 0. unfold element_count_for_datum, get_element_count. rewrite C. cbn [negb]. split; [reflexivity|]. split; [reflexivity|].
      destruct (CopyProps.value_place pa d m o b0 t v PO HD T E) as [->|[(z & -> & _)|(a' & c & HC & G & _)]]; [congruence|reflexivity|].
      destruct (datum_typed t m a' c HC) as (w & W & [(_ & IV & _)|[([S|S] & _)|([S|S] & _)]]); try congruence. assert (w = v) as -> by congruence. destruct v; try contradiction; reflexivity. }
  destruct (datum_typed t m a c HC) as (v' & E' & [(C' & IV & _)|[(S & _)|(Ty & ->)]]).
  - assert (v' = v) as -> by congruence. exists 0, 0. unfold element_count_for_datum, get_element_count. rewrite C'. cbn [negb]. split; [reflexivity|]. split; [reflexivity|]. destruct v; try contradiction; reflexivity.
  - destruct (string_datum t m a c v HC S G) as (n & k & bs & N & -> & Kr & RB). exists k, n. unfold element_count_for_datum. rewrite (string_container t S). cbn [negb is_datum_NULL].
    split; [destruct S as [S|S]; rewrite S; reflexivity|]. split; [exact N|]. cbn [obs_of]. rewrite RB. cbn [bind]. apply rd_inv in RB. destruct RB as (R1 & R2 & R3 & ->). rewrite zlen_slice by assumption. lia.
  - assert (v = DPtr m a) as -> by congruence. assert (C : is_container_type_info t = true) by (unfold is_container_type_info; destruct Ty as [Ty|Ty]; rewrite Ty; reflexivity).
    destruct (holds_cv t m a c HC C) as (es & CT & V & _ & _). pose proof (cv_get_count _ _ _ _ _ CT V) as EC. exists (zlen es), (zlen es). unfold element_count_for_datum. rewrite C. cbn [negb is_datum_NULL].
    split; [destruct Ty as [Ty|Ty]; rewrite Ty; exact EC|]. split; [exact EC|]. cbn [obs_of]. destruct (get_size t m a) as [s|]; [|reflexivity]. cbn [bind]. destruct (rd m a s); reflexivity.
Qed.
Print Assumptions C49_count.
(** as stated the property is false: two steps below a NULL element the type
    NULL is dereferenced; below a NULL numeral there is nothing instead of a
    NULL; the bytes of a string after a zero byte are in the tuple only *)
Theorem C49_nested_access_refuted : exists d m v, data_at d m 0 /\ get_value d [] m 0 = Ok (Some v)
  /\ get_value d [3; 0; 0] m 0 = Ok (Some DNull) /\ get_nested_containee v (Some d) [3; 0; 0] = UB
  /\ get_value d [2; 0] m 0 = Ok (Some DNull) /\ get_nested_containee v (Some d) [2; 0] = Ok None.
Proof. exists exd, e0, (DPtr e0 0). split; [apply data_e0|]. repeat split; vm_compute; reflexivity. Qed.
Print Assumptions C49_nested_access_refuted.
Definition e2z : mem := get e2 (expand_element exd [1] e2 0 2 1 80).
Theorem C49_string_refuted : exists d m v, data_at d m 0 /\ get_value d [] m 0 = Ok (Some v)
  /\ get_value d [1; 3] m 0 = Ok (Some (DUint 108)) /\ get_nested_containee v (Some d) [1; 3] = Ok None.
Proof.
  exists exd, e2z, (DPtr e2z 0). split; [|repeat split; vm_compute; reflexivity].
  eapply (da_expand exd e2 0 [1] 2 1 80); [apply data_e2|pathy|roomy|lia| |vm_compute; reflexivity].
  intros t a s n EA E1 E2. apply element_at_one in EA. vm_compute in EA. injection EA as <- <-. vm_compute in E1. vm_compute in E2. injection E1 as <-. injection E2 as <-.
  split; [lia|]. split; [vm_compute; reflexivity|]. intro B. vm_compute in B. discriminate.
Qed.
Print Assumptions C49_string_refuted.

(** ** example: the second character of the text in the pair in the array *)
Example ex_nested : exists v t r, get_value exd [3] e7 0 = Ok (Some v) /\ get_type_info exd [3] = Some t /\ get_value exd ([3] ++ [1; 1; 1]) e7 0 = Ok r
  /\ get_nested_containee v (Some t) [1; 1; 1] = Ok (option_map (fun w => (w, get_type_info exd ([3] ++ [1; 1; 1]))) r) /\ r = Some (DUint 98).
Proof.
  assert (E : exists v, get_value exd [3] e7 0 = Ok (Some v)) by (eexists; vm_compute; reflexivity). destruct E as [v E].
  assert (T : exists t, get_type_info exd [3] = Some t) by (eexists; vm_compute; reflexivity). destruct T as [t T]. exists v, t.
  assert (A : exists r, get_value exd ([3] ++ [1; 1; 1]) e7 0 = Ok r /\ get_nested_containee v (Some t) [1; 1; 1] = Ok (option_map (fun w => (w, get_type_info exd ([3] ++ [1; 1; 1]))) r)).
  { apply (C49_nested_access_partial exd e7 0 [3] [1; 1; 1] v t data_e7); [pathy|pathy|exact E|exact T| |].
    - intros [|a [|b [|c [|]]]] i pe Q; try discriminate Q; [|injection Q as <- Q|injection Q as <- <- Q]; vm_compute; discriminate.
    - intros [|a [|b [|c [|]]]] i bs n Q; try discriminate Q. injection Q as <- <- <-.
      intros O N. vm_compute in O, N. injection O as <-. left. vm_compute. reflexivity. }
  destruct A as (r & A & B). exists r. split; [exact E|]. split; [exact T|]. split; [exact A|]. split; [exact B|]. clear - A. vm_compute in A. injection A as <-. reflexivity.
Qed.
(** the text "he" in six bytes, the array of e7, and a NULL *)
Example ex_count : exists t, get_type_info exd [1] = Some t /\ element_count_for_datum (DStr e2z 13 2) t = Ok 2 /\ element_count_of exd [1] e2z 0 = Ok 6
  /\ (exists u v, get_type_info exd [3] = Some u /\ get_value exd [3] e7 0 = Ok (Some v) /\ element_count_for_datum v u = Ok 2 /\ element_count_for_datum DNull u = Ok 0).
Proof. eexists. split; [reflexivity|]. split; [reflexivity|]. split; [vm_compute; reflexivity|]. eexists _, _. split; [reflexivity|]. split; [vm_compute; reflexivity|]. split; vm_compute; reflexivity. Qed.
Example ex_below_null : get_value exd ([3] ++ [4]) e0 0 = Ok (Some DNull).
Proof. refine (proj1 (C49_below_null exd e0 0 [3] [4] (match get_type_info exd [3] with Some t => t | None => uint8_type end) data_e0 _ _ _ _)); [pathy|discriminate|vm_compute; reflexivity|reflexivity]. Qed.
Example ex_behind_string : exists t, get_value exd [1] e2z 0 = Ok (Some (DStr e2z 13 2)) /\ get_type_info exd [1] = Some t
  /\ observe exd [1] e2z 0 = Ok (Some (OStr (list_byte_of_string "he"))) /\ element_count_of exd [1] e2z 0 = Ok 6 /\ path_ok ([1] ++ [3]).
Proof. eexists. split; [vm_compute; reflexivity|]. split; [reflexivity|]. split; [vm_compute; reflexivity|]. split; [vm_compute; reflexivity|]. pathy. Qed.
