(** * Properties of the functions on the elements of one container: C69 *)
From Verif Require Import ElementType PosCacheSpec OpFacts SizeProps.
From Coq Require Import ZifyBool ZifyNat ZifyN Zify.
Ltac Zify.zify_post_hook ::= idtac.

(** ** the number of elements that a position was computed for *)
Lemma kept_good d m o i c s es : container d -> cv d m o s es -> 0 <= i -> kept d m o i c -> good_cache d (zlen es) i c.
Proof.
  intros CT V I [->|(m0 & o0 & D0 & GC & E)]; [exact Logic.I|].
  destruct (data_holds d m0 o0 D0) as [bs0 H0]. destruct (holds_cv d m0 o0 bs0 H0 (proj2 CT)) as (es0 & _ & V0 & _ & _).
  rewrite (cv_get_count d m0 o0 _ es0 CT V0), (cv_get_count d m o s es CT V) in GC. injection GC as GC.
  rewrite (position_one d m0 o0 _ es0 i None CT V0 I Logic.I) in E. injection E as EL EC. unfold next_cache in EC.
  destruct (zlen es0 <=? i) eqn:L; [discriminate|]. subst c. rewrite <- GC. cbn. split; [lia|reflexivity].
Qed.
Lemma kept_leaf d m o i c : is_container_type_info d = false -> kept d m o i c -> c = None.
Proof. intros C [->|(m0 & o0 & _ & _ & E)]; [reflexivity|]. unfold position_of in E. rewrite on_leaf in E by exact C. discriminate. Qed.

(** ** C69 *)
(** a position that was computed earlier may be passed: every function returns,
    writes and leaves the same as with an INVALID position *)
Theorem C69_kept d m o i c f : data_at d m o -> 0 <= i < 4294967296 -> kept d m o i c ->
  call d o i f m c = call d o i f m None.
Proof.
  intros D I K. destruct (is_container_type_info d) eqn:C; [|rewrite (kept_leaf d m o i c C K); reflexivity].
  destruct (data_holds d m o D) as [bs H]. destruct (holds_cv d m o bs H C) as (es & CT & V & _ & _).
  pose proof (kept_good d m o i c _ es CT V (proj1 I) K) as G.
  assert (E : forall A (r : A) k, on_element d m o i c r k = on_element d m o i None r k).
  { intros A r k. rewrite (on_element_ok A d m o _ es i c r k CT V (proj1 I) G), (on_element_ok A d m o _ es i None r k CT V (proj1 I) Logic.I).
    destruct (zlen es <=? i) eqn:L; [|reflexivity]. destruct c as [p|]; [cbn in G; lia|reflexivity]. }
  destruct f; cbn [call];
    unfold position_of, is_element_null, pointer_to_element, size_of_element, read_element, can_set_element_of, set_element_of, set_element_null, move_element_to_end;
    rewrite E; reflexivity.
Qed.

Lemma type_of_element d m o bs i : holds d m o bs -> 0 <= i < 4294967296 -> get_type_info d [i] = None ->
  is_container_type_info d = false \/ exists es, container d /\ cv d m o (zlen bs) es /\ zlen es <= i.
Proof.
  intros H I TI. destruct (is_container_type_info d) eqn:C; [|auto]. right. destruct (holds_cv d m o bs H C) as (es & CT & V & _ & _).
  exists es. split; [exact CT|]. split; [exact V|]. destruct (Z_lt_le_dec i (zlen es)) as [L|L]; [|exact L].
  rewrite (step_type d m o _ es i [] CT V ltac:(lia)) in TI. discriminate.
Qed.
(** the type of an element: there is one exactly if the element exists, it is
    that of the path of one position and that of the position found *)
Theorem C69_type d m o i : data_at d m o -> 0 <= i < 4294967296 ->
  exists r, element_type_of d m o i = Ok r
  /\ (r = None <-> get_value d [i] m o = Ok None)
  /\ forall t, r = Some t -> get_type_info d [i] = Some t /\ exists p, position_of d m o i None = Ok (true, Some p) /\ pi_type p = t.
Proof.
  intros D I. destruct (data_holds d m o D) as [bs H]. unfold element_type_of. destruct (is_container_type_info d) eqn:C; cbn [negb].
  2:{ exists None. split; [reflexivity|]. split; [|discriminate]. rewrite not_container_value by (try discriminate; exact C). split; reflexivity. }
  destruct (holds_cv d m o bs H C) as (es & CT & V & _ & GE). rewrite (cv_get_count d m o _ es CT V). cbn [bind].
  destruct (zlen es <=? i) eqn:L.
  { exists None. split; [reflexivity|]. split; [|discriminate]. cbn [get_value]. unfold get_containee_datum. rewrite C. cbn [negb]. rewrite (cv_get_count d m o _ es CT V). cbn [bind]. rewrite L. split; reflexivity. }
  exists (Some (etype d i)). destruct (znth_lt es i ltac:(lia)) as [e En].
  pose proof (step_type d m o _ es i [] CT V ltac:(lia)) as TI. cbn [get_type_info] in TI.
  split.
  { unfold containee_type_without_data in TI. rewrite C in TI. cbn [negb] in TI. destruct (negb (is_variable_element_count d) && (element_count d <=? i)); [discriminate|].
    destruct (type d); try (injection TI as <-; reflexivity); try discriminate. destruct (nth_error (containees d) (Z.to_nat i)) as [[p c]|]; [|discriminate]. cbn in TI. injection TI as <-. reflexivity. }
  split; [split; [discriminate|]|].
  { rewrite (value_step d m o _ es i e [] CT V (proj1 I) En). destruct e as [|z|b]; try discriminate. pose proof (observe_self _ _ _ _ (child_holds d m o bs es i b CT V (proj1 I) En (GE i b (proj1 I) En))) as O. unfold observe in O. cbn [get_value] in *. intro Q. rewrite Q in O. discriminate. }
  intros t E. injection E as <-. split; [exact TI|].
  rewrite (position_one d m o _ es i None CT V (proj1 I) Logic.I), L. unfold next_cache. rewrite L. eexists. split; [reflexivity|]. exact (proj1 (pos_spec d (zlen es) i (proj1 CT) (proj2 CT) (cv_n _ _ _ _ _ V) ltac:(lia))).
Qed.
Print Assumptions C69_type.
(** reading and setting: the same as the functions on tuples do for a path of
    one position; setting to NULL is setting to a NULL value *)
Theorem C69_read_and_set d m o i : data_at d m o -> 0 <= i < 4294967296 ->
  result (read_element d m o i None) = get_value d [i] m o
  /\ (forall v inc, result (can_set_element_of d m o i inc v None) = can_set_element d [i] m o v inc)
  /\ (forall v inc, result (set_element_of d m o i inc v None) = set_element d [i] m o v inc)
  /\ (forall inc, result (set_element_null d m o i None) = set_element d [i] m o DNull inc).
Proof.
  intros D I. destruct (data_holds d m o D) as [bs H].
  assert (SC : forall v inc, set_element d [i] m o v inc = set_containee d m o i inc v).
  { intros v inc. unfold set_element. destruct (get_type_info d [i]) as [t|] eqn:TI; [reflexivity|].
    unfold set_containee. destruct (type_of_element d m o bs i H I TI) as [C|(es & CT & V & L)]; [rewrite C; reflexivity|].
    rewrite (proj2 CT), (cv_get_count d m o _ es CT V). cbn [negb bind]. replace (zlen es <=? i) with true by lia. reflexivity. }
  assert (N0 : forall inc, set_containee d m o i inc DNull = set_containee d m o i 0 DNull) by reflexivity.
  destruct (is_container_type_info d) eqn:C.
  - destruct (holds_cv d m o bs H C) as (es & CT & V & _ & _).
    split; [|split; [|split]].
    + rewrite (read_one d m o _ es i None CT V (proj1 I) Logic.I). unfold result. destruct (get_value d [i] m o); reflexivity.
    + intros v inc. rewrite (can_set_one d m o _ es i None CT V (proj1 I) Logic.I). unfold result. destruct (can_set_element d [i] m o v inc); reflexivity.
    + intros v inc. rewrite (set_one d m o _ es i None CT V (proj1 I) Logic.I), SC. unfold result. destruct (set_containee d m o i inc v); reflexivity.
    + intros inc. rewrite (set_null_one d m o _ es i None CT V (proj1 I) Logic.I), SC, (N0 inc). unfold result. destruct (set_containee d m o i 0 DNull); reflexivity.
  - unfold read_element, can_set_element_of, set_element_of, set_element_null. repeat split; intros; rewrite ?on_leaf by exact C; rewrite ?SC;
      cbn [get_value can_set_element]; unfold get_containee_datum, can_set_containee, set_containee; rewrite ?C; reflexivity.
Qed.

Lemma no_null_bytes d m o bs es i x : container d -> holds d m o bs -> cv d m o (zlen bs) es ->
  (forall j y, 0 <= j -> nth_error es (Z.to_nat j) = Some (CBytes y) -> good (etype d j) y) -> 0 <= i -> nth_error es (Z.to_nat i) = Some (CBytes x) ->
  get_value d [i] m o <> Ok None /\ get_value d [i] m o <> Ok (Some DNull).
Proof.
  intros CT H V GE I En. pose proof (child_holds d m o bs es i x CT V I En (GE i x I En)) as HC. pose proof (observe_self _ _ _ _ HC) as OS.
  rewrite (value_step d m o _ es i _ [] CT V I En). unfold observe in OS.
  destruct (cv_chunk d m o _ es i x CT V I En) as (_ & _ & _ & B & _).
  split; intro E; rewrite E in OS; cbn [bind get_type_info obs_of] in OS; [discriminate|].
  injection OS as OS. unfold obs_self in OS. destruct (type (etype d i)) eqn:T; try discriminate.
  - unfold is_bit_field in B. rewrite T in B. discriminate.
  - destruct (size (etype d i) =? 4); discriminate.
Qed.
(** NULL tests, pointers and sizes: an element is NULL when there is no such
    element or a NULL is read there; otherwise the pointer is where the element
    is, inside the container, and reading at the pointer gives what is read at
    the index *)
Theorem C69_null_pointer_size d m o i : data_at d m o -> 0 <= i < 4294967296 ->
  exists b p s, result (is_element_null d m o i None) = Ok b /\ result (pointer_to_element d m o i None) = Ok p
  /\ result (size_of_element d m o i None) = Ok s
  /\ (b = true <-> get_value d [i] m o = Ok None \/ get_value d [i] m o = Ok (Some DNull))
  /\ (b = true <-> p = None)
  /\ (get_value d [i] m o = Ok None -> s = 0)
  /\ (forall t, get_value d [i] m o <> Ok None -> get_type_info d [i] = Some t ->
        (type t = BIT_FIELD -> s = 0)
        /\ (type t <> BIT_FIELD -> p = None -> s = if t_variable t then 0 else t_size t)
        /\ forall a, p = Some a -> exists whole, get_size d m o = Ok whole /\ o <= a /\ a + s <= o + whole
             /\ (type t <> BIT_FIELD -> get_size t m a = Ok s /\ get_value t [] m a = get_value d [i] m o)).
Proof.
  intros D I. destruct (data_holds d m o D) as [bs H]. destruct (is_container_type_info d) eqn:C.
  2: { exists true, None, 0. unfold is_element_null, pointer_to_element, size_of_element. rewrite !on_leaf by exact C.
       cbn [get_value]. unfold get_containee_datum. rewrite C. cbn [negb]. unfold result. cbn [bind].
       repeat (split; [reflexivity || tauto || auto|]). congruence. }
  destruct (holds_cv d m o bs H C) as (es & CT & V & _ & GE). destruct I as [I I'].
  destruct (zlen es <=? i) eqn:L.
  { exists true, None, 0. unfold is_element_null, pointer_to_element, size_of_element. rewrite !(on_element_ok _ d m o _ es i None _ _ CT V I Logic.I), L.
    assert (E : get_value d [i] m o = Ok None).
    { cbn [get_value]. unfold get_containee_datum. rewrite C, (cv_get_count d m o _ es CT V). cbn [negb bind]. rewrite L. reflexivity. }
    rewrite E. unfold result. cbn [bind]. repeat (split; [reflexivity || tauto || auto|]). congruence. }
  destruct (znth_lt es i ltac:(lia)) as [e En].
  exists (is_cnull e), (ptr_of d (zlen es) m o i e), (size_one e (etype d i)).
  rewrite (is_null_one d m o _ es i None CT V I Logic.I e En), (pointer_one d m o _ es i None CT V I Logic.I e En), (size_of_one d m o _ es i None CT V I Logic.I e En).
  unfold result. cbn [bind]. split; [reflexivity|]. split; [reflexivity|]. split; [reflexivity|].
  assert (VS : get_value d [i] m o <> Ok None /\ (is_cnull e = true <-> get_value d [i] m o = Ok (Some DNull))).
  { destruct e as [|z|x].
    - rewrite (value_step d m o _ es i _ [] CT V I En). split; [discriminate|]. cbn. tauto.
    - rewrite (value_step d m o _ es i _ [] CT V I En). split; [discriminate|]. cbn. split; discriminate.
    - destruct (no_null_bytes d m o bs es i x CT H V GE I En) as [A B]. split; [exact A|]. cbn [is_cnull]. split; [discriminate|intro Q; exfalso; apply B; exact Q]. }
  destruct VS as [VN VD].
  split; [rewrite VD; split; [auto|intros [A|A]; [congruence|exact A]]|].
  split; [destruct e; cbn; split; congruence|]. split; [congruence|].
  intros t _ TI. rewrite (step_type d m o _ es i [] CT V ltac:(lia)) in TI. injection TI as <-.
  assert (BF : is_bit_field (etype d i) = true <-> type (etype d i) = BIT_FIELD) by apply is_bit_field_spec.
  unfold size_one. split; [intro T; rewrite (proj2 BF T); reflexivity|].
  assert (NB : type (etype d i) <> BIT_FIELD -> is_bit_field (etype d i) = false) by (intro X; destruct (is_bit_field (etype d i)); [tauto|reflexivity]).
  pose proof (cv_etype_wf d m o _ es i CT V ltac:(lia)) as Wt. destruct (wf_spec _ Wt) as [TV TS].
  split.
  { intros T P. rewrite (NB T). destruct e; cbn [ptr_of] in P; try discriminate. rewrite TV. destruct (is_variable_sized_ (etype d i)) eqn:Vt; cbn [negb]; [reflexivity|].
    congruence. }
  intros a P. exists (zlen bs). split; [apply (holds_size _ _ _ _ H)|].
  pose proof (cv_bounds d m o _ es CT V) as B. destruct e as [|z|x]; cbn [ptr_of] in P; try discriminate; injection P as <-.
  - pose proof (cv_el _ _ _ _ _ V i _ I En) as (_ & A & _). rewrite A. split; [lia|]. split; [lia|]. intro X. apply BF in A. congruence.
  - destruct (cv_chunk d m o _ es i x CT V I En) as (A1 & A2 & A3 & A4 & A5 & A6 & A7). rewrite A4.
    assert (S : (if negb (is_variable_sized_ (etype d i)) then size (etype d i) else zlen x) = zlen x).
    { destruct (is_variable_sized_ (etype d i)) eqn:Vt; cbn [negb]; [reflexivity|]. pose proof (cv_el _ _ _ _ _ V i _ I En) as (_ & _ & _ & A). destruct (A Vt); lia. }
    rewrite S. split; [lia|]. split; [lia|]. intros _. split; [apply (element_get_size d m o (zlen bs) es i CT V I _ En x eq_refl)|].
    rewrite (value_step d m o _ es i _ [] CT V I En). reflexivity.
Qed.

(** moving an element to the end: nothing that is read changes, only bytes of
    the container are written, and an element of variable size that is not NULL
    ends where the container ends; the function returns whether it had to move *)
Theorem C69_move d m o i : data_at d m o -> 0 <= i < 4294967296 ->
  exists b m', result (move_element_to_end d m o i None) = Ok (b, m') /\ data_at d m' o
  /\ (forall pa, path_ok pa -> same_reading (observe d pa m o) (observe d pa m' o) /\ (pa <> [] -> observe d pa m o = observe d pa m' o)
        /\ element_count_of d pa m o = element_count_of d pa m' o)
  /\ (exists s, get_size d m o = Ok s /\ get_size d m' o = Ok s /\ zlen m' = zlen m /\ forall x n, 0 <= x -> 0 <= n -> x + n <= zlen m -> x + n <= o \/ o + s <= x -> slice m' x n = slice m x n)
  /\ (b = false -> m' = m)
  /\ (forall t a s whole, get_type_info d [i] = Some t -> t_variable t = true -> get_size d m o = Ok whole ->
        result (pointer_to_element d m' o i None) = Ok (Some a) -> result (size_of_element d m' o i None) = Ok s -> a + s = o + whole)
  /\ (b = true <-> exists t a s whole, get_type_info d [i] = Some t /\ t_variable t = true /\ get_size d m o = Ok whole
        /\ result (pointer_to_element d m o i None) = Ok (Some a) /\ result (size_of_element d m o i None) = Ok s /\ a + s <> o + whole).
Proof.
  intros D [I I']. destruct (data_holds d m o D) as [bs H]. destruct (is_container_type_info d) eqn:C.
  2: { exists false, m. unfold move_element_to_end, pointer_to_element, size_of_element. rewrite !on_leaf by exact C. unfold result. cbn [bind].
       split; [reflexivity|]. split; [exact D|]. split; [intros; split; [left; reflexivity|auto]|].
       split; [exists (zlen bs); rewrite (holds_size _ _ _ _ H); auto|]. split; [reflexivity|]. split; [discriminate|].
       split; [discriminate|]. intros (t & a & s & w & _ & _ & _ & P & _). discriminate. }
  destruct (holds_cv d m o bs H C) as (es & CT & V & Vb & GE).
  destruct (move_one d m o bs es i None H CT V GE I Logic.I) as (b & m' & bs' & E & H' & LB & V' & K & NO & YES).
  assert (D' : data_at d m' o) by (eapply da_move; [exact D| |exact E]; lia).
  exists b, m'. rewrite E. unfold result at 1. cbn [bind]. split; [reflexivity|]. split; [exact D'|].
  assert (RD : forall j pb, 0 <= j -> path_ok pb -> observe d (j :: pb) m o = observe d (j :: pb) m' o /\ element_count_of d (j :: pb) m o = element_count_of d (j :: pb) m' o).
  { intros j pb J PB. destruct (nth_error es (Z.to_nat j)) as [e|] eqn:En.
    - rewrite (observe_step0 d m o _ es j e pb CT V J En), (observe_step0 d m' o _ es j e pb CT V' J En), (count_step0 d m o _ es j e pb CT V J En), (count_step0 d m' o _ es j e pb CT V' J En).
      destruct e as [|z|x]; auto. pose proof (child_holds d m o bs es j x CT V J En (GE j x J En)) as C1.
      rewrite <- LB in V'. pose proof (child_holds d m' o bs' es j x CT V' J En (GE j x J En)) as C2.
      rewrite (observe_local pb _ _ _ _ PB C1), (observe_local pb _ _ _ _ PB C2), (count_local pb _ _ _ _ PB C1), (count_local pb _ _ _ _ PB C2). auto.
    - apply nth_error_None in En. assert (zlen es <= j) by (unfold zlen; lia).
      rewrite (observe_out d m o _ es j pb CT V), (observe_out d m' o _ es j pb CT V'), (count_out d m o _ es j pb CT V), (count_out d m' o _ es j pb CT V') by lia. auto. }
  split.
  { intros pa PA. destruct pa as [|j pb].
    - split; [|split; [congruence|]].
      + rewrite (observe_self _ _ _ _ H), (observe_self _ _ _ _ H'). unfold same_reading.
        assert (X : (type d = TUPLE \/ type d = ARRAY) \/ string_type d).
        { unfold is_container_type_info in C. unfold string_type. destruct (type d); try discriminate; auto. }
        destruct X as [X|X].
        * right. exists bs, bs'. unfold obs_self. destruct X as [X|X]; rewrite X; auto.
        * left. do 2 f_equal. destruct (holds_cv d m' o bs' H' C) as (es' & _ & V1 & Vb' & _).
          assert (es' = es) as ->. { rewrite LB in V1. apply (cv_same d m' o (zlen bs) es' m' o (zlen bs) es CT V1 V' eq_refl eq_refl). }
          apply (string_same d bs bs' es X (h_good _ _ _ _ H) (h_good _ _ _ _ H') Vb Vb').
      + cbn [element_count_of]. rewrite (cv_get_count d m o _ es CT V), (cv_get_count d m' o _ es CT V'). reflexivity.
    - inversion PA; subst. destruct (RD j pb ltac:(lia) ltac:(assumption)) as [-> ->]. split; [left; reflexivity|auto]. }
  split.
  { exists (zlen bs). rewrite (holds_size _ _ _ _ H), (holds_size _ _ _ _ H'), LB. split; [reflexivity|]. split; [reflexivity|]. split; [apply (keep_len _ _ _ K)|].
    intros x n X N XN OUT. apply (keep_slice _ _ _ _ _ K); lia. }
  destruct (nth_error es (Z.to_nat i)) as [e|] eqn:En.
  2: { apply nth_error_None in En. assert (L : zlen es <=? i = true) by (unfold zlen in *; lia). destruct (NO eq_refl) as [-> ->].
       split; [reflexivity|]. unfold pointer_to_element. rewrite (on_element_ok _ d m o _ es i None _ _ CT V I Logic.I), L. unfold result. cbn [bind].
       split; [discriminate|]. split; [discriminate|]. intros (t & a & s & w & _ & _ & _ & P & _). discriminate. }
  destruct (YES e eq_refl) as (B0 & BE & AE). clear NO YES. split; [exact B0|].
  pose proof (znth_some _ _ _ En) as IL.
  rewrite (pointer_one d m' o _ es i None CT V' I Logic.I e En), (size_of_one d m' o _ es i None CT V' I Logic.I e En).
  rewrite (pointer_one d m o _ es i None CT V I Logic.I e En), (size_of_one d m o _ es i None CT V I Logic.I e En), (holds_size _ _ _ _ H).
  unfold result. cbn [bind]. rewrite (step_type d m o _ es i [] CT V) by lia. cbn [get_type_info].
  pose proof (cv_etype_wf d m o _ es i CT V ltac:(lia)) as Wt. destruct (wf_spec _ Wt) as [TV _].
  assert (SO : forall x, is_variable_sized_ (etype d i) = true -> e = CBytes x -> size_one e (etype d i) = zlen x).
  { intros x Vt ->. unfold size_one. destruct (cv_chunk d m o _ es i x CT V I En) as (_ & _ & _ & -> & _). rewrite Vt. reflexivity. }
  assert (NB : forall z, is_variable_sized_ (etype d i) = true -> e = CBits z -> False).
  { intros z Vt ->. pose proof (cv_el _ _ _ _ _ V i _ I En) as (_ & A & _). apply is_bit_field_spec in A.
    pose proof (wf_node _ Wt) as (_ & _ & _ & _ & _ & _ & N). rewrite A in N. destruct N as (N & _). congruence. }
  split.
  - intros t a s w T Vt Ew P S. injection T as <-. rewrite TV in Vt. injection Ew as <-. injection P as P. injection S as <-.
    destruct e as [|z|x]; [discriminate|exfalso; eauto|]. rewrite (SO x Vt eq_refl). cbn [ptr_of] in P. injection P as <-.
    unfold addr. rewrite Vt. specialize (AE Vt). unfold at_end in AE. lia.
  - rewrite BE. split.
    + intro A. apply andb_true_iff in A. destruct A as [Vt A]. destruct e as [|z|x]; try discriminate.
      exists (etype d i), (addr d (zlen es) m o i), (zlen x), (zlen bs). rewrite (SO x Vt eq_refl). cbn [ptr_of].
      repeat (split; [congruence || reflexivity|]). apply negb_true_iff in A. lia.
    + intros (t & a & s & w & T & Vt & Ew & P & S & N). injection T as <-. rewrite TV in Vt. injection Ew as <-. injection P as P. injection S as <-.
      destruct e as [|z|x]; [discriminate|exfalso; eauto|]. rewrite (SO x Vt eq_refl) in N. cbn [ptr_of] in P. injection P as <-. rewrite Vt. cbn [andb]. apply negb_true_iff. lia.
Qed.

(** ** sequences of calls *)
Lemma on_cache A d m o i (r : A) k a c : data_at d m o -> 0 <= i -> on_element d m o i None r k = Ok (a, c) -> kept d m o i c.
Proof.
  intros D I E. destruct (data_holds d m o D) as [bs H]. destruct (is_container_type_info d) eqn:C.
  2: { rewrite on_leaf in E by exact C. injection E as _ <-. left. reflexivity. }
  destruct (holds_cv d m o bs H C) as (es & CT & V & _ & _). rewrite (on_element_ok A d m o _ es i None r k CT V I Logic.I) in E.
  destruct (zlen es <=? i) eqn:L; [injection E as _ <-; left; reflexivity|].
  destruct (k (pos d (zlen es) i)) as [a'|]; [|discriminate]. cbn [bind] in E. injection E as _ <-. right. exists m, o. split; [exact D|]. split; [reflexivity|].
  rewrite (position_one d m o _ es i None CT V I Logic.I). unfold next_cache. rewrite L. reflexivity.
Qed.
Lemma call_kept d o i f m am c : data_at d m o -> 0 <= i -> call d o i f m None = Ok (am, c) -> kept d m o i c.
Proof.
  intros D I E.
  assert (X : forall A (r : res (A * cache)) (g : A -> answer * mem), (let* (a, c') := r in Ok (g a, c')) = Ok (am, c) -> exists a, r = Ok (a, c)).
  { intros A [[a c']|] g Y; [|discriminate]. cbn [bind] in Y. injection Y as _ <-. eauto. }
  destruct f; cbn [call] in E;
  first [apply (X _ _ (fun b => (ABool b, m))) in E|apply (X _ _ (fun p => (APointer p, m))) in E|apply (X _ _ (fun s => (ASize s, m))) in E|apply (X _ _ (fun v => (AValue v, m))) in E
        |apply (X _ _ (fun r => (ABool (fst r), snd r))) in E];
  destruct E as [a E]; (eapply on_cache; [exact D|exact I|exact E]).
Qed.

Lemma result_ok A (r : res (A * cache)) a : result r = Ok a -> exists c, r = Ok (a, c).
Proof. destruct r as [[b c]|]; [|discriminate]. cbn. intro E. injection E as ->. eauto. Qed.
Lemma room0 d m o bs : holds d m o bs -> room d m o 0.
Proof. intro H. split; [lia|]. intros _ s E. rewrite (holds_size _ _ _ _ H) in E. injection E as <-. pose proof (h_in _ _ _ _ H). lia. Qed.
Lemma call_ok d o i f m : data_at d m o -> call_allowed d o i f m ->
  exists a m' c, call d o i f m None = Ok ((a, m'), c) /\ data_at d m' o /\ get_element_count d m' o = get_element_count d m o.
Proof.
  intros D [I A]. destruct (C69_read_and_set d m o i D I) as (R1 & R2 & R3 & R4). destruct (C69_null_pointer_size d m o i D I) as (b & p & s & N1 & N2 & N3 & _).
  destruct (data_holds d m o D) as [bs H]. assert (PO : path_ok [i]) by (constructor; [exact I|constructor]).
  assert (SET : forall v inc, room d m o inc -> (forall t, get_type_info d [i] = Some t -> fits t v) -> (forall t vm vo, get_type_info d [i] = Some t -> v = DPtr vm vo -> data_at t vm vo) ->
    exists r m', set_element d [i] m o v inc = Ok (r, m') /\ can_set_element d [i] m o v inc = Ok r /\ data_at d m' o /\ get_element_count d m' o = get_element_count d m o).
  { intros v inc RM FT DP. destruct (set_element_ok d [i] m o v inc D PO RM FT DP) as (r & m' & E1 & E2 & D' & (_ & LO & _) & _). exists r, m'.
    split; [exact E1|]. split; [exact E2|]. split; [exact D'|]. apply (LO [] [i]); [constructor|discriminate|reflexivity]. }
  destruct f as [| | | | |v inc|v inc| |]; cbn [call].
  - assert (X : exists b c, position_of d m o i None = Ok (b, c)).
    { destruct (is_container_type_info d) eqn:C.
      - destruct (holds_cv d m o bs H C) as (es & CT & V & _ & _). rewrite (position_one d m o _ es i None CT V (proj1 I) Logic.I). eauto.
      - unfold position_of. rewrite on_leaf by exact C. eauto. }
    destruct X as (b' & c & ->). cbn [bind]. exists (ABool b'), m, c. auto.
  - apply result_ok in N1. destruct N1 as [c ->]. cbn [bind]. exists (ABool b), m, c. auto.
  - apply result_ok in N2. destruct N2 as [c ->]. cbn [bind]. exists (APointer p), m, c. auto.
  - apply result_ok in N3. destruct N3 as [c ->]. cbn [bind]. exists (ASize s), m, c. auto.
  - assert (X : exists v, get_value d [i] m o = Ok v).
    { destruct (is_container_type_info d) eqn:C; [|rewrite not_container_value by (auto; discriminate); eauto].
      destruct (holds_cv d m o bs H C) as (es & CT & V & _ & GE). destruct (nth_error es (Z.to_nat i)) as [e|] eqn:En.
      - rewrite (value_step d m o _ es i e [] CT V (proj1 I) En). destruct e as [|z|x]; eauto.
        pose proof (observe_self _ _ _ _ (child_holds d m o bs es i x CT V (proj1 I) En (GE i x (proj1 I) En))) as OS. unfold observe in OS.
        destruct (get_value (etype d i) [] m (addr d (zlen es) m o i)) as [v|]; [eauto|discriminate].
      - apply nth_error_None in En. cbn [get_value]. unfold get_containee_datum. rewrite C, (cv_get_count d m o _ es CT V). cbn [negb bind].
        replace (zlen es <=? i) with true by (unfold zlen in *; lia). eauto. }
    destruct X as [v X]. rewrite X in R1. apply result_ok in R1. destruct R1 as [c ->]. cbn [bind]. exists (AValue v), m, c. auto.
  - destruct A as (RM & FT & DP). destruct (SET v inc RM FT DP) as (r & m' & _ & E & _). specialize (R2 v inc). rewrite E in R2. apply result_ok in R2. destruct R2 as [c ->]. cbn [bind].
    exists (ABool r), m, c. auto.
  - destruct A as (RM & FT & DP). destruct (SET v inc RM FT DP) as (r & m' & E & _ & D' & GC). specialize (R3 v inc). rewrite E in R3. apply result_ok in R3. destruct R3 as [c ->]. cbn [bind fst snd].
    exists (ABool r), m', c. auto.
  - destruct (SET DNull 0 (room0 d m o bs H) (fun _ _ => Logic.I) ltac:(discriminate)) as (r & m' & E & _ & D' & GC). specialize (R4 0). rewrite E in R4. apply result_ok in R4. destruct R4 as [c ->]. cbn [bind fst snd].
    exists (ABool r), m', c. auto.
  - destruct (C69_move d m o i D I) as (b' & m' & E & D' & RD & _). apply result_ok in E. destruct E as [c ->]. cbn [bind fst snd]. exists (ABool b'), m', c.
    split; [reflexivity|]. split; [exact D'|]. destruct (RD [] (Forall_nil _)) as (_ & _ & X). symmetry. exact X.
Qed.
Lemma kept_run d o : forall fs m cs, data_at d m o -> calls_allowed d o fs m -> (forall j, kept d m o j (cs j)) ->
  exists r m', calls_fresh d o fs m = Ok (r, m') /\ calls_kept d o fs m cs = Ok (r, m') /\ data_at d m' o /\ get_element_count d m' o = get_element_count d m o.
Proof.
  induction fs as [|[i f] fs IH]; intros m cs D A K; cbn [calls_fresh calls_kept]; [exists [], m; auto|].
  destruct A as [A1 A2]. destruct (call_ok d o i f m D A1) as (a & m1 & c & E & D1 & GC). destruct A1 as [I A1].
  rewrite (C69_kept d m o i (cs i) f D I (K i)), E. cbn [bind fst snd].
  destruct (IH m1 (fun j => if j =? i then c else cs j) D1 (A2 _ _ E)) as (r & m' & E1 & E2 & D' & GC').
  { intro j. destruct (j =? i) eqn:J.
    - assert (j = i) as -> by lia. destruct (call_kept d o i f m _ c D (proj1 I) E) as [->|(m0 & o0 & X1 & X2 & X3)]; [left; reflexivity|].
      right. exists m0, o0. rewrite GC. auto.
    - destruct (K j) as [->|(m0 & o0 & X1 & X2 & X3)]; [left; reflexivity|]. right. exists m0, o0. rewrite GC. auto. }
  rewrite E1, E2. cbn [bind]. exists (a :: r), m'. rewrite GC' , GC. auto.
Qed.
(** a caller who keeps one position for each index, through any sequence of
    calls that includes sets, NULLs and moves, gets the same answers and the
    same bytes as a caller who passes INVALID positions; no call is undefined *)
Theorem C69_history d m o fs : data_at d m o -> calls_allowed d o fs m ->
  exists answers m', calls_fresh d o fs m = Ok (answers, m') /\ calls_kept d o fs m (fun _ => None) = Ok (answers, m')
    /\ data_at d m' o /\ get_element_count d m' o = get_element_count d m o.
Proof. intros D A. apply kept_run; auto. intro j. left. reflexivity. Qed.
Print Assumptions C69_kept.
Print Assumptions C69_read_and_set.
Print Assumptions C69_null_pointer_size.
Print Assumptions C69_move.
Print Assumptions C69_history.
