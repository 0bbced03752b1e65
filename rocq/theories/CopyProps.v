(** * C60: copying an element from another tuple *)
From Verif Require Import CopySpec SuccessFacts SuccessProps TupleProps NumeralProps ValueFacts AlikeFacts DataAt OpFacts TupleExamples SizeProps.
From Coq Require Import ZifyBool ZifyNat ZifyN Zify.
Ltac Zify.zify_post_hook ::= Z.div_mod_to_equations.

(** every type of data is a finalized type or an element of one *)
Lemma data_type d m o : data_at d m o -> exists t d0 pa, type_built t /\ finalize t = (true, d0) /\ path_ok pa /\ get_type_info d0 pa = Some d.
Proof.
  induction 1 as [t d m o s m' TB F B Ho E | | | | | | d m o pa t vm vo D (t0 & d0 & pb & TB & F & PO & TI) PO2 TI2 E | t d0 pa d d' m o TB F PO TI SN ID D _]; auto.
  - exists t, d, []. repeat split; auto. constructor.
  - exists t0, d0, (pb ++ pa). split; [exact TB|]. split; [exact F|]. split; [apply path_app; auto|]. rewrite (type_app pb d0 pa d TI). exact TI2.
  - exists t, d0, pa. auto.
Qed.
Lemma element_type_of d m o pa t : data_at d m o -> path_ok pa -> get_type_info d pa = Some t ->
  exists t0 d0 pb, type_built t0 /\ finalize t0 = (true, d0) /\ path_ok pb /\ get_type_info d0 pb = Some t.
Proof.
  intros D PO TI. destruct (data_type d m o D) as (t0 & d0 & pb & TB & F & PO' & TI'). exists t0, d0, (pb ++ pa).
  split; [exact TB|]. split; [exact F|]. split; [apply path_app; auto|]. rewrite (type_app pb d0 pa d TI'). exact TI.
Qed.

(** what was read comes from a place in the data *)
Lemma value_place pa : forall d m o bs t v, path_ok pa -> holds d m o bs -> get_type_info d pa = Some t -> get_value d pa m o = Ok (Some v) ->
  v = DNull \/ (exists z, v = DBits z /\ type t = BIT_FIELD /\ 0 <= z < 2 ^ size t)
  \/ exists a c, holds t m a c /\ get_datum t m a = Ok (Some v) /\ element_at d pa m o t a.
Proof.
  induction pa as [|i pa IH]; intros d m o bs t v PO H TI E.
  - cbn [get_value get_type_info] in *. injection TI as <-. right. right. exists o, bs. split; [exact H|]. split; [exact E|]. constructor.
  - pose proof (Forall_inv PO) as I. pose proof (Forall_inv_tail PO) as PO'. cbn beta in I.
    destruct (is_container_type_info d) eqn:C; [|rewrite not_container_value in E by (try discriminate; assumption); discriminate].
    destruct (holds_cv d m o bs H C) as (es & CT & V & Vb & GE).
    destruct (Z_lt_le_dec i (zlen es)) as [L|L].
    2: { exfalso. destruct pa as [|j pa]; cbn [get_value] in E.
         - unfold get_containee_datum in E. rewrite C in E. cbn [negb] in E. rewrite (cv_get_count d m o _ es CT V) in E. cbn [bind] in E. replace (zlen es <=? i) with true in E by lia. discriminate.
         - rewrite (child_none d m o _ es i CT V L) in E. discriminate. }
    destruct (znth_lt es i ltac:(lia)) as [e En]. rewrite (value_step d m o _ es i e pa CT V ltac:(lia) En) in E. rewrite (step_type d m o _ es i pa CT V ltac:(lia)) in TI.
    pose proof (cv_el _ _ _ _ _ V i e ltac:(lia) En) as [_ EO].
    destruct e as [|z|c]; [left; congruence| |].
    + destruct pa as [|j pa]; [|discriminate]. right. left. exists z. cbn [get_type_info] in TI. injection TI as <-. split; [congruence|].
      destruct EO as (B & Z & _). apply is_bit_field_spec in B. auto.
    + pose proof (child_holds d m o bs es i c CT V ltac:(lia) En (GE i c ltac:(lia) En)) as HC.
      destruct (IH (etype d i) m _ c t v PO' HC TI E) as [K|[K|(a & c' & K1 & K2 & K3)]]; auto. right. right. exists a, c'. split; [exact K1|]. split; [exact K2|].
      econstructor; [|exact K3]. rewrite (child_ok d m o _ es i (CBytes c) CT V ltac:(lia) En). reflexivity.
Qed.
Lemma slice_len_le {A} (m : list A) o n : zlen (slice m o n) <= zlen m.
Proof. unfold zlen, slice. rewrite firstn_length, skipn_length. lia. Qed.
Lemma value_fits d pa m o bs t v : path_ok pa -> holds d m o bs -> get_type_info d pa = Some t -> get_value d pa m o = Ok (Some v) -> fits t v.
Proof.
  intros PO H TI E. destruct (value_place pa d m o bs t v PO H TI E) as [->|[(z & -> & T & _)|(a & c & HC & G & _)]]; [exact I|exact T|].
  destruct (datum_typed t m a c HC) as (w & E' & K). rewrite G in E'. injection E' as <-. destruct K as [(N & IV & _)|[(S0 & o' & n & b & -> & R)|(T & ->)]].
  - destruct v; try contradiction; cbn in IV |- *; intuition.
  - pose proof (observe_self t m a c HC) as O. unfold observe in O. cbn [get_value get_type_info] in O. rewrite G in O. cbn [bind obs_of] in O. rewrite R in O. cbn [bind] in O.
    destruct (good_size _ _ (h_good _ _ _ _ HC)) as (_ & _ & _ & ZR & _). apply rd_inv in R. destruct R as (R1 & R2 & R3 & ->). cbn [fits]. split; [exact S0|]. split; [exact R1|]. split; [|exact R3].
    split; [exact R2|]. pose proof (zlen_nonneg c) as Zc.
    assert (Q : OStr (slice m o' n) = obs_self t c) by congruence. unfold obs_self in Q. pose proof (pbo_range t) as (P1 & _).
    assert (L : n = zlen (slice m o' n)) by (rewrite zlen_slice by lia; reflexivity).
    destruct S0 as [T|T]; rewrite T in Q; injection Q as Q; rewrite Q in L.
    + pose proof (cut0_len (slice c (pbo t) (zlen c - pbo t))) as CL. pose proof (slice_len_le c (pbo t) (zlen c - pbo t)). lia.
    + pose proof (slice_len_le c (pbo t) (zlen c - pbo t)). lia.
  - cbn. exact T.
Qed.

Lemma null_below pa : forall d m o bs pb, path_ok pa -> holds d m o bs -> get_value d pa m o = Ok (Some DNull) ->
  get_value d (pa ++ pb) m o = Ok (Some DNull) /\ element_count_of d (pa ++ pb) m o = Ok 0.
Proof.
  induction pa as [|i pa IH]; intros d m o bs pb PO H E.
  - exfalso. cbn [get_value] in E. destruct (datum_typed d m o bs H) as (w & E' & K). rewrite E in E'. injection E' as <-. destruct K as [(_ & _ & K & _)|[(_ & a & n & b & K & _)|(_ & K)]]; congruence.
  - pose proof (Forall_inv PO) as I. pose proof (Forall_inv_tail PO) as PO'. cbn beta in I.
    destruct (is_container_type_info d) eqn:C; [|rewrite not_container_value in E by (try discriminate; assumption); discriminate].
    destruct (holds_cv d m o bs H C) as (es & CT & V & Vb & GE).
    destruct (Z_lt_le_dec i (zlen es)) as [L|L].
    2: { exfalso. destruct pa as [|j pa]; cbn [get_value] in E.
         - unfold get_containee_datum in E. rewrite C in E. cbn [negb] in E. rewrite (cv_get_count d m o _ es CT V) in E. cbn [bind] in E. replace (zlen es <=? i) with true in E by lia. discriminate.
         - rewrite (child_none d m o _ es i CT V L) in E. discriminate. }
    destruct (znth_lt es i ltac:(lia)) as [e En]. rewrite (value_step d m o _ es i e pa CT V ltac:(lia) En) in E. cbn [app]. rewrite (value_step d m o _ es i e (pa ++ pb) CT V ltac:(lia) En).
    cbn [element_count_of]. rewrite (child_ok d m o _ es i e CT V ltac:(lia) En). cbn [bind]. destruct e as [|z|c].
    + auto.
    + exfalso. destruct pa; discriminate.
    + cbn [ptr_of]. apply (IH _ _ _ c); auto. apply (child_holds d m o bs es i c CT V ltac:(lia) En (GE i c ltac:(lia) En)).
Qed.

(** [set_element] of a fitting value *)
Lemma set_to d pa m o inc t w : data_at d m o -> path_ok pa -> room d m o inc -> get_type_info d pa = Some t -> fits t w ->
  (forall vm vo, w = DPtr vm vo -> data_at t vm vo) ->
  exists r m', set_element d pa m o w inc = Ok (r, m') /\ is_set_to d pa m o t w inc r m'
    /\ (r = true -> forall vm vo, w = DPtr vm vo -> forall pb, path_ok pb ->
              observe d (pa ++ pb) m' o = observe t pb vm vo /\ element_count_of d (pa ++ pb) m' o = element_count_of t pb vm vo).
Proof.
  intros D PO RM TI FT DP. destruct (set_element_ok d pa m o w inc D PO RM) as (r & m' & E & _ & D' & LO & RS & RB);
    [intros t0 T0; assert (t0 = t) by congruence; subst; exact FT|intros t0 vm vo T0; assert (t0 = t) by congruence; subst; auto|].
  destruct (C55_set_succeeds d pa t m o w inc D PO RM TI FT DP) as (r1 & m1 & E1 & OK). rewrite E in E1. injection E1 as <- <-.
  exists r, m'. split; [exact E|]. split.
  - split; [exact OK|]. split; [exact D'|]. split; [exact LO|]. split; [exact RS|]. intro R. destruct (RB R) as (t' & x & T' & O & K & _). assert (t' = t) by congruence. subst. eauto.
  - intros R vm vo EV pb PB. destruct (RB R) as (t' & x & T' & O & K & K2). assert (t' = t) by congruence. subst. eapply K2; eauto.
Qed.
Lemma identical_value t t_in : wf t -> wf t_in -> short_names t -> exists s, are_identical t t_in = Ok s /\ (s = true <-> same_description false t t_in).
Proof. intros. apply are_identical_spec; assumption. Qed.

Lemma wrap_s_id n z : 1 <= n -> - (256 ^ n / 2) <= z < 256 ^ n / 2 -> wrap_s n z = z.
Proof.
  intros N R. unfold wrap_s. rewrite pow256 in * by lia. rewrite half_pow in * by lia.
  assert (E : 2 ^ (8 * n) = 2 * 2 ^ (8 * n - 1)) by (rewrite <- Z.pow_succ_r by lia; f_equal; lia). rewrite E.
  destruct (Z_lt_le_dec z 0) as [K|K].
  - replace (z mod (2 * 2 ^ (8 * n - 1))) with (z + 2 * 2 ^ (8 * n - 1)) by (apply Z.mod_unique with (q := -1); lia).
    destruct (Z.ltb_spec (z + 2 * 2 ^ (8 * n - 1)) (2 ^ (8 * n - 1))); lia.
  - rewrite Z.mod_small by lia. destruct (Z.ltb_spec z (2 ^ (8 * n - 1))); lia.
Qed.
(** a value of the type is read back unchanged *)
Lemma numeral_back t v x y : wf t -> is_value t v -> v <> DNull -> obs_of t v = Ok x -> reads_back t v y -> y = x.
Proof.
  intros W IV NN O RB. pose proof (wf_node t W) as (_ & S0 & _ & _ & _ & _ & N). destruct v; try contradiction; cbn [is_value obs_of num_of reads_back] in *; try congruence; injection O as <-.
  - destruct IV as [T IV]. rewrite T in RB. rewrite Z.mod_small in RB by lia. exact RB.
  - destruct IV as [T IV]. rewrite T in RB. unfold wrap_u in RB. rewrite Z.mod_small in RB by lia. exact RB.
  - destruct IV as [T IV]. rewrite T in RB, N. rewrite wrap_s_id in RB by lia. exact RB.
  - destruct IV as (T & S4 & IV). rewrite T, S4 in RB. cbn [Z.eqb Pos.eqb] in RB. rewrite Z.mod_small in RB by lia. exact RB.
  - destruct IV as (T & S4 & IV). rewrite T, S4 in RB. cbn [Z.eqb Pos.eqb] in RB. rewrite Z.mod_small in RB by lia. exact RB.
  - destruct IV as [T IV]. rewrite T in RB. unfold wrap_u in RB. rewrite Z.mod_small in RB by lia. exact RB.
  - destruct IV as [T IV]. rewrite T in RB, N. rewrite wrap_s_id in RB by lia. exact RB.
Qed.
Lemma alike_is_value t t' v : alike t t' -> is_value t' v -> v <> DNull -> is_value t v.
Proof.
  intros A IV NN. destruct (alike_shares t t' A) as (T & V & Sz & NB & _). destruct v; try contradiction; cbn [is_value] in *; rewrite T; rewrite ?Sz; try congruence; auto.
Qed.
Lemma alike_fits t t' v : alike t t' -> fits t' v -> fits t v.
Proof. intros A F. destruct (alike_shares t t' A) as (T & V & Sz & NB & _). destruct v; cbn [fits] in *; rewrite ?T, ?Sz; auto. Qed.
Lemma string_back t m a c v x y : holds t m a c -> string_type t -> get_datum t m a = Ok (Some v) -> obs_of t v = Ok x -> reads_back t v y -> y = x.
Proof.
  intros H S0 G O RB. pose proof (observe_self t m a c H) as OS. unfold observe in OS. cbn [get_value get_type_info] in OS. rewrite G in OS. cbn [bind] in OS.
  destruct (datum_typed t m a c H) as (w & E' & K). rewrite G in E'. injection E' as <-.
  destruct K as [(N & _)|[(_ & o' & n & b & -> & R)|(T & _)]]; [exfalso; rewrite (string_container t S0) in N; discriminate| |exfalso; destruct S0 as [S0|S0], T as [T|T]; congruence].
  rewrite O in OS. cbn [bind] in OS. assert (X : x = obs_self t c) by congruence. cbn [obs_of] in O. rewrite R in O. cbn [bind] in O. injection O as O.
  apply rd_inv in R. destruct R as (R1 & R2 & R3 & ->). destruct (string_bytes t m a c H S0) as (k & _ & L & K0 & P0 & _). destruct (good_size _ _ (h_good _ _ _ _ H)) as (W & _ & _ & _ & _ & FX).
  pose proof (wf_spec t W) as [TV _]. destruct (string_layout t W S0) as (_ & _ & _ & _ & LF & _).
  cbn [reads_back str_of] in RB. rewrite <- O in X. unfold obs_self in X. destruct S0 as [T|T]; rewrite T in RB, X; injection X as X; subst x.
  - rewrite X in RB |- *. rewrite cut0_idem in RB. destruct (t_variable t) eqn:VV; [exact RB|]. rewrite firstn_all2 in RB; [exact RB|].
    pose proof (cut0_len (slice c (pbo t) (zlen c - pbo t))) as CL. pose proof (slice_len_le c (pbo t) (zlen c - pbo t)). rewrite <- TV in FX. specialize (FX eq_refl). unfold zlen in *. lia.
  - destruct (t_variable t) eqn:VV; [exact RB|]. destruct RB as (tail & -> & Z). rewrite <- TV in FX. specialize (FX eq_refl). rewrite X in *.
    assert (PB : pbo t = 0) by (apply LF; congruence). assert (LS : zlen (slice c (pbo t) (zlen c - pbo t)) = size t) by (rewrite zlen_slice by lia; lia).
    set (q := slice c (pbo t) (zlen c - pbo t)) in *. clearbody q. rewrite (firstn_all2 (n := Z.to_nat (size t))) in Z |- * by (unfold zlen in LS; lia). unfold zlen in *. rewrite app_length in Z. assert (length tail = O) by lia. destruct tail; [|discriminate]. rewrite app_nil_r. reflexivity.
Qed.

(** ** elements of identical types are copied as they are *)
Theorem C60_identical cv d pa m o inc t d_in pa_in m_in o_in t_in v : copying d pa m o inc t d_in pa_in m_in o_in t_in ->
  same_description false t t_in -> get_value d_in pa_in m_in o_in = Ok (Some v) ->
  exists r m', set_element_from_tuple cv d pa m o d_in pa_in m_in o_in inc = Ok (r, m') /\ is_set_to d pa m o t v inc r m'
  /\ (r = true -> observe d pa m' o = observe d_in pa_in m_in o_in
       /\ ((type t = TUPLE \/ type t = ARRAY) -> forall pb, path_ok pb ->
             observe d (pa ++ pb) m' o = observe d_in (pa_in ++ pb) m_in o_in
             /\ element_count_of d (pa ++ pb) m' o = element_count_of d_in (pa_in ++ pb) m_in o_in)).
Proof.
  intros (D & PO & RM & DI & PI & TI & TJ & SN & SNi) SD E.
  destruct (data_holds d m o D) as [bs H]. destruct (data_holds d_in m_in o_in DI) as [bi HI].
  destruct (good_size _ _ (h_good _ _ _ _ H)) as (W & _). destruct (type_info_wf pa d t PO W TI) as [Wt _].
  destruct (good_size _ _ (h_good _ _ _ _ HI)) as (Wi & _). destruct (type_info_wf pa_in d_in t_in PI Wi TJ) as [Wti _].
  assert (A : alike t t_in) by (split; [exact Wt|split; [exact Wti|exact SD]]).
  assert (FT : fits t v) by (apply (alike_fits t t_in); [exact A|eapply value_fits; eauto]).
  assert (DP : forall vm vo, v = DPtr vm vo -> data_at t vm vo).
  { intros vm vo ->. destruct (element_type_of d m o pa t D PO TI) as (t0 & d0 & pb & TB & F & PO' & TI'). apply (da_identical t0 d0 pb t_in t vm vo TB F PO' TI' SNi).
    - apply identical_true; auto. apply sd_sym. exact SD.
    - exact (da_element d_in m_in o_in pa_in t_in vm vo DI PI TJ E). }
  destruct (set_to d pa m o inc t v D PO RM TI FT DP) as (r & m' & E1 & ST & RP). exists r, m'. split; [|split; [exact ST|]].
  { unfold set_element_from_tuple. rewrite E. cbn [bind]. rewrite TJ, TI. replace (are_identical t t_in) with (Ok true) by (symmetry; apply identical_true; auto). cbn [bind]. exact E1. }
  intro R. destruct ST as (_ & D' & _ & _ & RB). destruct (RB R) as (y & OY & RY). pose proof (observe_typed d_in pa_in m_in o_in v t_in E TJ) as OX.
  destruct (data_holds d m' o D') as [bs' H'].
  destruct (value_place pa_in d_in m_in o_in bi t_in v PI HI TJ E) as [->|[(z & -> & T & Z)|(a & c & HC & G & EA)]].
  - cbn [reads_back] in RY. subst y. cbn [obs_of bind] in OX. split; [congruence|]. intros _ pb PB.
    assert (GN : get_value d pa m' o = Ok (Some DNull)).
    { unfold observe in OY. rewrite TI in OY. destruct (get_value d pa m' o) as [[w|]|]; try discriminate. cbn [bind] in OY.
      assert (K : obs_of t w = Ok ONull) by (destruct w; apply bind_inv in OY; destruct OY as (q & K1 & K2); congruence). destruct w; cbn [obs_of] in K; try discriminate; [reflexivity| |]; apply bind_inv in K; destruct K as (q & _ & K); try discriminate.
      apply bind_inv in K. destruct K as (q' & _ & K). discriminate. }
    destruct (null_below pa d m' o bs' pb PO H' GN) as [N1 N2]. destruct (null_below pa_in d_in m_in o_in bi pb PI HI E) as [N3 N4].
    split; [|congruence]. unfold observe. rewrite N1, N3. cbn [bind]. destruct (get_type_info d (pa ++ pb)), (get_type_info d_in (pa_in ++ pb)); reflexivity.
  - destruct (alike_shares t t_in A) as (T' & _ & Sz & _). split; [|rewrite T', T; intros [K|K]; discriminate].
    cbn [reads_back num_of] in RY. rewrite T', T, Sz, Z.mod_small in RY by lia. rewrite OY, OX. cbn [obs_of bind]. congruence.
  - destruct (datum_typed t_in m_in a c HC) as (w & E' & K). rewrite G in E'. injection E' as <-.
    destruct (alike_shares t t_in A) as (T' & _ & Sz & _). destruct K as [(N & IV & NN & x & OV)|[(S0 & o' & n & b & EV & Rb)|(T & EV)]].
    + rewrite OV in OX. cbn [bind] in OX. split.
      * rewrite OY, OX. do 2 f_equal. apply (numeral_back t v); auto. { apply (alike_is_value t t_in); auto. }
        destruct v; try contradiction; exact OV.
      * intro TT. exfalso. unfold is_container_type_info in N. rewrite <- T' in N. destruct TT as [TT|TT]; rewrite TT in N; discriminate.
    + assert (S1 : string_type t) by (unfold string_type in *; rewrite T'; exact S0). split; [|intro TT; exfalso; destruct S1 as [S1|S1], TT as [TT|TT]; congruence].
      assert (A' : alike t_in t) by (split; [exact Wti|split; [exact Wt|apply sd_sym; exact SD]]).
      pose proof (alike_holds t_in t m_in a c A' HC) as HC'. rewrite (alike_datum t_in t m_in a A') in G.
      assert (OB : obs_of t_in v = obs_of t v) by (subst v; reflexivity). rewrite OB in OX. subst v. cbn [obs_of] in OX. rewrite Rb in OX. cbn [bind] in OX.
      rewrite OY, OX. do 2 f_equal. eapply (string_back t m_in a c); eauto. cbn [obs_of]. rewrite Rb. reflexivity.
    + subst v. assert (Q : forall pb, path_ok pb -> observe d (pa ++ pb) m' o = observe d_in (pa_in ++ pb) m_in o_in /\ element_count_of d (pa ++ pb) m' o = element_count_of d_in (pa_in ++ pb) m_in o_in).
      { intros pb PB. destruct (RP R m_in a eq_refl pb PB) as [Q1 Q2]. rewrite Q1, Q2. rewrite (alike_observe t t_in pb m_in a A), (alike_count_of pb t t_in m_in a A).
        destruct pb as [|j pb].
        - rewrite !app_nil_r. rewrite (count_at _ _ _ _ _ _ EA). split; [|reflexivity]. unfold observe. rewrite E, TJ. cbn [get_value get_type_info]. rewrite G. reflexivity.
        - destruct (value_app pa_in d_in m_in o_in t_in a (j :: pb) EA ltac:(discriminate)) as [Q3 Q4]. rewrite Q4. split; [|reflexivity]. unfold observe. rewrite Q3, (type_app pa_in d_in (j :: pb) t_in TJ). reflexivity. }
      split; [|intros _ pb PB; apply Q; exact PB]. destruct (Q [] (Forall_nil _)) as [Q1 _]. rewrite !app_nil_r in Q1. exact Q1.
Qed.
Print Assumptions C60_identical.

(** ** strings and binaries are copied by their bytes *)
Theorem C60_strings cv d pa m o inc t d_in pa_in m_in o_in t_in v : copying d pa m o inc t d_in pa_in m_in o_in t_in ->
  (type t = STRING \/ type t = BINARY) -> (type t_in = STRING \/ type t_in = BINARY) -> get_value d_in pa_in m_in o_in = Ok (Some v) ->
  (v = DNull \/ exists m0 o0 n, v = DStr m0 o0 n)
  /\ exists r m', set_element_from_tuple cv d pa m o d_in pa_in m_in o_in inc = Ok (r, m') /\ is_set_to d pa m o t v inc r m'.
Proof.
  intros (D & PO & RM & DI & PI & TI & TJ & SN & SNi) S0 S1 E.
  destruct (data_holds d m o D) as [bs H]. destruct (data_holds d_in m_in o_in DI) as [bi HI].
  destruct (good_size _ _ (h_good _ _ _ _ H)) as (W & _). destruct (type_info_wf pa d t PO W TI) as [Wt _].
  destruct (good_size _ _ (h_good _ _ _ _ HI)) as (Wi & _). destruct (type_info_wf pa_in d_in t_in PI Wi TJ) as [Wti _].
  pose proof (value_fits d_in pa_in m_in o_in bi t_in v PI HI TJ E) as F.
  assert (VS : v = DNull \/ exists m0 o0 n, v = DStr m0 o0 n).
  { destruct (value_place pa_in d_in m_in o_in bi t_in v PI HI TJ E) as [->|[(z & -> & T & _)|(a & c & HC & G & _)]]; [auto|destruct S1; congruence|].
    destruct (datum_typed t_in m_in a c HC) as (w & E' & K). rewrite G in E'. injection E' as <-.
    destruct K as [(N & _)|[(_ & o' & n & b & -> & R)|(T & _)]]; [exfalso; rewrite (string_container t_in S1) in N; discriminate|eauto|exfalso; destruct S1, T; congruence]. }
  split; [exact VS|].
  assert (FT : fits t v) by (destruct VS as [->|(m0 & o0 & n & ->)]; cbn [fits] in *; intuition).
  assert (DP : forall vm vo, v = DPtr vm vo -> data_at t vm vo) by (intros vm vo ->; destruct VS as [?|(? & ? & ? & ?)]; discriminate).
  destruct (set_to d pa m o inc t v D PO RM TI FT DP) as (r & m' & E1 & ST & _). exists r, m'. split; [|exact ST].
  unfold set_element_from_tuple. rewrite E. cbn [bind]. rewrite TJ, TI. destruct (identical_value t t_in Wt Wti SN) as (s & -> & _). cbn [bind].
  destruct s; [exact E1|]. unfold is_primitive_numeral. destruct S0 as [-> | ->], S1 as [-> | ->]; cbn [andb]; exact E1.
Qed.
Print Assumptions C60_strings.

(** ** numerals are cast *)
Lemma numeral_member t_in v : is_value t_in v -> v <> DNull ->
  (exists z, integer_member t_in v = Ok (Some z) /\ integer_of v = Some z) \/ (integer_member t_in v = Ok None /\ type t_in = FLOAT /\ ((size t_in = 4 /\ exists b, v = DFloat b) \/ (size t_in = 8 /\ exists b, v = DDouble b))).
Proof.
  intros V NN. destruct v; try contradiction; cbn [is_value] in V; try congruence; destruct V as [T V]; unfold integer_member; rewrite T; cbn; eauto.
  - right. destruct V as [-> _]. eauto 6.
  - right. destruct V as [-> _]. eauto 6.
Qed.
Lemma cast_fits cv t t_in v : is_primitive_numeral t = true -> numeral_type_ok t -> is_primitive_numeral t_in = true ->
  v = DNull \/ (is_value t_in v /\ v <> DNull) ->
  exists c, type_cast cv t v t_in = Ok c /\ forall w, c = Some w -> fits t w /\ (forall vm vo, w <> DPtr vm vo) /\ (w = DNull -> v = DNull /\ is_nullable_type_info t = true).
Proof.
  intros P OK PI [->|[V NN]].
  - unfold type_cast. cbn [is_datum_NULL]. eexists. split; [reflexivity|]. intros w Q. injection Q as <-.
    destruct (is_nullable_type_info t) eqn:N; [repeat split; auto; discriminate|]. unfold zero_datum, numeral_type_ok in *.
    destruct (type t) eqn:T; try contradiction; cbn [fits]; try (repeat split; auto; discriminate).
    destruct (size t =? 4) eqn:S4; cbn [fits]; repeat split; auto; try discriminate; lia.
  - unfold type_cast. replace (is_datum_NULL v) with false by (destruct v; try reflexivity; congruence).
    destruct (numeral_member t_in v V NN) as [(z & -> & _)|(-> & T' & K)]; cbn [bind]; unfold numeral_type_ok in OK.
    + destruct (type t) eqn:T; try contradiction; try (eexists; split; [reflexivity|]; intros w Q; injection Q as <-; cbn [fits]; repeat split; auto; discriminate).
      destruct OK as [S4|S4]; rewrite S4; cbn [Z.eqb Pos.eqb]; (eexists; split; [reflexivity|]; intros w Q; injection Q as <-; cbn [fits]; repeat split; auto; discriminate).
    + rewrite T'. assert (FM : exists x, float_member t_in v = Ok (Some x)).
      { unfold float_member. destruct K as [(-> & b & ->)|(-> & b & ->)]; cbn; eauto. }
      destruct FM as [x FM]. rewrite FM. cbn [bind].
      destruct (type t) eqn:T; try contradiction;
        try (destruct (from_double cv _ _ x) as [q|]; cbn [option_map]; eexists; (split; [reflexivity|]); intros w Q; [injection Q as <-|discriminate]; cbn [fits]; repeat split; auto; discriminate).
      destruct OK as [S4|S4]; rewrite S4; cbn [Z.eqb Pos.eqb]; destruct K as [(-> & b & ->)|(-> & b & ->)]; cbn [Z.eqb Pos.eqb float_value double_value bind];
        (eexists; split; [reflexivity|]; intros w Q; injection Q as <-; cbn [fits]; repeat split; auto; discriminate).
Qed.
Lemma source_value pa d m o bs t v : path_ok pa -> holds d m o bs -> get_type_info d pa = Some t -> is_primitive_numeral t = true -> get_value d pa m o = Ok (Some v) ->
  v = DNull \/ (is_value t v /\ v <> DNull).
Proof.
  intros PO H TI P E. destruct (value_place pa d m o bs t v PO H TI E) as [->|[(z & -> & T & Z)|(a & c & HC & G & _)]]; [auto|right; split; [split; assumption|discriminate]|].
  destruct (datum_typed t m a c HC) as (w & E' & K). rewrite G in E'. injection E' as <-.
  destruct K as [(_ & V & NN & _)|[(S0 & _)|(T & _)]]; [auto| |]; exfalso; unfold is_primitive_numeral in P; [destruct S0 as [T|T]|destruct T as [T|T]]; rewrite T in P; discriminate.
Qed.
Theorem C60_numerals cv d pa m o inc t d_in pa_in m_in o_in t_in v : copying d pa m o inc t d_in pa_in m_in o_in t_in ->
  is_primitive_numeral t = true -> is_primitive_numeral t_in = true -> ~ same_description false t t_in -> get_value d_in pa_in m_in o_in = Ok (Some v) ->
  exists c, type_cast cv t v t_in = Ok c
  /\ match c with
     | Some w => exists r m', set_element_from_tuple cv d pa m o d_in pa_in m_in o_in inc = Ok (r, m') /\ is_set_to d pa m o t w inc r m'
     | None => set_element_from_tuple cv d pa m o d_in pa_in m_in o_in inc = Ok (false, m)
     end.
Proof.
  intros (D & PO & RM & DI & PI & TI & TJ & SN & SNi) P1 P2 ND E.
  destruct (data_holds d m o D) as [bs H]. destruct (data_holds d_in m_in o_in DI) as [bi HI].
  destruct (good_size _ _ (h_good _ _ _ _ H)) as (W & _). destruct (type_info_wf pa d t PO W TI) as [Wt _].
  destruct (good_size _ _ (h_good _ _ _ _ HI)) as (Wi & _). destruct (type_info_wf pa_in d_in t_in PI Wi TJ) as [Wti _].
  destruct (numeral_ok t Wt P1) as [OK _]. destruct (cast_fits cv t t_in v P1 OK P2 (source_value pa_in d_in m_in o_in bi t_in v PI HI TJ P2 E)) as (c & EC & F).
  exists c. split; [exact EC|].
  assert (EQ : set_element_from_tuple cv d pa m o d_in pa_in m_in o_in inc = match c with Some w => set_element d pa m o w inc | None => Ok (false, m) end).
  { unfold set_element_from_tuple. rewrite E. cbn [bind]. rewrite TJ, TI. destruct (identical_value t t_in Wt Wti SN) as (s & -> & SS). cbn [bind].
    destruct s; [exfalso; tauto|]. rewrite P1, P2. cbn [andb]. unfold type_cast_into. rewrite EC. cbn [bind]. destruct c; reflexivity. }
  rewrite EQ. destruct c as [w|]; [|reflexivity]. destruct (F w eq_refl) as (FT & NP & _).
  destruct (set_to d pa m o inc t w D PO RM TI FT) as (r & m' & E1 & ST & _); [intros vm vo ->; exfalso; eapply NP; reflexivity|]. eauto.
Qed.
Print Assumptions C60_numerals.

Lemma is_set_to_ext d pa m o t w w' inc r m' : t_variable t = false -> w <> DNull -> w' <> DNull -> (forall y, reads_back t w y -> reads_back t w' y) ->
  is_set_to d pa m o t w inc r m' -> is_set_to d pa m o t w' inc r m'.
Proof.
  intros V N N' RB (S1 & S2 & S3 & S4 & S5). split; [|split; [exact S2|split; [exact S3|split; [exact S4|]]]].
  - rewrite S1. unfold settable. rewrite V. destruct w, w'; try congruence; split; intros [X _]; (split; [exact X|discriminate]).
  - intro R. destruct (S5 R) as (y & O & Y). eauto.
Qed.
Lemma mod_mod_pow z a b : 0 <= a <= b -> (z mod 2 ^ b) mod 2 ^ a = z mod 2 ^ a.
Proof.
  intro R. replace b with (a + (b - a)) by lia. rewrite Z.pow_add_r by lia. pose proof (Z.pow_pos_nonneg 2 a ltac:(lia) ltac:(lia)). pose proof (Z.pow_pos_nonneg 2 (b - a) ltac:(lia) ltac:(lia)).
  rewrite Z.rem_mul_r by lia. rewrite (Z.mul_comm (2 ^ a)), Z.mod_add by lia. apply Z.mod_mod. lia.
Qed.
Lemma mod_signed z a b : 0 <= a <= b -> (to_signed b z) mod 2 ^ a = z mod 2 ^ a.
Proof.
  intro R. unfold to_signed. destruct (_ <? _); [apply mod_mod_pow; lia|]. rewrite <- (mod_mod_pow z a b R). set (q := z mod 2 ^ b).
  replace (2 ^ b) with (2 ^ (b - a) * 2 ^ a) by (rewrite <- Z.pow_add_r by lia; f_equal; lia).
  replace (q - 2 ^ (b - a) * 2 ^ a) with (q + (- 2 ^ (b - a)) * 2 ^ a) by lia. apply Z.mod_add. pose proof (Z.pow_pos_nonneg 2 a ltac:(lia) ltac:(lia)). lia.
Qed.
(** an integer is copied modulo the range of the target, so exactly when it is
    in range *)
Theorem C60_integers cv d pa m o inc t d_in pa_in m_in o_in t_in z x : copying d pa m o inc t d_in pa_in m_in o_in t_in ->
  integer_type t -> integer_type t_in -> observe d_in pa_in m_in o_in = Ok (Some x) -> integer_read x = Some z ->
  exists r m', set_element_from_tuple cv d pa m o d_in pa_in m_in o_in inc = Ok (r, m') /\ is_set_to d pa m o t (integer_datum t z) inc r m'
  /\ (r = true -> in_range t z -> exists y, observe d pa m' o = Ok (Some y) /\ integer_read y = Some z).
Proof.
  intros CP I1 I2 OX IR. pose proof CP as (D & PO & RM & DI & PI & TI & TJ & SN & SNi).
  destruct (data_holds d m o D) as [bs H]. destruct (data_holds d_in m_in o_in DI) as [bi HI].
  destruct (good_size _ _ (h_good _ _ _ _ H)) as (W & _). destruct (type_info_wf pa d t PO W TI) as [Wt _].
  destruct (good_size _ _ (h_good _ _ _ _ HI)) as (Wi & _). destruct (type_info_wf pa_in d_in t_in PI Wi TJ) as [Wti _].
  assert (P1 : is_primitive_numeral t = true) by (unfold integer_type, is_primitive_numeral in *; destruct (type t); try contradiction; reflexivity).
  assert (P2 : is_primitive_numeral t_in = true) by (unfold integer_type, is_primitive_numeral in *; destruct (type t_in); try contradiction; reflexivity).
  destruct (numeral_ok t Wt P1) as [OK VS]. destruct (numeral_ok t_in Wti P2) as [OKi _].
  assert (V : exists v, get_value d_in pa_in m_in o_in = Ok (Some v) /\ is_value t_in v /\ integer_of v = Some z).
  { unfold observe in OX. destruct (get_value d_in pa_in m_in o_in) as [[v|]|] eqn:E; try discriminate. cbn [bind] in OX. rewrite TJ in OX.
    assert (K : obs_of t_in v = Ok x) by (destruct v; apply bind_inv in OX; destruct OX as (q & K1 & K2); congruence).
    exists v. split; [reflexivity|]. destruct (source_value pa_in d_in m_in o_in bi t_in v PI HI TJ P2 E) as [->|[V NN]]; [cbn in K; injection K as <-; discriminate|].
    split; [exact V|]. destruct v; try contradiction; cbn [obs_of] in K; injection K as <-; cbn in IR |- *; exact IR. }
  destruct V as (v & E & V & IO).
  assert (Q : exists r m', set_element_from_tuple cv d pa m o d_in pa_in m_in o_in inc = Ok (r, m') /\ is_set_to d pa m o t (integer_datum t z) inc r m').
  { assert (NV : t_variable t = false). { pose proof (wf_spec t Wt) as [TV _]. rewrite TV. exact VS. }
    destruct (identical_value t t_in Wt Wti SN) as (s & _ & SS). destruct s.
    - destruct (C60_identical cv d pa m o inc t d_in pa_in m_in o_in t_in v CP (proj1 SS eq_refl) E) as (r & m' & E1 & ST & _). exists r, m'. split; [exact E1|].
      assert (A : alike t t_in) by (split; [exact Wt|split; [exact Wti|apply SS; reflexivity]]). destruct (alike_shares t t_in A) as (T & _).
      replace (integer_datum t z) with v; [exact ST|]. unfold integer_datum. rewrite T. destruct v; try discriminate; injection IO as ->; destruct V as [-> _]; reflexivity.
    - assert (ND : ~ same_description false t t_in) by (intro K; apply SS in K; discriminate).
      destruct (C60_numerals cv d pa m o inc t d_in pa_in m_in o_in t_in v CP P1 P2 ND E) as (c & EC & K).
      unfold type_cast in EC. replace (is_datum_NULL v) with false in EC by (destruct v; try discriminate; reflexivity).
      rewrite (integer_member_value t_in v z V IO) in EC. cbn [bind] in EC. unfold integer_type, numeral_type_ok in *. unfold integer_datum.
      destruct (type t) eqn:T; try contradiction; match type of EC with Ok ?a = Ok c => assert (c = a) as -> by congruence end; destruct K as (r & m' & E1 & ST); exists r, m'; (split; [exact E1|]);
        (refine (is_set_to_ext _ _ _ _ _ _ _ _ _ _ NV _ _ _ ST); [discriminate|discriminate|]); intros y; cbn [reads_back num_of]; rewrite T; intros ->; unfold wrap_u, wrap_s; rewrite ?pow256 by lia;
        rewrite ?mod_mod_pow, ?mod_signed by lia; reflexivity. }
  destruct Q as (r & m' & E1 & ST). exists r, m'. split; [exact E1|]. split; [exact ST|]. intros R IN. destruct ST as (_ & _ & _ & _ & RB). destruct (RB R) as (y & OY & Y). exists y. split; [exact OY|].
  unfold integer_type, numeral_type_ok, in_range, integer_datum in *. destruct (type t) eqn:T; try contradiction; cbn [reads_back num_of] in Y; rewrite T in Y; subst y; cbn [integer_read]; f_equal; unfold wrap_u.
  - apply Z.mod_small. exact IN.
  - apply Z.mod_small. exact IN.
  - apply wrap_s_id; [lia|exact IN].
  - apply Z.mod_small. exact IN.
  - apply wrap_s_id; [lia|exact IN].
Qed.
Print Assumptions C60_integers.

Lemma zero_value d : numeral_type_ok d -> number_of (zero_datum d) = Some (integer 0) /\ is_value d (zero_datum d).
Proof.
  intro OK. split.
  - unfold zero_datum, numeral_type_ok in *. destruct (type d); try contradiction; try reflexivity. destruct OK as [->| ->]; reflexivity.
  - unfold zero_datum, numeral_type_ok in *. destruct (type d) eqn:T; try contradiction; cbn [is_value]; try (split; [exact T|]; split; [lia|]; apply Z.pow_pos_nonneg; lia).
    + split; [exact T|]. rewrite pow256, half_pow by lia. pose proof (Z.pow_pos_nonneg 2 (8 * size d - 1) ltac:(lia) ltac:(lia)). lia.
    + destruct OK as [S0|S0]; rewrite S0; cbn [Z.eqb Pos.eqb is_value]; (split; [exact T|]); (split; [exact S0|]); lia.
    + split; [exact T|]. rewrite pow256, half_pow by lia. pose proof (Z.pow_pos_nonneg 2 (8 * size d - 1) ltac:(lia) ltac:(lia)). lia.
Qed.
(** NULL is copied as NULL, and as zero when the target numeral has no NULL *)
Theorem C60_null cv d pa m o inc t d_in pa_in m_in o_in t_in : copying d pa m o inc t d_in pa_in m_in o_in t_in ->
  is_primitive_numeral t = true -> is_primitive_numeral t_in = true -> ~ same_description false t t_in -> observe d_in pa_in m_in o_in = Ok (Some ONull) ->
  exists r m', set_element_from_tuple cv d pa m o d_in pa_in m_in o_in inc = Ok (r, m')
  /\ (is_nullable t = true -> is_set_to d pa m o t DNull inc r m')
  /\ (is_nullable t = false -> exists w, number_of w = Some (integer 0) /\ is_value t w /\ is_set_to d pa m o t w inc r m').
Proof.
  intros CP P1 P2 ND OX. pose proof CP as (D & PO & RM & DI & PI & TI & TJ & SN & SNi).
  destruct (data_holds d m o D) as [bs H]. destruct (good_size _ _ (h_good _ _ _ _ H)) as (W & _). destruct (type_info_wf pa d t PO W TI) as [Wt _]. destruct (numeral_ok t Wt P1) as [OK VS].
  assert (E : get_value d_in pa_in m_in o_in = Ok (Some DNull)).
  { unfold observe in OX. rewrite TJ in OX. destruct (get_value d_in pa_in m_in o_in) as [[v|]|] eqn:E; try discriminate. cbn [bind] in OX.
    assert (K : obs_of t_in v = Ok ONull) by (destruct v; apply bind_inv in OX; destruct OX as (q & K1 & K2); congruence).
    destruct v; cbn [obs_of] in K; try discriminate; [reflexivity| |]; apply bind_inv in K; destruct K as (q & _ & K); try discriminate.
    apply bind_inv in K. destruct K as (q' & _ & K). discriminate. }
  destruct (C60_numerals cv d pa m o inc t d_in pa_in m_in o_in t_in DNull CP P1 P2 ND E) as (c & EC & K). unfold type_cast in EC. cbn [is_datum_NULL] in EC. injection EC as <-.
  destruct K as (r & m' & E1 & ST). exists r, m'. split; [exact E1|]. unfold is_nullable_type_info, is_variable_sized_type_info in ST. rewrite VS in ST. cbn [orb] in ST.
  split; intro N; rewrite N in ST; [exact ST|]. exists (zero_datum t). destruct (zero_value t OK) as [Z1 Z2]. auto.
Qed.
Print Assumptions C60_null.

Lemma widen_range b : 0 <= b < 2 ^ 32 -> 0 <= widen b < 2 ^ 64.
Proof.
  intro B. unfold widen. set (s := b / 2 ^ 31). set (e := (b / 2 ^ 23) mod 2 ^ 8). set (f := b mod 2 ^ 23).
  assert (S0 : 0 <= s <= 1) by (unfold s; lia). assert (E : 0 <= e < 256) by (unfold e; lia). assert (F : 0 <= f < 2 ^ 23) by (unfold f; lia). clearbody s e f.
  destruct (e =? 255) eqn:E255; [lia|]. destruct (e =? 0) eqn:E0; [|lia]. destruct (f =? 0) eqn:F0; [lia|].
  pose proof (Z.log2_spec f ltac:(lia)) as [L1 L2]. pose proof (Z.log2_nonneg f) as L0. set (k := Z.log2 f) in *.
  assert (K : k < 23) by (apply (Z.pow_lt_mono_r_iff 2); lia).
  rewrite Z.pow_succ_r in L2 by lia.
  assert (M : (f - 2 ^ k) * 2 ^ (52 - k) < 2 ^ 52).
  { replace (2 ^ 52) with (2 ^ k * 2 ^ (52 - k)) by (rewrite <- Z.pow_add_r by lia; f_equal; lia). apply Z.mul_lt_mono_pos_r; [apply Z.pow_pos_nonneg; lia|lia]. }
  pose proof (Z.mul_nonneg_nonneg (f - 2 ^ k) (2 ^ (52 - k)) ltac:(lia) ltac:(apply Z.pow_nonneg; lia)) as M0. set (q := (f - 2 ^ k) * 2 ^ (52 - k)) in *. clearbody q k. lia.
Qed.
(** a float is copied to a double without changing its value *)
Theorem C60_float_to_double cv d pa m o inc t d_in pa_in m_in o_in t_in b : copying d pa m o inc t d_in pa_in m_in o_in t_in ->
  type t = FLOAT -> size t = 8 -> type t_in = FLOAT -> size t_in = 4 -> observe d_in pa_in m_in o_in = Ok (Some (OFloat b)) ->
  exists r m', set_element_from_tuple cv d pa m o d_in pa_in m_in o_in inc = Ok (r, m')
  /\ (r = true <-> place_exists d pa m o)
  /\ (r = true -> exists b', observe d pa m' o = Ok (Some (ODouble b')) /\ double_number b' = float_number b).
Proof.
  intros CP T S8 T' S4 OX. pose proof CP as (D & PO & RM & DI & PI & TI & TJ & SN & SNi).
  destruct (data_holds d m o D) as [bs H]. destruct (data_holds d_in m_in o_in DI) as [bi HI].
  destruct (good_size _ _ (h_good _ _ _ _ H)) as (W & _). destruct (type_info_wf pa d t PO W TI) as [Wt _].
  destruct (good_size _ _ (h_good _ _ _ _ HI)) as (Wi & _). destruct (type_info_wf pa_in d_in t_in PI Wi TJ) as [Wti _].
  assert (P1 : is_primitive_numeral t = true) by (unfold is_primitive_numeral; rewrite T; reflexivity).
  assert (P2 : is_primitive_numeral t_in = true) by (unfold is_primitive_numeral; rewrite T'; reflexivity).
  destruct (numeral_ok t Wt P1) as [OK VS].
  assert (NV : t_variable t = false). { pose proof (wf_spec t Wt) as [TV _]. rewrite TV. exact VS. }
  assert (V : get_value d_in pa_in m_in o_in = Ok (Some (DFloat b)) /\ is_value t_in (DFloat b)).
  { unfold observe in OX. destruct (get_value d_in pa_in m_in o_in) as [[v|]|] eqn:E; try discriminate. cbn [bind] in OX. rewrite TJ in OX.
    assert (K : obs_of t_in v = Ok (OFloat b)) by (destruct v; apply bind_inv in OX; destruct OX as (q & K1 & K2); congruence).
    destruct (source_value pa_in d_in m_in o_in bi t_in v PI HI TJ P2 E) as [->|[V NN]]; [cbn in K; discriminate|].
    destruct v; try contradiction; cbn [obs_of] in K; try discriminate. assert (bits = b) by congruence. subst. auto. }
  destruct V as (E & V). assert (ND : ~ same_description false t t_in).
  { intro K. assert (A : alike t t_in) by (split; [exact Wt|split; [exact Wti|exact K]]). destruct (alike_shares t t_in A) as (_ & _ & Sz & _). lia. }
  destruct (C60_numerals cv d pa m o inc t d_in pa_in m_in o_in t_in _ CP P1 P2 ND E) as (c & EC & K).
  destruct (C47_float_to_double cv t t_in b T S8 V) as (w & EC' & NW). rewrite EC in EC'. injection EC' as ->. destruct K as (r & m' & E1 & S1 & _ & _ & _ & RB).
  exists r, m'. split; [exact E1|]. split.
  - rewrite S1. unfold settable. rewrite NV. split; [tauto|]. intro X. split; [exact X|discriminate].
  - intro R. destruct (RB R) as (y & OY & Y). cbn [reads_back num_of] in Y. rewrite T, S8 in Y. cbn [Z.eqb Pos.eqb] in Y. subst y. exists (w mod 2 ^ 64). split; [exact OY|].
    assert (w = widen b) as -> by (unfold type_cast, integer_member in EC; rewrite T, T', S8, S4 in EC; cbn in EC; congruence).
    destruct V as (_ & _ & B). pose proof (widen_range b B). rewrite Z.mod_small by lia. apply widen_value. exact B.
Qed.
Print Assumptions C60_float_to_double.

(** everything else is refused and changes nothing *)
Theorem C60_refused cv d pa m o inc d_in pa_in m_in o_in : data_at d_in m_in o_in -> path_ok pa_in ->
  (observe d_in pa_in m_in o_in = Ok None \/ get_type_info d pa = None
   \/ exists t t_in, get_type_info d pa = Some t /\ get_type_info d_in pa_in = Some t_in /\ are_identical t t_in = Ok false
       /\ (is_primitive_numeral t = true -> is_primitive_numeral t_in = false)
       /\ ((type t = STRING \/ type t = BINARY) -> type t_in <> STRING /\ type t_in <> BINARY)) ->
  set_element_from_tuple cv d pa m o d_in pa_in m_in o_in inc = Ok (false, m).
Proof.
  intros DI PI K. destruct (data_holds d_in m_in o_in DI) as [bi HI]. unfold set_element_from_tuple.
  destruct (readable_place pa_in d_in m_in o_in bi PI HI) as (v & EV & _). rewrite EV. cbn [bind]. destruct K as [K|[K|(t & t_in & T1 & T2 & K1 & K2 & K3)]].
  - destruct v as [v|]; [|reflexivity]. exfalso. unfold observe in K. rewrite EV in K. cbn [bind] in K. destruct (get_type_info d_in pa_in), v; try discriminate; apply bind_inv in K; destruct K as (q & _ & K); discriminate.
  - rewrite K. destruct v; [|reflexivity]. destruct (get_type_info d_in pa_in); reflexivity.
  - rewrite T1, T2, K1. cbn [bind]. destruct v as [v|]; [|reflexivity]. destruct (is_primitive_numeral t) eqn:P; [rewrite (K2 eq_refl)|]; cbn [andb].
    + unfold is_primitive_numeral in P. destruct (type t); try discriminate; reflexivity.
    + destruct (type t), (type t_in) eqn:T'; try reflexivity; exfalso; destruct K3 as [X Y]; auto.
Qed.
Print Assumptions C60_refused.

(** ** The hypotheses are met *)
From Coq Require Import String.
Open Scope string_scope.
Open Scope list_scope.
Open Scope Z_scope.
Definition type_at (d : dti) (pa : list Z) : dti := match get_type_info d pa with Some t => t | None => d end.
Ltac shorty := vm_compute; repeat split; discriminate.
Ltac copyable := unfold copying; split; [first [apply data_e7|assumption]|]; split; [pathy|]; split; [first [roomy|split; [lia|]; intros Q; vm_compute in Q; discriminate]|];
  split; [first [apply data_e7|assumption]|]; split; [pathy|]; split; [vm_compute; reflexivity|]; split; [vm_compute; reflexivity|]; split; shorty.
Definition any : conversions := mk_conversions (fun _ _ _ => None) (fun z => z) (fun z => z) (fun z => z).
Definition copied (r : res (bool * mem)) (pas : list (list Z)) : list (res (option obs)) :=
  match r with Ok (true, m') => map (fun pa => observe exd pa m' 0) pas | _ => [] end.
(** the second pair of the array is copied over the first, which was NULL *)
Example C60_identical_example : copying exd [3; 0] e7 0 50 (type_at exd [3; 0]) exd [3; 1] e7 0 (type_at exd [3; 1])
  /\ same_description false (type_at exd [3; 0]) (type_at exd [3; 1]) /\ type (type_at exd [3; 0]) = TUPLE
  /\ copied (set_element_from_tuple any exd [3; 0] e7 0 exd [3; 1] e7 0 50) [[3; 0; 0]; [3; 0; 1]; [3; 1; 1]] = [Ok (Some (OUint 0)); Ok (Some (bytes_of "ab")); Ok (Some (bytes_of "ab"))].
Proof.
  split; [copyable|]. split; [|split; vm_compute; reflexivity].
  assert (W : wf exd) by (apply (built_finalized ex_type exd ex_type_built); reflexivity).
  assert (W' : wf (type_at exd [3; 0])) by (apply (type_info_wf [3; 0] exd); [pathy|exact W|vm_compute; reflexivity]).
  apply wf_sd_refl. exact W'.
Qed.
(** a string of at most 50 bytes replaces one of at most 300 *)
Example C60_strings_example : copying exd [1] e7 0 50 (type_at exd [1]) exd [3; 1; 1] e7 0 (type_at exd [3; 1; 1])
  /\ max_size (type_at exd [1]) = 300 /\ max_size (type_at exd [3; 1; 1]) = 50
  /\ copied (set_element_from_tuple any exd [1] e7 0 exd [3; 1; 1] e7 0 50) [[1]; [2]; [3; 1; 1]] = [Ok (Some (bytes_of "ab")); Ok (Some (OInt (-5))); Ok (Some (bytes_of "ab"))].
Proof. split; [copyable|]. split; [vm_compute; reflexivity|]. split; vm_compute; reflexivity. Qed.
(** -5 goes into an unsigned number of two bytes; back it is in range *)
Example C60_integers_example : copying exd [3; 1; 0] e7 0 50 (type_at exd [3; 1; 0]) exd [2] e7 0 (type_at exd [2])
  /\ integer_type (type_at exd [3; 1; 0]) /\ integer_type (type_at exd [2]) /\ observe exd [2] e7 0 = Ok (Some (OInt (-5)))
  /\ copied (set_element_from_tuple any exd [3; 1; 0] e7 0 exd [2] e7 0 50) [[3; 1; 0]; [2]] = [Ok (Some (OUint 65531)); Ok (Some (OInt (-5)))]
  /\ in_range (type_at exd [2]) 0
  /\ copied (set_element_from_tuple any exd [2] e7 0 exd [3; 1; 0] e7 0 50) [[3; 1; 0]; [2]] = [Ok (Some (OUint 0)); Ok (Some (OInt 0))].
Proof. split; [copyable|]. split; [exact I|]. split; [exact I|]. split; [vm_compute; reflexivity|]. split; [vm_compute; reflexivity|]. split; [vm_compute; intuition discriminate|vm_compute; reflexivity]. Qed.
(** NULL of a bit field goes into an integer with NULL, and one without *)
Example C60_null_example : copying exd [3; 1; 0] e7 0 50 (type_at exd [3; 1; 0]) exd [0] e7 0 (type_at exd [0])
  /\ copying exd [2] e7 0 50 (type_at exd [2]) exd [0] e7 0 (type_at exd [0])
  /\ is_nullable (type_at exd [3; 1; 0]) = false /\ is_nullable (type_at exd [2]) = true /\ observe exd [0] e7 0 = Ok (Some ONull)
  /\ copied (set_element_from_tuple any exd [3; 1; 0] e7 0 exd [0] e7 0 50) [[3; 1; 0]] = [Ok (Some (OUint 0))]
  /\ copied (set_element_from_tuple any exd [2] e7 0 exd [0] e7 0 50) [[2]] = [Ok (Some ONull)].
Proof. split; [copyable|]. split; [copyable|]. repeat (split; [vm_compute; reflexivity|]). vm_compute. reflexivity. Qed.
(** a string does not go into a number *)
Example C60_refused_example : are_identical (type_at exd [2]) (type_at exd [1]) = Ok false /\ is_primitive_numeral (type_at exd [1]) = false
  /\ set_element_from_tuple any exd [2] e7 0 exd [1] e7 0 50 = Ok (false, e7).
Proof. split; [vm_compute; reflexivity|]. split; vm_compute; reflexivity. Qed.
(** 1.5 as a float and as a double *)
Definition floats : dti := tup 100 [num FLOAT true 4; num FLOAT true 8].
Example floats_built : type_built floats.
Proof. unfold floats, tup, num. cbn [map]. build; congruence. Qed.
Definition fd : dti := final floats.
Definition f0 : mem := init0 fd (zmem 40).
Definition f1 : mem := TupleProps.get f0 (set_element fd [0] f0 0 (DFloat 1069547520) 0).
Example data_f0 : data_at fd f0 0.
Proof. apply init0_data; [apply floats_built|reflexivity|reflexivity|vm_compute; discriminate|vm_compute; discriminate]. Qed.
Example data_f1 : data_at fd f1 0.
Proof.
  eapply (da_set fd f0 0 [0] (DFloat 1069547520) 0); [apply data_f0|pathy|split; [lia|]; intros Q; vm_compute in Q; discriminate| | |vm_compute; reflexivity];
  [ intros t E; vm_compute in E; injection E as <-; vm_compute; intuition discriminate | intros; discriminate ].
Qed.
Example C60_float_example : copying fd [1] f1 0 0 (type_at fd [1]) fd [0] f1 0 (type_at fd [0]) /\ observe fd [0] f1 0 = Ok (Some (OFloat 1069547520))
  /\ match set_element_from_tuple any fd [1] f1 0 fd [0] f1 0 0 with Ok (true, m') => observe fd [1] m' 0 | _ => UB end = Ok (Some (ODouble 4609434218613702656))
  /\ double_number 4609434218613702656 = float_number 1069547520.
Proof. pose proof data_f1. split; [copyable|]. split; [vm_compute; reflexivity|]. split; vm_compute; reflexivity. Qed.
