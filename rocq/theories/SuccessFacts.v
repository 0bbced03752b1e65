(** * Success of set, expand and discard: lemmas *)
From Verif Require Export OpFacts SuccessSpec TupleProps.
From Coq Require Import ZifyBool ZifyNat ZifyN Zify.
Ltac Zify.zify_post_hook ::= Z.div_mod_to_equations.

Lemma element_at_det d pa m o t a : element_at d pa m o t a -> forall t' a', element_at d pa m o t' a' -> t' = t /\ a' = a.
Proof.
  induction 1 as [d m o|d i pa m o t a t1 a1 E EA IH]; intros t' a' EA'; inversion EA'; subst; [auto|].
  match goal with K : child d m o i = _ |- _ => rewrite E in K; injection K as <- <- end. auto.
Qed.
Lemma element_at_nil d m o t a : element_at d [] m o t a -> t = d /\ a = o.
Proof. inversion 1; auto. Qed.

Section Step.
  Variables (d : dti) (m : mem) (o i : Z) (t : dti) (a : Z).
  Hypothesis CH : child d m o i = Ok (Some (Some (t, a))).

  Lemma at_step pa t' a' : element_at d (i :: pa) m o t' a' <-> element_at t pa m a t' a'.
  Proof.
    split; intro E; [|econstructor; eauto]. inversion E; subst.
    match goal with K : child d m o i = _ |- _ => rewrite CH in K; injection K as <- <- end. assumption.
  Qed.
  Lemma place_step pa : pa <> [] -> place_exists d (i :: pa) m o <-> place_exists t pa m a.
  Proof.
    intro NE. split.
    - intros [E|(pb & j & t' & a' & n & E & EA & EC & L)]; [discriminate|]. destruct pb as [|k pb]; [injection E as <- E; congruence|].
      injection E as <- E. right. exists pb, j, t', a', n. split; [exact E|]. split; [apply at_step; exact EA|auto].
    - intros [E|(pb & j & t' & a' & n & E & EA & EC & L)]; [congruence|]. right. exists (i :: pb), j, t', a', n. split; [cbn; congruence|].
      split; [apply at_step; exact EA|auto].
  Qed.
  Lemma held_step pa s : pa <> [] -> bytes_held d (i :: pa) m o s <-> bytes_held t pa m a s.
  Proof.
    intro NE. unfold bytes_held. assert (GV : get_value d (i :: pa) m o = get_value t pa m a).
    { destruct pa as [|j pa]; [congruence|]. cbn [get_value]. rewrite CH. reflexivity. }
    rewrite GV. split; (intros [?|(t' & a' & EA & E)]; [auto|right; exists t', a'; split; [apply at_step; exact EA|exact E]]).
  Qed.
End Step.
Lemma place_single d m o i : place_exists d [i] m o <-> exists n, get_element_count d m o = Ok n /\ i < n.
Proof.
  split.
  - intros [E|(pb & j & t & a & n & E & EA & EC & L)]; [discriminate|]. destruct pb as [|k [|? ?]]; try discriminate. injection E as <-.
    apply element_at_nil in EA. destruct EA as [-> ->]. eauto.
  - intros (n & EC & L). right. exists [], i, d, o, n. repeat split; auto. constructor.
Qed.
Lemma no_place d m o i pa : pa <> [] -> (forall t a, child d m o i <> Ok (Some (Some (t, a)))) -> ~ place_exists d (i :: pa) m o.
Proof.
  intros NE NC [E|(pb & j & t & a & n & E & EA & _)]; [discriminate|]. destruct pb as [|k pb]; [injection E as <- E; congruence|].
  injection E as <- E. inversion EA; subst. eapply NC; eauto.
Qed.

Definition inner (d : dti) (s inc : Z) : Z := if is_variable_sized_ d then Z.min inc (max_size d - s) else inc.
Lemma growth_nil d m o inc g : growth_allowed d [] m o inc g <-> g <= inc.
Proof.
  split; [intros [H _]; exact H|]. intro H. split; [exact H|]. intros pb pc t a s E NE. destruct pb; [|discriminate]. cbn in E. congruence.
Qed.
Lemma growth_single d m o bs i inc g : holds d m o bs -> growth_allowed d [i] m o inc g <-> g <= inner d (zlen bs) inc.
Proof.
  intro H. destruct (good_size _ _ (h_good _ _ _ _ H)) as (W & _). pose proof (proj1 (wf_spec d W)) as TV. unfold inner. split.
  - intros [G1 G2]. destruct (is_variable_sized_ d) eqn:V; [|exact G1]. specialize (G2 [] [i] d o _ eq_refl ltac:(discriminate) (at_self _ _ _) TV (holds_size _ _ _ _ H)). lia.
  - intro G. split; [destruct (is_variable_sized_ d); lia|]. intros pb pc t a s E NE EA VT SZ.
    destruct pb as [|k [|? ?]]; try discriminate.
    + apply element_at_nil in EA. destruct EA as [-> ->]. rewrite (holds_size _ _ _ _ H) in SZ. injection SZ as <-. rewrite TV in VT. rewrite VT in G. lia.
    + injection E as <- E. congruence.
Qed.
Lemma growth_step d m o bs i t a pa inc g : holds d m o bs -> child d m o i = Ok (Some (Some (t, a))) ->
  growth_allowed d (i :: pa) m o inc g <-> growth_allowed t pa m a (inner d (zlen bs) inc) g.
Proof.
  intros H CH. destruct (good_size _ _ (h_good _ _ _ _ H)) as (W & _). pose proof (proj1 (wf_spec d W)) as TV. unfold inner. split.
  - intros [G1 G2]. split.
    + destruct (is_variable_sized_ d) eqn:V; [|exact G1]. specialize (G2 [] (i :: pa) d o _ eq_refl ltac:(discriminate) (at_self _ _ _) TV (holds_size _ _ _ _ H)). lia.
    + intros pb pc t' a' s E NE EA. apply (G2 (i :: pb) pc); [cbn; congruence|exact NE|]. eapply at_child; eauto.
  - intros [G1 G2]. split; [destruct (is_variable_sized_ d); lia|]. intros pb pc t' a' s E NE EA VT SZ. destruct pb as [|k pb].
    + apply element_at_nil in EA. destruct EA as [-> ->]. rewrite (holds_size _ _ _ _ H) in SZ. injection SZ as <-. rewrite TV in VT. rewrite VT in G1. lia.
    + injection E as <- E. apply (G2 pb pc t' a'); auto. apply (at_step d m o i t a CH). exact EA.
Qed.

Lemma acceptable_size t s s' inc : 0 <= s < 4294967296 -> 0 <= s' < 4294967296 ->
  size_acceptable t s s' inc = true <-> s' <= max_size t /\ (s < s' -> s' - s <= inc).
Proof.
  intros S S'. unfold size_acceptable. destruct (s <? s') eqn:L.
  - rewrite u32_id by lia. lia.
  - lia.
Qed.
Lemma needed_bytes t v s : wf t -> is_variable_sized_ t = true -> is_datum_NULL v = false -> fits t v -> points_good t v ->
  bytes_needed t v s <-> s = zlen (sbytes t v []).
Proof.
  intros W V NN FT PG. pose proof (wf_node t W) as (_ & _ & MS & _ & _ & _ & N). pose proof (wf_spec t W) as [TV TS].
  pose proof (vs_range t) as VS.
  unfold sbytes, bytes_needed. destruct v; try discriminate; cbn in FT.
  - rewrite TS. destruct (type t) eqn:T; try (destruct N; congruence); rewrite ?V.
    + destruct (string_layout t W (or_introl T)) as (_ & _ & _ & LV & _). destruct (LV V) as [_ SZ]. cbn. rewrite app_nil_r, zlen_enc_vs. rewrite SZ. lia.
    + destruct (string_layout t W (or_intror T)) as (_ & _ & _ & LV & _). destruct (LV V) as [_ SZ]. cbn. rewrite app_nil_r, zlen_enc_vs. rewrite SZ. lia.
    + rewrite zlen_min_data by (auto; unfold is_bit_field; rewrite T; reflexivity). lia.
    + rewrite zlen_min_data by (auto; unfold is_bit_field; rewrite T; reflexivity). lia.
  - rewrite FT in N. destruct N; congruence.
  - rewrite FT in N. destruct N; congruence.
  - rewrite FT in N. destruct N; congruence.
  - destruct FT as [FT _]. rewrite FT in N. destruct N; congruence.
  - destruct FT as [FT _]. rewrite FT in N. destruct N; congruence.
  - rewrite FT in N. destruct N; congruence.
  - rewrite FT in N. destruct N; congruence.
  - destruct FT as [[T|T] _]; rewrite T, V; rewrite zlen_app, zlen_enc_vs; lia.
  - destruct PG as (s0 & P1 & P2 & P3 & P4 & P5). rewrite P3. destruct FT as [T|T]; rewrite T; split; intro E; try (injection E as <-); congruence.
Qed.

Lemma nullable_eq t : wf t -> is_nullable_type_info t = nullable t.
Proof.
  intro W. rewrite nullable_cases. unfold needs_is_valid_bit, nullable, is_variable_sized_type_info. rewrite (proj1 (wf_spec t W)).
  destruct (is_variable_sized_ t), (is_nullable t); reflexivity.
Qed.
Lemma datum_not_null d m o : get_datum d m o <> Ok (Some DNull).
Proof.
  unfold get_datum. intro E. destruct (type d); try discriminate;
    try (apply bind_inv in E; destruct E as (x & _ & E); try discriminate; try (destruct (size d =? 4); discriminate); apply bind_inv in E; destruct E as (y & _ & E); discriminate).
Qed.
Lemma held_self d m o bs s : holds d m o bs -> bytes_held d [] m o s <-> s = zlen bs.
Proof.
  intro H. split.
  - intros [[E _]|(t & a & EA & E)]; [exfalso; apply (datum_not_null d m o E)|]. apply element_at_nil in EA. destruct EA as [-> ->]. rewrite (holds_size _ _ _ _ H) in E. congruence.
  - intros ->. right. exists d, o. split; [constructor|apply (holds_size _ _ _ _ H)].
Qed.
(** an element of a container *)
Lemma held_element d m o (bs : list byte) es i e s : container d -> cv d m o (zlen bs) es -> 0 <= i -> nth_error es (Z.to_nat i) = Some e ->
  (forall c, e = CBytes c -> good (etype d i) c) ->
  is_variable_sized_ (etype d i) = true -> bytes_held d [i] m o s <-> s = clen (etype d i) e.
Proof.
  intros CT V I En GE Vi. pose proof (child_ok d m o _ es i e CT V I En) as CH. pose proof (value_step d m o _ es i e [] CT V I En) as VA.
  unfold clen. rewrite Vi. destruct e as [|z|c]; cbn [ptr_of] in CH.
  - split; [|intros ->; left; auto]. intros [[_ E]|(t & a & EA & _)]; [exact E|]. inversion EA; subst. congruence.
  - pose proof (cv_el _ _ _ _ _ V i _ I En) as (_ & B & _). pose proof (znth_some _ _ _ En).
    destruct (eslot_var 0 _ (cv_etype_wf d m o _ es i CT V ltac:(lia)) Vi) as (B' & _). congruence.
  - pose proof (child_holds d m o bs es i c CT V I En (GE c eq_refl)) as Hc. split.
    + intros [[E _]|(t & a & EA & E)].
      * rewrite VA in E. cbn [get_value] in E. exfalso. apply (datum_not_null _ _ _ E).
      * apply (at_step d m o i _ _ CH) in EA. apply element_at_nil in EA. destruct EA as [-> ->]. rewrite (holds_size _ _ _ _ Hc) in E. congruence.
    + intros ->. right. exists (etype d i), (addr d (zlen es) m o i). split; [apply (at_step d m o i _ _ CH); constructor|apply (holds_size _ _ _ _ Hc)].
Qed.

(** [can_set_datum] on data of variable size, in any buffer *)
Lemma can_set_present t m a bs inc v : holds t m a bs -> is_variable_sized_ t = true -> is_datum_NULL v = false -> fits t v -> points_good t v ->
  can_set_datum t m a true inc v = Ok (size_acceptable t (zlen bs) (zlen (sbytes t v [])) inc) /\ 0 <= zlen (sbytes t v []) < 4294967296.
Proof.
  intros H Vt NN FT PG. destruct (good_size _ _ (h_good _ _ _ _ H)) as (W & _). pose proof (zlen_nonneg (sbytes t v [])) as ZN.
  set (m2 := bs ++ zeros (zlen (sbytes t v []))).
  assert (Z2 : zlen m2 = zlen bs + zlen (sbytes t v [])) by (unfold m2; rewrite zlen_app, zlen_zeros; lia). pose proof (zlen_nonneg bs).
  assert (H2 : holds t m2 0 bs). { constructor; try lia; [|apply (h_good _ _ _ _ H)]. unfold m2. rewrite slice_app_l by lia. apply slice_all; reflexivity. }
  destruct (set_datum_var t m2 0 true inc v (zlen bs) W Vt NN FT PG ltac:(lia) (holds_size _ _ _ _ H2) ltac:(lia)) as (_ & E & _ & R).
  split; [|exact R]. rewrite <- E. apply can_set_datum_local. intros _. rewrite (holds_size _ _ _ _ H), (holds_size _ _ _ _ H2). reflexivity.
Qed.
Lemma can_set_absent t m a inc v : wf t -> is_variable_sized_ t = true -> is_datum_NULL v = false -> fits t v -> points_good t v ->
  can_set_datum t m a false inc v = Ok (size_acceptable t 0 (zlen (sbytes t v [])) inc) /\ 0 <= zlen (sbytes t v []) < 4294967296.
Proof.
  intros W Vt NN FT PG. pose proof (zlen_nonneg (sbytes t v [])) as ZN.
  destruct (set_datum_var t (zeros (zlen (sbytes t v []))) 0 false inc v 0 W Vt NN FT PG ltac:(lia) eq_refl) as (_ & E & _ & R); [rewrite zlen_zeros; lia|].
  split; [|exact R]. rewrite <- E. apply can_set_datum_local. discriminate.
Qed.
Lemma good_len t bs : good t bs -> 0 <= zlen bs < 4294967296.
Proof.
  intro G. destruct (good_size _ _ G) as (W & B & G3 & G4 & G5 & G6). pose proof (zlen_nonneg bs). pose proof (wf_node t W) as (_ & _ & MSD & _). unfold max_bytes in *. lia.
Qed.

Definition can_set_step d i pa m o v inc : pa <> [] -> can_set_element d (i :: pa) m o v inc =
      if negb (is_container_type_info d) then Ok false
      else
        let* n := get_element_count d m o in
        if n <=? i then Ok false
        else
          let* inc' := if is_variable_sized_type_info d
                       then let* sz := get_size d m o in Ok (Z.min inc (u32 (max_size d - sz)))
                       else Ok inc in
          let* pi := get_pos d m o i in
          let* c := get_ptr d m o pi in
          match c with
          | None => Ok false
          | Some a => can_set_element (pi_type pi) pa m a v inc'
          end.
Proof. destruct pa; [congruence|reflexivity]. Qed.

Lemma settable_step d i pa m o t1 a t v inc inc' bs : pa <> [] -> holds d m o bs -> child d m o i = Ok (Some (Some (t1, a))) -> inc' = inner d (zlen bs) inc ->
  settable d (i :: pa) m o t v inc <-> settable t1 pa m a t v inc'.
Proof.
  intros NE H CH ->. unfold settable. rewrite (place_step d m o i t1 a CH pa NE).
  assert (R : (t_variable t = true -> exists s s', bytes_held d (i :: pa) m o s /\ bytes_needed t v s' /\ resizable d (i :: pa) m o inc t s s')
    <-> (t_variable t = true -> exists s s', bytes_held t1 pa m a s /\ bytes_needed t v s' /\ resizable t1 pa m a (inner d (zlen bs) inc) t s s')).
  { split; intros K VT; destruct (K VT) as (s & s' & A & B & C & E); exists s, s'; (split; [apply (held_step d m o i t1 a CH pa s NE); exact A|]); (split; [exact B|]); (split; [exact C|]);
      intro L; specialize (E L); apply (growth_step d m o bs i t1 a pa inc _ H CH); exact E. }
  destruct v; try (rewrite R; reflexivity). split; intros [A [B C]]; (split; [exact A|split; [congruence|exact C]]).
Qed.

Theorem can_set_exact pa : forall d m o bs inc v t, path_ok pa -> holds d m o bs -> get_type_info d pa = Some t -> fits t v -> points_good t v -> 0 <= inc < 4294967296 ->
  forall r, can_set_element d pa m o v inc = Ok r -> r = true <-> settable d pa m o t v inc.
Proof.
  induction pa as [|i pa IH]; intros d m o bs inc v t PO H TI FT PG Hinc r E.
  - cbn [get_type_info] in TI. injection TI as <-. cbn [can_set_element] in E. destruct (good_size _ _ (h_good _ _ _ _ H)) as (W & Bd & _).
    pose proof (good_len _ _ (h_good _ _ _ _ H)) as GL.
    assert (NE : is_datum_NULL v = false -> settable d [] m o d v inc <-> (t_variable d = true -> exists s s', bytes_held d [] m o s /\ bytes_needed d v s' /\ resizable d [] m o inc d s s')).
    { intro NN. unfold settable. destruct v; try discriminate; (split; [intros [_ K]; exact K|intro K; split; [left; reflexivity|exact K]]). }
    destruct (is_datum_NULL v) eqn:NN.
    + destruct v; try discriminate. injection E as <-. split; [discriminate|]. intros [_ [K _]]. congruence.
    + rewrite (NE eq_refl). pose proof (proj1 (wf_spec d W)) as TV. rewrite TV. destruct (is_variable_sized_ d) eqn:Vd.
      * destruct (can_set_present d m o bs inc v H Vd NN FT PG) as [E2 R]. rewrite E2 in E. injection E as <-. rewrite acceptable_size by lia.
        split.
        -- intros [A B] _. exists (zlen bs), (zlen (sbytes d v [])). split; [apply (held_self _ _ _ _ _ H); reflexivity|]. split; [apply needed_bytes; auto|].
           split; [exact A|]. intro L. apply growth_nil. auto.
        -- intro K. destruct (K eq_refl) as (s & s' & A & B & C & D). apply (held_self _ _ _ _ _ H) in A. apply needed_bytes in B; auto. subst. split; [exact C|].
           intro L. specialize (D L). apply growth_nil in D. exact D.
      * assert (E1 : can_set_datum d m o true inc v = Ok true).
        { unfold can_set_datum. rewrite NN. change (is_variable_sized_type_info d) with (is_variable_sized_ d). rewrite Vd. cbn [negb]. unfold is_bit_field in Bd. destruct (type d); try discriminate; reflexivity. }
        rewrite E1 in E. injection E as <-. split; [discriminate|reflexivity].
  - pose proof (Forall_inv PO) as I. pose proof (Forall_inv_tail PO) as PO'. cbn beta in I. destruct (good_size _ _ (h_good _ _ _ _ H)) as (W & _).
    cbn [get_type_info] in TI. destruct (containee_type_without_data d i) as [t1|] eqn:E1; [|discriminate].
    destruct (ctype_inv d i t1 E1 I W) as (C & -> & Wt & VU & _). destruct (holds_cv d m o bs H C) as (es & CT & V & Vb & GE).
    destruct (zlen es <=? i) eqn:LE.
    + assert (r = false) as ->. { destruct pa; cbn [can_set_element] in E; unfold can_set_containee in E; rewrite C, (cv_get_count d m o _ es CT V) in E; cbn [negb bind] in E; rewrite LE in E; congruence. }
      split; [discriminate|]. intros [P _]. exfalso. destruct pa as [|j pa].
      * apply place_single in P. destruct P as (n & EC & L). rewrite (cv_get_count d m o _ es CT V) in EC. injection EC as <-. lia.
      * revert P. apply no_place; [discriminate|]. intros t2 a2. rewrite (child_none d m o _ es i CT V) by lia. discriminate.
    + destruct (znth_lt es i ltac:(lia)) as [e En]. pose proof (child_ok d m o _ es i e CT V ltac:(lia) En) as CH.
      destruct (pos_spec d (zlen es) i W C (cv_n _ _ _ _ _ V) ltac:(lia)) as (Q1 & _).
      assert (GEi : forall c, e = CBytes c -> good (etype d i) c) by (intros c ->; apply GE; auto; lia).
      pose proof (cv_max _ _ _ _ _ V) as MX. pose proof (wf_node d W) as (_ & _ & MSD & _). unfold max_bytes in MSD. pose proof (zlen_nonneg bs) as ZB.
      destruct pa as [|j pa].
      * cbn [get_type_info] in TI. injection TI as <-. set (t := etype d i) in *. cbn [can_set_element] in E. unfold can_set_containee in E.
        rewrite C, (cv_get_count d m o _ es CT V) in E. cbn [negb bind] in E. rewrite LE, (cv_pos d m o _ es i CT V) in E by lia. cbn [bind] in E. rewrite Q1 in E. fold t in E.
        assert (PL : place_exists d [i] m o) by (apply place_single; exists (zlen es); split; [apply (cv_get_count d m o _ es CT V)|lia]).
        destruct (is_datum_NULL v) eqn:NN.
        { destruct v; try discriminate. injection E as <-. rewrite nullable_eq by exact Wt. unfold settable. split; [intro N; split; [exact PL|split; [discriminate|exact N]]|intros (_ & _ & N); exact N]. }
        assert (NE : settable d [i] m o t v inc <-> (t_variable t = true -> exists s s', bytes_held d [i] m o s /\ bytes_needed t v s' /\ resizable d [i] m o inc t s s')).
        { unfold settable. destruct v; try discriminate; (split; [intros [_ K]; exact K|intro K; split; [exact PL|exact K]]). }
        rewrite NE. pose proof (proj1 (wf_spec t Wt)) as TV. rewrite TV. change (is_variable_sized_type_info t) with (is_variable_sized_ t) in E.
        destruct (is_variable_sized_ t) eqn:Vt; cbn [negb] in E; [|injection E as <-; split; [discriminate|reflexivity]].
        specialize (VU eq_refl). specialize (MX VU). rewrite (cv_get_size d m o _ es CT V) in E. cbn [bind] in E. rewrite u32_id in E by lia.
        assert (IN : inner d (zlen bs) inc = Z.min inc (max_size d - zlen bs)) by (unfold inner; rewrite VU; reflexivity).
        rewrite (cv_get_ptr d m o _ es i e CT V ltac:(lia) En) in E. cbn [bind] in E.
        assert (AC : r = size_acceptable t (clen t e) (zlen (sbytes t v [])) (inner d (zlen bs) inc) /\ 0 <= zlen (sbytes t v []) < 4294967296 /\ 0 <= clen t e < 4294967296).
        { rewrite IN. unfold clen. rewrite Vt. destruct e as [|z|c]; cbn [ptr_of] in E.
          - destruct (can_set_absent t m (o + zlen bs) (Z.min inc (max_size d - zlen bs)) v Wt Vt NN FT PG) as [E2 R]. rewrite E2 in E. split; [congruence|]. split; [exact R|lia].
          - pose proof (cv_el _ _ _ _ _ V i _ ltac:(lia) En) as (_ & B & _). fold t in B. destruct (eslot_var 0 _ Wt Vt) as (B' & _). congruence.
          - pose proof (child_holds d m o bs es i c CT V ltac:(lia) En (GEi c eq_refl)) as Hc. fold t in Hc.
            destruct (can_set_present t m _ c (Z.min inc (max_size d - zlen bs)) v Hc Vt NN FT PG) as [E2 R]. rewrite E2 in E. split; [congruence|]. split; [exact R|apply (good_len t); auto]. }
        destruct AC as (-> & R1 & R2). rewrite acceptable_size by lia.
        pose proof (fun s => held_element d m o bs es i e s CT V ltac:(lia) En GEi Vt) as HE. fold t in HE.
        split.
        -- intros [A B] _. exists (clen t e), (zlen (sbytes t v [])). split; [apply HE; reflexivity|]. split; [apply needed_bytes; auto|].
           split; [exact A|]. intro L. apply (growth_single d m o bs i inc _ H). auto.
        -- intro K. destruct (K eq_refl) as (s & s' & A & B & D1 & D2). apply HE in A. apply needed_bytes in B; auto. subst. split; [exact D1|].
           intro L. specialize (D2 L). apply (growth_single d m o bs i inc _ H) in D2. exact D2.
      * remember (j :: pa) as pa' eqn:EP. assert (NE : pa' <> []) by (rewrite EP; discriminate). rewrite (can_set_step d i pa' m o v inc NE) in E.
        rewrite C, (cv_get_count d m o _ es CT V) in E. cbn [negb bind] in E. rewrite LE in E.
        destruct (inner_inc d m o bs inc H Hinc) as (inc' & EI & I1 & I2). rewrite EI in E. cbn [bind] in E.
        rewrite (cv_pos d m o _ es i CT V) in E by lia. cbn [bind] in E. rewrite (cv_get_ptr d m o _ es i e CT V ltac:(lia) En), Q1 in E. cbn [bind] in E.
        assert (IN : inc' = inner d (zlen bs) inc).
        { unfold inner. destruct (is_variable_sized_ d) eqn:Vd; [apply I2; reflexivity|]. change (is_variable_sized_type_info d) with (is_variable_sized_ d) in EI. rewrite Vd in EI. congruence. }
        destruct e as [|z|c]; cbn [ptr_of] in E, CH.
        -- injection E as <-. split; [discriminate|]. intros [P _]. exfalso. revert P. apply no_place; [exact NE|]. intros t2 a2. rewrite CH. discriminate.
        -- exfalso. pose proof (cv_el _ _ _ _ _ V i _ ltac:(lia) En) as (_ & B & _). apply is_bit_field_spec in B. rewrite EP in TI. cbn [get_type_info] in TI.
           unfold containee_type_without_data, is_container_type_info in TI. rewrite B in TI. discriminate.
        -- pose proof (child_holds d m o bs es i c CT V ltac:(lia) En (GEi c eq_refl)) as Hc.
           rewrite (IH (etype d i) m _ c inc' v t PO' Hc TI FT PG ltac:(lia) r E). symmetry. eapply settable_step; eauto.
Qed.

(** ** expand *)
Lemma can_expand_exact d m o bs n index slots inc : holds d m o bs -> is_variable_element_count d = true -> get_element_count d m o = Ok n ->
  0 <= index -> 0 <= inc < 4294967296 -> expand_limits d (zlen bs) n slots ->
  forall r, can_expand d m o index slots inc = Ok r ->
    r = true <-> index <= n /\ (slots = 0 \/ resizable d [] m o inc d (zlen bs) (expanded_size d (zlen bs) n slots)).
Proof.
  intros H VC GC HI Hinc LIM r E. destruct (vcount_container d VC) as [C _]. destruct (holds_cv d m o bs H C) as (es & CT & V & _ & _).
  rewrite (cv_get_count d m o _ es CT V) in GC. injection GC as <-.
  pose proof CT as [W _]. pose proof (cv_bounds d m o _ es CT V) as B. pose proof (zlen_nonneg es) as Zn. pose proof (arr_wf d CT VC) as Wc.
  pose proof (pbo_range d) as (P1 & _). pose proof (vs_range d) as VS. pose proof (zlen_nonneg bs) as ZB.
  destruct (prefix_spec d CT) as (_ & _ & PX). pose proof (good_len _ _ (h_good _ _ _ _ H)) as GL.
  unfold can_expand, expand_plan in E. rewrite VC in E. cbn [negb] in E. rewrite (cv_get_count d m o _ es CT V) in E. cbn [bind] in E.
  unfold expanded_size. set (c := containee d) in *. set (n := zlen es) in *.
  pose proof (ebits_parts _ Wc) as (EP1 & EP2 & EP3 & EP4). pose proof (eslot_range (max_size d) _ Wc) as ES0. pose proof (ebits_range _ Wc) as EB0.
  destruct LIM as (LS & LB & LF). fold c in LB, LF. unfold bytes_of_bits in *.
  pose proof (wf_spec c Wc) as [TV TS]. rewrite TV, TS, PX.
  assert (BB : bits_in_bitmap c = ebits c).
  { unfold bits_in_bitmap, validity_bits, ebits, needs_is_valid_bit, is_variable_sized_type_info. rewrite TV. destruct (negb (is_variable_sized_ c) && is_nullable c); reflexivity. }
  assert (SS : slot_bytes (max_size d) c (size c) = eslot (max_size d) c) by (unfold slot_bytes, eslot; rewrite TV; reflexivity).
  rewrite BB, SS in *. change ((((n + slots) * ebits c) + 7) / 8) with (bitmap_size_in_bytes ((n + slots) * ebits c)) in *.
  change (((n * ebits c) + 7) / 8) with (bitmap_size_in_bytes (n * ebits c)) in *.
  assert (NK0 : 0 <= (n + slots) * ebits c) by (apply Z.mul_nonneg_nonneg; lia). pose proof (bitmap_nonneg _ NK0) as BN.
  assert (NS0 : 0 <= (n + slots) * eslot (max_size d) c) by (apply Z.mul_nonneg_nonneg; lia).
  assert (TOT : zlen bs = FS d n + vsum c es) by (rewrite (cv_tot _ _ _ _ _ V) at 1; fold n; rewrite (arr_vtot d VC); reflexivity).
  assert (LB' : pbo d + bitmap_size_in_bytes ((n + slots) * ebits c) + (n + slots) * eslot (max_size d) c + vsum c es < 4294967296).
  { rewrite TOT, (arr_FS d VC) in LB. fold c in LB. lia. }
  pose proof (vsum_nonneg c es) as VSN. clear LB. rename LB' into LB.
  assert (V256 : 256 ^ vs d <= 4294967296) by (change 4294967296 with (256 ^ 4); apply Z.pow_le_mono_r; lia).
  assert (NN : n + slots < 4294967296).
  { destruct (is_bit_field c) eqn:Bc; [specialize (LF eq_refl); lia|]. pose proof (arr_eslot d CT VC Bc) as E1. fold c in E1.
    assert ((n + slots) * 1 <= (n + slots) * eslot (max_size d) c) by (apply Z.mul_le_mono_nonneg_l; lia). lia. }
  replace (4294967295 <? slots + n) with false in E by lia.
  destruct (n <? index) eqn:CI; [injection E as <-; split; [discriminate|]; intros [A _]; lia|].
  destruct (slots =? 0) eqn:CS; [injection E as <-; split; [intros _; split; [lia|left; lia]|reflexivity]|].
  rewrite (cv_get_size d m o _ es CT V) in E. cbn [bind] in E. rewrite (u32_id (n + slots)) in E by lia.
  match type of E with context[size_acceptable d (zlen bs) ?x inc] => set (ns := x) in * end.
  match goal with |- context[resizable d [] m o inc d (zlen bs) ?x] => set (s' := x) end.
  assert (NS : ns = s' /\ 0 <= s' < 4294967296).
  { unfold ns, s'. destruct (is_bit_field c) eqn:Bc.
    - pose proof Bc as Bc'. apply is_bit_field_spec in Bc'. rewrite Bc'. rewrite <- EP1. specialize (LF eq_refl).
      assert (Sz : eslot (max_size d) c = 0) by (unfold eslot; rewrite Bc; reflexivity). rewrite Sz, Z.mul_0_r in *.
      assert (Vc : is_variable_sized_ c = false). { destruct (is_variable_sized_ c) eqn:Vc; [|reflexivity]. destruct (eslot_var (max_size d) _ Wc Vc) as (X & _). congruence. }
      rewrite Vc. assert ((n + slots) * ebits c <= 279172874240) by (apply mul65; lia).
      rewrite (u32_id (ebits c)) by lia. rewrite u64_id by lia. rewrite Z.mul_comm. rewrite u32_id by lia. lia.
    - assert (G : forall (x y : Z), match type c with BIT_FIELD => x | _ => y end = y) by (intros; unfold is_bit_field in Bc; destruct (type c); try discriminate; reflexivity).
      rewrite G. rewrite Z.add_0_r in EP1. change (is_variable_sized_type_info c) with (is_variable_sized_ c). destruct (is_variable_sized_ c) eqn:Vc; cbn [negb].
      + destruct (eslot_var (max_size d) _ Wc Vc) as (_ & Es & Nv & _). rewrite Es in *. rewrite Nv in EP1. cbn in EP1.
        assert (0 <= n * vs d) by (apply Z.mul_nonneg_nonneg; lia). assert (0 <= slots * vs d) by (apply Z.mul_nonneg_nonneg; lia).
        rewrite (Z.mul_add_distr_r n slots (vs d)) in LB. rewrite TOT, (arr_FS d VC). fold c. rewrite Es. assert (ebits c = 0) as -> by lia. rewrite Z.mul_0_r. change (bitmap_size_in_bytes 0) with 0. rewrite u32_id by lia. lia.
      + pose proof (eslot_fixed (max_size d) c Bc Vc) as Es. rewrite <- EP1, <- Es.
        assert ((n + slots) * ebits c <= n + slots) by (transitivity ((n + slots) * 1); [apply Z.mul_le_mono_nonneg_l; lia|lia]).
        rewrite (u32_id ((n + slots) * ebits c)) by lia. rewrite (Z.mul_comm (eslot (max_size d) c)). rewrite u32_id by lia. lia. }
  destruct NS as [NS R']. rewrite NS in E. clearbody ns s'. subst ns.
  assert (RQ : r = size_acceptable d (zlen bs) s' inc) by (destruct (size_acceptable d (zlen bs) s' inc); cbn [negb bind] in E; congruence).
  rewrite RQ, acceptable_size by lia. unfold resizable. split.
  - intros [A1 A2]. split; [lia|]. right. split; [exact A1|]. intro L. apply growth_nil. auto.
  - intros [_ [A|[A1 A2]]]; [lia|]. split; [exact A1|]. intro L. specialize (A2 L). apply growth_nil in A2. exact A2.
Qed.

Lemma expandable_step d i pa m o t1 a index slots inc bs : holds d m o bs -> child d m o i = Ok (Some (Some (t1, a))) ->
  expandable d (i :: pa) m o index slots inc <-> expandable t1 pa m a index slots (inner d (zlen bs) inc).
Proof.
  intros H CH. unfold expandable. split; intros (t & b & s & n & EA & SC & GS & GC & I & R); exists t, b, s, n; (split; [apply (at_step d m o i t1 a CH); exact EA|]); repeat (split; [assumption|]);
    (destruct R as [R|[R1 R2]]; [left; exact R|right; split; [exact R1|]; intro L; specialize (R2 L); apply (growth_step d m o bs i t1 a pa inc _ H CH); exact R2]).
Qed.
Lemma no_element d i pa m o : (forall t a, child d m o i <> Ok (Some (Some (t, a)))) -> forall t a, ~ element_at d (i :: pa) m o t a.
Proof. intros NC t a EA. inversion EA; subst. eapply NC; eauto. Qed.

Theorem can_expand_nested pa : forall d m o bs index slots inc t, path_ok pa -> holds d m o bs -> get_type_info d pa = Some t -> is_variable_element_count t = true ->
  0 <= index -> 0 <= inc < 4294967296 ->
  (forall t a s n, element_at d pa m o t a -> get_size t m a = Ok s -> get_element_count t m a = Ok n -> expand_limits t s n slots) ->
  forall r, can_expand_internal d pa m o index slots inc = Ok r -> r = true <-> expandable d pa m o index slots inc.
Proof.
  induction pa as [|i pa IH]; intros d m o bs index slots inc t PO H TI VC HI Hinc LIM r E.
  { cbn [get_type_info] in TI. injection TI as <-. cbn [can_expand_internal] in E. destruct (vcount_container d VC) as [C _].
    destruct (holds_cv d m o bs H C) as (es & CT & V & _ & _). pose proof (cv_get_count d m o _ es CT V) as GC. pose proof (holds_size _ _ _ _ H) as GS.
    rewrite (can_expand_exact d m o bs _ index slots inc H VC GC HI Hinc (LIM d o _ _ (at_self _ _ _) GS GC) r E). destruct (prefix_spec d CT) as (_ & SC & _). split.
    - intros [A R]. exists d, o, (zlen bs), (zlen es). repeat (split; [first [constructor|congruence|assumption]|]). exact R.
    - intros (t & a & s & n & EA & _ & GS' & GC' & A & R). apply element_at_nil in EA. destruct EA as [-> ->]. rewrite GS in GS'. injection GS' as <-. rewrite GC in GC'. injection GC' as <-. auto. }
  pose proof (Forall_inv PO) as I. pose proof (Forall_inv_tail PO) as PO'. cbn beta in I.
  destruct (good_size _ _ (h_good _ _ _ _ H)) as (W & _ & _ & SZ & SM & _).
  cbn [get_type_info] in TI. destruct (containee_type_without_data d i) as [t1|] eqn:E1; [|discriminate].
  destruct (ctype_inv d i t1 E1 I W) as (C & -> & Wt & VU & _).
  destruct (type_info_wf pa _ _ PO' Wt TI) as [Wt' VU']. destruct (vcount_container t VC) as [Ct Vt]. specialize (VU' Vt). specialize (VU VU'). specialize (SM VU).
  destruct (holds_cv d m o bs H C) as (es & CT & V & Vb & GE). pose proof (wf_node d W) as (_ & _ & MSD & _). unfold max_bytes in *. pose proof (zlen_nonneg bs).
  cbn [can_expand_internal] in E. rewrite C in E. cbn [negb] in E. rewrite (cv_get_count d m o _ es CT V) in E. cbn [bind] in E.
  assert (NOEL : (forall t a, child d m o i <> Ok (Some (Some (t, a)))) -> ~ expandable d (i :: pa) m o index slots inc).
  { intros NC (t' & a & s & n & EA & _). apply (no_element d i pa m o NC t' a EA). }
  destruct (zlen es <=? i) eqn:LE.
  { injection E as <-. split; [discriminate|]. intro X. exfalso. revert X. apply NOEL. intros t' a. rewrite (child_none d m o _ es i CT V) by lia. discriminate. }
  destruct (znth_lt es i ltac:(lia)) as [e En]. assert (I' : 0 <= i < zlen es) by lia.
  rewrite (cv_get_size d m o _ es CT V) in E. cbn [bind] in E. rewrite (u32_id (max_size d - zlen bs)) in E by lia.
  rewrite (cv_pos d m o _ es i CT V I') in E. cbn [bind] in E. rewrite (cv_get_ptr d m o _ es i e CT V ltac:(lia) En) in E. cbn [bind] in E.
  destruct (pos_spec d (zlen es) i W C (cv_n _ _ _ _ _ V) I') as (Q1 & _). rewrite Q1 in E.
  pose proof (child_ok d m o _ es i e CT V ltac:(lia) En) as CH.
  destruct e as [|z|c]; cbn [ptr_of] in E, CH.
  - injection E as <-. split; [discriminate|]. intro X. exfalso. revert X. apply NOEL. intros t' a. rewrite CH. discriminate.
  - exfalso. pose proof (cv_el _ _ _ _ _ V i _ ltac:(lia) En) as (_ & B & _). destruct (eslot_var (max_size d) _ Wt VU'). congruence.
  - assert (GC : good (etype d i) c) by (apply GE; auto; lia). pose proof (child_holds d m o bs es i c CT V ltac:(lia) En GC) as Hc.
    assert (IN : Z.min inc (max_size d - zlen bs) = inner d (zlen bs) inc) by (unfold inner; rewrite VU; reflexivity). rewrite IN in E.
    rewrite (expandable_step d i pa m o _ _ index slots inc bs H CH).
    apply (IH (etype d i) m _ c index slots _ t PO' Hc TI VC HI); auto; [rewrite <- IN; lia|].
    intros t' a s n EA. apply LIM. apply (at_step d m o i _ _ CH). exact EA.
Qed.

(** ** discard *)
Theorem can_discard_nested pa : forall d m o bs index slots t, path_ok pa -> holds d m o bs -> get_type_info d pa = Some t -> is_variable_element_count t = true ->
  forall r, can_discard_internal d pa m o index slots = Ok r -> r = true <-> discardable d pa m o index slots.
Proof.
  induction pa as [|i pa IH]; intros d m o bs index slots t PO H TI VC r E.
  { cbn [get_type_info] in TI. injection TI as <-. cbn [can_discard_internal] in E. destruct (vcount_container d VC) as [C _].
    destruct (holds_cv d m o bs H C) as (es & CT & V & _ & _). pose proof (cv_get_count d m o _ es CT V) as GC.
    destruct (prefix_spec d CT) as (_ & SC & _). unfold can_discard in E. rewrite VC, GC in E. cbn [negb bind] in E.
    assert (DQ : discardable d [] m o index slots <-> index < zlen es /\ index + slots <= zlen es).
    { split.
      - intros (t & a & n & EA & _ & GC' & A). apply element_at_nil in EA. destruct EA as [-> ->]. rewrite GC in GC'. injection GC' as <-. exact A.
      - intro A. exists d, o, (zlen es). repeat (split; [first [constructor|congruence|assumption]|]). exact A. }
    rewrite DQ. destruct (zlen es <=? index) eqn:L1; [injection E as <-; split; [discriminate|lia]|].
    destruct (zlen es - index <? slots) eqn:L2; injection E as <-; (split; [try discriminate; lia|try reflexivity; lia]). }
  pose proof (Forall_inv PO) as I. pose proof (Forall_inv_tail PO) as PO'. cbn beta in I.
  destruct (good_size _ _ (h_good _ _ _ _ H)) as (W & _).
  cbn [get_type_info] in TI. destruct (containee_type_without_data d i) as [t1|] eqn:E1; [|discriminate].
  destruct (ctype_inv d i t1 E1 I W) as (C & -> & Wt & VU & _).
  destruct (type_info_wf pa _ _ PO' Wt TI) as [Wt' VU']. destruct (vcount_container t VC) as [Ct Vt]. specialize (VU' Vt).
  destruct (holds_cv d m o bs H C) as (es & CT & V & Vb & GE). cbn [can_discard_internal] in E.
  assert (NOEL : (forall t a, child d m o i <> Ok (Some (Some (t, a)))) -> ~ discardable d (i :: pa) m o index slots).
  { intros NC (t' & a & n & EA & _). apply (no_element d i pa m o NC t' a EA). }
  destruct (zlen es <=? i) eqn:LE.
  { rewrite (child_none d m o _ es i CT V) in E by lia. injection E as <-. split; [discriminate|]. intro X. exfalso. revert X. apply NOEL. intros t' a. rewrite (child_none d m o _ es i CT V) by lia. discriminate. }
  destruct (znth_lt es i ltac:(lia)) as [e En]. pose proof (child_ok d m o _ es i e CT V ltac:(lia) En) as CH. rewrite CH in E. cbn [bind] in E.
  destruct e as [|z|c]; cbn [ptr_of] in E, CH.
  - injection E as <-. split; [discriminate|]. intro X. exfalso. revert X. apply NOEL. intros t' a. rewrite CH. discriminate.
  - exfalso. pose proof (cv_el _ _ _ _ _ V i _ ltac:(lia) En) as (_ & B & _). destruct (eslot_var (max_size d) _ Wt VU'). congruence.
  - assert (GC : good (etype d i) c) by (apply GE; auto; lia). pose proof (child_holds d m o bs es i c CT V ltac:(lia) En GC) as Hc.
    rewrite (IH (etype d i) m _ c index slots t PO' Hc TI VC r E). unfold discardable.
    split; intros (t' & a & n & EA & K); exists t', a, n; (split; [apply (at_step d m o i _ _ CH); exact EA|exact K]).
Qed.

(** ** sizes *)
Lemma element_type pa : forall d m o bs t a, path_ok pa -> holds d m o bs -> element_at d pa m o t a -> get_type_info d pa = Some t.
Proof.
  induction pa as [|i pa IH]; intros d m o bs t a PO H EA.
  - apply element_at_nil in EA. destruct EA as [-> ->]. reflexivity.
  - pose proof (Forall_inv PO) as I. pose proof (Forall_inv_tail PO) as PO'. cbn beta in I.
    inversion EA as [|d0 i0 pa0 m0 o0 t1 a1 t2 a2 CH EA2 X1 X2 X3 X4 X5 X6]; subst.
    assert (C : is_container_type_info d = true) by (unfold child in CH; destruct (is_container_type_info d); [reflexivity|discriminate]).
    destruct (holds_cv d m o bs H C) as (es & CT & V & _ & GE).
    assert (LE : i < zlen es). { destruct (Z.ltb_spec i (zlen es)); [assumption|]. rewrite (child_none d m o _ es i CT V) in CH by lia. discriminate. }
    destruct (znth_lt es i ltac:(lia)) as [e En]. rewrite (child_ok d m o _ es i e CT V ltac:(lia) En) in CH.
    rewrite (step_type d m o _ es i pa CT V) by lia. destruct e as [|z|c]; cbn [ptr_of] in CH; [discriminate| |].
    + injection CH as <- <-. pose proof (cv_el _ _ _ _ _ V i _ ltac:(lia) En) as (_ & B & _). destruct pa as [|j pa].
      * apply element_at_nil in EA2. destruct EA2 as [-> _]. reflexivity.
      * inversion EA2; subst. match goal with K : child _ _ _ _ = _ |- _ => unfold child, is_container_type_info in K; apply is_bit_field_spec in B; rewrite B in K; discriminate end.
    + injection CH as <- <-. eapply IH; eauto. apply (child_holds d m o bs es i c CT V ltac:(lia) En). apply GE; auto. lia.
Qed.
Lemma variable_part_from d m o (bs : list byte) es : container d -> cv d m o (zlen bs) es ->
  (forall i c, 0 <= i -> nth_error es (Z.to_nat i) = Some (CBytes c) -> good (etype d i) c) ->
  forall l i, 0 <= i -> (forall k e, nth_error l k = Some e -> nth_error es (Z.to_nat i + k)%nat = Some e) ->
  exists r, variable_part d m o i r /\ length r = length l /\ total r = vtot d i l.
Proof.
  intros CT V GE. induction l as [|e l IH]; intros i I SK.
  - exists []. split; [constructor|]. auto.
  - destruct (IH (i + 1) ltac:(lia)) as (r & VP & LR & TR). { intros k x Ek. specialize (SK (S k) x Ek). rewrite <- SK. f_equal. lia. }
    pose proof (SK O e eq_refl) as En. rewrite Nat.add_0_r in En. pose proof (znth_some _ _ _ En) as IL.
    exists (clen (etype d i) e :: r). split; [|split; [cbn; congruence|cbn [total vtot fold_right]; fold (total r); lia]].
    apply (vp_cons d m o i (etype d i)); [rewrite (step_type d m o _ es i [] CT V) by lia; reflexivity| |exact VP].
    rewrite (proj1 (wf_spec _ (cv_etype_wf d m o _ es i CT V ltac:(lia)))). destruct (is_variable_sized_ (etype d i)) eqn:Vi; [|unfold clen; rewrite Vi; reflexivity].
    apply (held_element d m o bs es i e _ CT V I En); auto. intros c ->. apply GE; auto.
Qed.
Lemma fixed_part_FS d n : container d -> count_ok d n -> fixed_part d n = FS d n.
Proof.
  intros CT CN. pose proof CT as [W C]. destruct (prefix_spec d CT) as (_ & _ & PX). unfold fixed_part.
  assert (TQ : type d = TUPLE \/ type d <> TUPLE) by (destruct (type d); (left; reflexivity) || (right; discriminate)). destruct TQ as [T|NT].
  - rewrite T. rewrite (proj2 (wf_spec d W)). apply fixed_tuple_part; auto.
  - destruct (wf_containee d W C NT) as [Wc _]. set (c := containee d) in *.
    pose proof (wf_spec c Wc) as [TV TS].
    assert (BB : bits_in_bitmap c = ebits c).
    { unfold bits_in_bitmap, validity_bits, ebits, needs_is_valid_bit, is_variable_sized_type_info. rewrite TV. destruct (negb (is_variable_sized_ c) && is_nullable c); reflexivity. }
    assert (SS : slot_bytes (max_size d) c (t_size c) = eslot (max_size d) c) by (unfold slot_bytes, eslot; rewrite TV, TS; reflexivity).
    assert (SB : sb d n = n * ebits c) by (unfold sb; destruct (type d); congruence || reflexivity).
    assert (SSs : ss d n = n * eslot (max_size d) c) by (unfold ss; destruct (type d); congruence || reflexivity).
    rewrite PX, BB, SS. unfold FS, so, bytes_of_bits. rewrite SB, SSs.
    destruct (type d); try congruence; reflexivity.
Qed.
Lemma no_gaps d m o bs : holds d m o bs -> is_container_type_info d = true ->
  exists n l, get_element_count d m o = Ok n /\ zlen l = n /\ variable_part d m o 0 l /\ get_size d m o = Ok (fixed_part d n + total l).
Proof.
  intros H C. destruct (holds_cv d m o bs H C) as (es & CT & V & _ & GE).
  destruct (variable_part_from d m o bs es CT V GE es 0 ltac:(lia)) as (l & VP & LL & TT); [intros k e E; exact E|].
  exists (zlen es), l. split; [apply (cv_get_count d m o _ es CT V)|]. split; [unfold zlen; congruence|]. split; [exact VP|].
  rewrite (holds_size _ _ _ _ H), fixed_part_FS, TT by (auto; apply (cv_n _ _ _ _ _ V)). rewrite <- (cv_tot _ _ _ _ _ V). reflexivity.
Qed.

(** ** the largest growth *)
Lemma max_increment pa : forall d m o bs inc, path_ok pa -> holds d m o bs -> 0 <= inc < 4294967296 ->
  exists g, max_size_increment d pa m o inc = Ok g /\ 0 <= g
    /\ (can_vary d pa m o -> forall k, k <= g <-> k <= inc /\ all_allow d pa m o k) /\ (~ can_vary d pa m o -> g = 0).
Proof.
  induction pa as [|i pa IH]; intros d m o bs inc PO H Hinc.
  - cbn [max_size_increment]. change (is_variable_sized_type_info d) with (is_variable_sized_ d). destruct (good_size _ _ (h_good _ _ _ _ H)) as (W & _ & _ & SZ & SM & _).
    pose proof (proj1 (wf_spec d W)) as TV. destruct (is_variable_sized_ d) eqn:Vd; cbn [negb].
    + specialize (SM eq_refl). rewrite (holds_size _ _ _ _ H). cbn [bind]. pose proof (wf_node d W) as (_ & _ & MSD & _). unfold max_bytes in *. rewrite u32_id by lia.
      eexists. split; [reflexivity|]. split; [lia|]. split.
      * intros _ k. split.
        -- intro K. split; [lia|]. intros pb pc t a s E EA GS. symmetry in E. apply app_eq_nil in E. destruct E as [-> _]. apply element_at_nil in EA. destruct EA as [-> ->].
           rewrite (holds_size _ _ _ _ H) in GS. injection GS as <-. lia.
        -- intros [K A]. specialize (A [] [] d o _ eq_refl (at_self _ _ _) (holds_size _ _ _ _ H)). lia.
      * intro N. exfalso. apply N. exists d, o. split; [constructor|exact TV].
    + exists 0. split; [reflexivity|]. split; [lia|]. split; [|auto]. intros (t & a & EA & VT). apply element_at_nil in EA. destruct EA as [-> _]. congruence.
  - pose proof (Forall_inv PO) as I. pose proof (Forall_inv_tail PO) as PO'. cbn beta in I. cbn [max_size_increment]. change (is_variable_sized_type_info d) with (is_variable_sized_ d).
    destruct (good_size _ _ (h_good _ _ _ _ H)) as (W & _ & _ & SZ & SM & _).
    assert (NOEL : (forall t a, child d m o i <> Ok (Some (Some (t, a)))) -> ~ can_vary d (i :: pa) m o).
    { intros NC (t & a & EA & _). apply (no_element d i pa m o NC t a EA). }
    assert (ZERO : ~ can_vary d (i :: pa) m o -> exists g, Ok 0 = Ok g /\ 0 <= g /\ (can_vary d (i :: pa) m o -> forall k, k <= g <-> k <= inc /\ all_allow d (i :: pa) m o k) /\ (~ can_vary d (i :: pa) m o -> g = 0)).
    { intro N. exists 0. split; [reflexivity|]. split; [lia|]. split; [intro K; contradiction|auto]. }
    destruct (is_variable_sized_ d) eqn:Vd; cbn [negb].
    2: { apply ZERO. intros (t & a & EA & VT). pose proof (element_type (i :: pa) d m o bs t a PO H EA) as TI.
         destruct (type_info_wf (i :: pa) d t PO W TI) as [Wt VU]. rewrite (proj1 (wf_spec t Wt)) in VT. specialize (VU VT). congruence. }
    specialize (SM eq_refl). rewrite (holds_size _ _ _ _ H). cbn [bind]. pose proof (wf_node d W) as (_ & _ & MSD & _). unfold max_bytes in *. rewrite u32_id by lia.
    assert (STEP : forall t a, child d m o i = Ok (Some (Some (t, a))) -> (can_vary d (i :: pa) m o <-> can_vary t pa m a)
      /\ forall k, (k <= inc /\ all_allow d (i :: pa) m o k) <-> (k <= Z.min inc (max_size d - zlen bs) /\ all_allow t pa m a k)).
    { intros t a CH. split.
      - split; intros (t' & a' & EA & VT); exists t', a'; (split; [apply (at_step d m o i t a CH); exact EA|exact VT]).
      - intro k. split.
        + intros [K A]. pose proof (A [] (i :: pa) d o _ eq_refl (at_self _ _ _) (holds_size _ _ _ _ H)). split; [lia|].
          intros pb pc t' a' s E EA. apply (A (i :: pb) pc t' a'); [cbn; congruence|]. apply (at_step d m o i t a CH). exact EA.
        + intros [K A]. split; [lia|]. intros pb pc t' a' s E EA GS. destruct pb as [|j pb].
          * apply element_at_nil in EA. destruct EA as [-> ->]. rewrite (holds_size _ _ _ _ H) in GS. injection GS as <-. lia.
          * injection E as <- E. apply (A pb pc t' a'); auto. apply (at_step d m o i t a CH). exact EA. }
    destruct (is_container_type_info d) eqn:C.
    2: { unfold child. rewrite C. cbn [negb bind]. apply ZERO, NOEL. intros t a. unfold child. rewrite C. discriminate. }
    destruct (holds_cv d m o bs H C) as (es & CT & V & _ & GE). destruct (zlen es <=? i) eqn:LE.
    { pose proof (child_none d m o _ es i CT V ltac:(lia)) as CH. rewrite CH. cbn [bind]. apply ZERO, NOEL. intros t a. rewrite CH. discriminate. }
    destruct (znth_lt es i ltac:(lia)) as [e En]. pose proof (child_ok d m o _ es i e CT V ltac:(lia) En) as CH. rewrite CH. cbn [bind].
    destruct e as [|z|c]; cbn [ptr_of] in *.
    + apply ZERO, NOEL. intros t a. rewrite CH. discriminate.
    + pose proof (cv_el _ _ _ _ _ V i _ ltac:(lia) En) as (_ & B & _). pose proof (cv_etype_wf d m o _ es i CT V ltac:(lia)) as Wt.
      assert (Vi : is_variable_sized_ (etype d i) = false). { destruct (is_variable_sized_ (etype d i)) eqn:Vi; [|reflexivity]. destruct (eslot_var 0 _ Wt Vi) as (B' & _). congruence. }
      assert (E0 : max_size_increment (etype d i) pa m (o + pbo d) (Z.min inc (max_size d - zlen bs)) = Ok 0).
      { destruct pa; cbn [max_size_increment]; change (is_variable_sized_type_info (etype d i)) with (is_variable_sized_ (etype d i)); rewrite Vi; reflexivity. }
      rewrite E0. apply ZERO. intros (t & a & EA & VT). pose proof (element_type (i :: pa) d m o bs t a PO H EA) as TI. rewrite (step_type d m o _ es i pa CT V) in TI by lia.
      destruct (type_info_wf pa _ t PO' Wt TI) as [Wt' VU]. rewrite (proj1 (wf_spec t Wt')) in VT. specialize (VU VT). congruence.
    + assert (GC : good (etype d i) c) by (apply GE; auto; lia). pose proof (child_holds d m o bs es i c CT V ltac:(lia) En GC) as Hc.
      destruct (STEP _ _ CH) as [S1 S2].
      destruct (IH (etype d i) m _ c (Z.min inc (max_size d - zlen bs)) PO' Hc ltac:(lia)) as (g & E & G0 & G1 & G2).
      exists g. split; [exact E|]. split; [exact G0|]. split.
      * intros CV k. rewrite S2. apply G1. apply S1. exact CV.
      * intro N. apply G2. intro K. apply N. apply S1. exact K.
Qed.

(** ** minimal data *)
Lemma are_zeroes_ok n : forall (m : mem) o, 0 <= o -> o + Z.of_nat n <= zlen m -> exists b, are_zeroes m o n = Ok b /\ (b = true <-> slice m o (Z.of_nat n) = repeat Byte.x00 n).
Proof.
  induction n as [|n IH]; intros m o Ho Hl.
  - exists true. split; [reflexivity|]. split; [|reflexivity]. intros _. cbn [repeat]. apply length_zero_iff_nil. rewrite <- (Nat2Z.id (length _)). change (Z.of_nat (length (slice m o (Z.of_nat 0)))) with (zlen (slice m o (Z.of_nat 0))). rewrite zlen_slice by lia. reflexivity.
  - cbn [are_zeroes]. assert (RD : rd m o 1 = Ok [bat m o]).
    { rewrite rd_ok by lia. f_equal. change (slice m o 1) with (slice m o (1 + 0)). rewrite slice_cons by lia. reflexivity. }
    rewrite RD. cbn [bind]. replace (Z.of_nat (S n)) with (1 + Z.of_nat n) by lia. rewrite slice_cons by lia. cbn [repeat].
    destruct (IH m (o + 1) ltac:(lia) ltac:(lia)) as (b & E & B).
    destruct (dec [bat m o] =? 0) eqn:Z0.
    + exists b. split; [exact E|]. rewrite B. assert (bat m o = Byte.x00) as ->.
      { destruct (bat m o) eqn:Q; vm_compute in Z0; congruence || reflexivity. }
      split; [intros ->; reflexivity|congruence].
    + exists false. split; [reflexivity|]. split; [discriminate|]. intro K. injection K as K _. rewrite K in Z0. vm_compute in Z0. discriminate.
Qed.
Lemma minimal_bytes d m o bs : holds d m o bs -> exists b, is_minimal d m o = Ok b /\ (b = true <-> bs = min_data d).
Proof.
  intro H. destruct (good_size _ _ (h_good _ _ _ _ H)) as (W & B & _ & SZ & SM & SF). pose proof (h_o _ _ _ _ H) as Ho. pose proof (h_in _ _ _ _ H) as Hl.
  pose proof (size_range_nb d W B) as SR. pose proof (zlen_min_data d W B) as ZM. pose proof (good_len _ _ (h_good _ _ _ _ H)) as GL.
  assert (G : is_minimal d m o = (if negb (is_variable_sized_type_info d) then are_zeroes m o (Z.to_nat (size d))
    else
      let* sz := get_size d m o in
      if negb (sz =? size d) then Ok false
      else if has_size_in_prefix d then
        are_zeroes m (o + value_size (max_size d)) (Z.to_nat (u32 (sz - value_size (max_size d))))
      else are_zeroes m o (Z.to_nat sz))) by (unfold is_minimal; unfold is_bit_field in B; destruct (type d); try discriminate; reflexivity).
  rewrite G. clear G. change (is_variable_sized_type_info d) with (is_variable_sized_ d).
  assert (ALL : zlen bs = size d -> min_data d = zeros (size d) -> exists b, are_zeroes m o (Z.to_nat (size d)) = Ok b /\ (b = true <-> bs = min_data d)).
  { intros L ->. destruct (are_zeroes_ok (Z.to_nat (size d)) m o Ho ltac:(lia)) as (b & E & Q). exists b. split; [exact E|]. rewrite Q. replace (Z.of_nat (Z.to_nat (size d))) with (zlen bs) by lia.
    rewrite (h_slice _ _ _ _ H). reflexivity. }
  destruct (is_variable_sized_ d) eqn:Vd; cbn [negb].
  2: { apply ALL; [auto|]. unfold min_data. rewrite Vd. reflexivity. }
  rewrite (holds_size _ _ _ _ H). cbn [bind]. destruct (zlen bs =? size d) eqn:LQ; cbn [negb].
  2: { exists false. split; [reflexivity|]. split; [discriminate|]. intros ->. lia. }
  destruct (has_size_in_prefix d) eqn:HS.
  - destruct (has_size_container d HS) as [C _]. pose proof (size_ge_vs d (conj W C) HS) as GV. pose proof (vs_range d) as VS.
    rewrite u32_id by lia. destruct (are_zeroes_ok (Z.to_nat (zlen bs - vs d)) m (o + vs d) ltac:(lia) ltac:(lia)) as (b & E & Q). exists b. split; [exact E|]. rewrite Q.
    replace (Z.of_nat (Z.to_nat (zlen bs - vs d))) with (zlen bs - vs d) by lia.
    destruct (holds_cv d m o bs H C) as (es & CT & V & _ & _). pose proof (cv_size _ _ _ _ _ V HS) as CS.
    assert (BS : bs = slice m o (vs d) ++ slice m (o + vs d) (zlen bs - vs d)).
    { rewrite <- (h_slice _ _ _ _ H) at 1. rewrite <- slice_split by lia. f_equal. lia. }
    assert (EN : slice m o (vs d) = enc (Z.to_nat (vs d)) (size d)).
    { rewrite <- (enc_dec (slice m o (vs d))). assert (LN : length (slice m o (vs d)) = Z.to_nat (vs d)) by (rewrite <- (Nat2Z.id (length _)); f_equal; apply zlen_slice; lia).
      rewrite LN, CS. replace (256 ^ vs d) with (256 ^ Z.of_nat (Z.to_nat (vs d))) by (f_equal; lia). rewrite enc_mod. f_equal. lia. }
    unfold min_data. rewrite Vd, HS. cbn [andb]. rewrite EN in BS.
    replace (zlen bs - vs d) with (size d - vs d) in * by lia. fold (zeros (size d - vs d)). split.
    + intro K. rewrite BS, K. reflexivity.
    + intro K. rewrite K in BS. apply app_inv_head in BS. congruence.
  - replace (zlen bs) with (size d) in * by lia. apply ALL; [reflexivity|]. unfold min_data. rewrite HS, Bool.andb_false_r. reflexivity.
Qed.

(** ** positions that can be read *)
Lemma readable_place pa : forall d m o bs, path_ok pa -> holds d m o bs ->
  exists v, get_value d pa m o = Ok v /\ ((exists x, v = Some x) <-> place_exists d pa m o \/ below_null d pa m o).
Proof.
  induction pa as [|i pa IH]; intros d m o bs PO H.
  - pose proof (observe_self d m o bs H) as OS. unfold observe in OS. apply bind_inv in OS. destruct OS as (v & E & K). exists v. split; [exact E|].
    split; [intros _; left; left; reflexivity|]. intros _. destruct v as [v|]; [eauto|discriminate].
  - pose proof (Forall_inv PO) as I. pose proof (Forall_inv_tail PO) as PO'. cbn beta in I.
    assert (BN : forall t a, child d m o i = Ok (Some (Some (t, a))) -> below_null d (i :: pa) m o <-> below_null t pa m a).
    { intros t a CH.
      assert (C : is_container_type_info d = true) by (unfold child in CH; destruct (is_container_type_info d); [reflexivity|discriminate]).
      destruct (holds_cv d m o bs H C) as (es & CT & V & _ & GE).
      assert (LE : i < zlen es). { destruct (Z.ltb_spec i (zlen es)); [assumption|]. rewrite (child_none d m o _ es i CT V) in CH by lia. discriminate. }
      destruct (znth_lt es i ltac:(lia)) as [e En]. rewrite (child_ok d m o _ es i e CT V ltac:(lia) En) in CH.
      assert (GV : forall pb, get_value d (i :: pb) m o = Ok (Some DNull) <-> get_value t pb m a = Ok (Some DNull)).
      { intro pb. rewrite (value_step d m o _ es i e pb CT V ltac:(lia) En). destruct e as [|z|c]; cbn [ptr_of] in CH; [discriminate| |injection CH as <- <-; reflexivity].
        injection CH as <- <-. pose proof (cv_el _ _ _ _ _ V i _ ltac:(lia) En) as (_ & B & _). apply is_bit_field_spec in B. destruct pb as [|j pb].
        - cbn [get_value]. unfold get_datum. rewrite B. split; discriminate.
        - split; [discriminate|]. rewrite not_container_value; [discriminate|discriminate|unfold is_container_type_info; rewrite B; reflexivity]. }
      split.
      - intros (pb & pc & E & NE & K). destruct pb as [|j pb]; [exfalso; apply (datum_not_null d m o K)|]. injection E as <- E. exists pb, pc. split; [exact E|]. split; [exact NE|]. apply GV. exact K.
      - intros (pb & pc & E & NE & K). exists (i :: pb), pc. split; [cbn; congruence|]. split; [exact NE|]. apply GV. exact K. }
    assert (NO : (forall t a, child d m o i <> Ok (Some (Some (t, a)))) -> (pa = [] -> forall n, get_element_count d m o = Ok n -> n <= i) -> get_value d [i] m o <> Ok (Some DNull) -> ~ (place_exists d (i :: pa) m o \/ below_null d (i :: pa) m o)).
    { intros NC NP NV [P|(pb & pc & E & NE & K)].
      - destruct pa as [|j pa]; [apply place_single in P; destruct P as (n & EC & L); specialize (NP eq_refl n EC); lia|]. revert P. apply no_place; [discriminate|exact NC].
      - destruct pb as [|j pb]; [apply (datum_not_null d m o K)|]. injection E as <- E. destruct pb as [|k pb]; [congruence|].
        cbn [get_value] in K. apply bind_inv in K. destruct K as ([[[t a]|]|] & CH & K); try discriminate; [eapply NC; eauto|].
        apply NV. cbn [get_value]. unfold child in CH. unfold get_containee_datum. destruct (negb (is_container_type_info d)); [discriminate|]. 
        apply bind_inv in CH. destruct CH as (n & EC & CH). rewrite EC. cbn [bind]. destruct (n <=? i); [discriminate|]. apply bind_inv in CH. destruct CH as (pi & EP & CH). rewrite EP. cbn [bind].
        apply bind_inv in CH. destruct CH as (c & EQ & CH). rewrite EQ. cbn [bind]. destruct c; [discriminate|reflexivity]. }
    destruct (is_container_type_info d) eqn:C.
    2: { exists None. split; [apply not_container_value; [discriminate|exact C]|]. split; [intros [x X]; discriminate|]. intro K. exfalso. revert K. apply NO.
         - intros t a. unfold child. rewrite C. discriminate.
         - intros -> n EC. unfold get_element_count in EC. rewrite C in EC. cbn [negb] in EC. injection EC as <-. lia.
         - rewrite not_container_value by (discriminate || exact C). discriminate. }
    destruct (holds_cv d m o bs H C) as (es & CT & V & _ & GE). destruct (zlen es <=? i) eqn:LE.
    + pose proof (child_none d m o _ es i CT V ltac:(lia)) as CH.
      assert (VN : forall pb, get_value d (i :: pb) m o = Ok None).
      { intros [|j pb]; cbn [get_value]; [unfold get_containee_datum; rewrite C, (cv_get_count d m o _ es CT V); cbn [negb bind]; rewrite LE; reflexivity|]. rewrite CH. reflexivity. }
      exists None. split; [apply VN|]. split; [intros [x X]; discriminate|]. intro K. exfalso. revert K. apply NO.
      * intros t a. rewrite CH. discriminate.
      * intros _ n EC. rewrite (cv_get_count d m o _ es CT V) in EC. injection EC as <-. lia.
      * rewrite VN. discriminate.
    + destruct (znth_lt es i ltac:(lia)) as [e En]. pose proof (child_ok d m o _ es i e CT V ltac:(lia) En) as CH.
      rewrite (value_step d m o _ es i e pa CT V ltac:(lia) En).
      assert (P1 : place_exists d [i] m o) by (apply place_single; exists (zlen es); split; [apply (cv_get_count d m o _ es CT V)|lia]).
      destruct e as [|z|c]; cbn [ptr_of] in CH.
      * exists (Some DNull). split; [reflexivity|]. split; [intros _|eauto]. destruct pa as [|j pa]; [left; exact P1|]. right. exists [i], (j :: pa). split; [reflexivity|]. split; [discriminate|].
        rewrite (value_step d m o _ es i _ [] CT V ltac:(lia) En). reflexivity.
      * pose proof (cv_el _ _ _ _ _ V i _ ltac:(lia) En) as (_ & B & _). apply is_bit_field_spec in B. destruct pa as [|j pa].
        -- eexists. split; [reflexivity|]. split; [intros _; left; exact P1|eauto].
        -- exists None. split; [reflexivity|]. split; [intros [x X]; discriminate|]. intros [P|P]; exfalso.
           ++ apply (place_step d m o i _ _ CH (j :: pa) ltac:(discriminate)) in P. destruct P as [P|(pb & k & t & a & n & E & EA & EC & L)]; [discriminate|]. destruct pb as [|q pb].
              ** apply element_at_nil in EA. destruct EA as [-> ->]. unfold get_element_count in EC. unfold is_container_type_info in EC. rewrite B in EC. cbn [negb] in EC. injection EC as <-.
                 injection E as <- E. pose proof (Forall_inv PO'). cbn beta in *. lia.
              ** inversion EA; subst. match goal with K : child _ _ _ _ = _ |- _ => unfold child, is_container_type_info in K; rewrite B in K; discriminate end.
           ++ apply (BN _ _ CH) in P. destruct P as (pb & pc & E & NE & K). destruct pb as [|q pb]; [apply (datum_not_null _ _ _ K)|].
              rewrite not_container_value in K; [discriminate|discriminate|unfold is_container_type_info; rewrite B; reflexivity].
      * pose proof (child_holds d m o bs es i c CT V ltac:(lia) En (GE i c ltac:(lia) En)) as Hc.
        destruct (IH (etype d i) m _ c PO' Hc) as (v & E & Q). exists v. split; [exact E|]. rewrite Q. destruct pa as [|j pa].
        -- split; intros _; [left; exact P1|left; left; reflexivity].
        -- rewrite (place_step d m o i _ _ CH (j :: pa) ltac:(discriminate)), (BN _ _ CH). reflexivity.
Qed.
