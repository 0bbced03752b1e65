(** * Setting one element of a container *)
From Verif Require Export StoreFacts.
From Coq Require Import ZifyBool ZifyNat ZifyN Zify.
Ltac Zify.zify_post_hook ::= Z.div_mod_to_equations.

Lemma nullable_cases t : is_nullable_type_info t = is_variable_sized_ t || needs_is_valid_bit t.
Proof. unfold is_nullable_type_info, needs_is_valid_bit, is_variable_sized_type_info. destruct (is_variable_sized_ t), (is_nullable t); reflexivity. Qed.

Lemma cv_is_null d m o s es i e : container d -> cv d m o s es -> 0 <= i -> nth_error es (Z.to_nat i) = Some e ->
  is_null d m o (pos d (zlen es) i) = Ok (is_cnull e).
Proof.
  intros CT V I En. pose proof (znth_some _ _ _ En) as IL. assert (I' : 0 <= i < zlen es) by lia.
  pose proof CT as [W C]. pose proof (cv_bounds d m o s es CT V) as B.
  pose proof (cv_o _ _ _ _ _ V) as Ho. pose proof (cv_s _ _ _ _ _ V) as Hs. pose proof (vs_range d) as VS.
  destruct (pos_spec d (zlen es) i W C (cv_n _ _ _ _ _ V) I') as (Q1 & Q2 & Q3 & Q4).
  pose proof (cv_el _ _ _ _ _ V i e I En) as [A1 A2]. pose proof (cv_etype_wf d m o s es i CT V I') as Wt.
  pose proof (ebits_parts _ Wt) as (EP1 & EP2 & EP3 & EP4).
  unfold is_null. rewrite Q1, nullable_cases. change (is_variable_sized_type_info (etype d i)) with (is_variable_sized_ (etype d i)).
  destruct (is_variable_sized_ (etype d i)) eqn:Vt; cbn [orb negb].
  - destruct (eslot_var (max_size d) _ Wt Vt) as (Bt & Es & Nv & Nl). pose proof (slot_in d m o s es i CT V I') as SI. rewrite Es in SI.
    rewrite (Q4 Bt), read_value_ok by lia. cbn [bind]. change (dec (slice m (o + so d (zlen es) i) (vs d))) with (slot d (zlen es) m o i).
    destruct e as [|z|c]; cbn [is_cnull].
    + rewrite (proj2 A2 eq_refl). reflexivity.
    + destruct A2; congruence.
    + destruct A2 as (_ & A2 & _). destruct (A2 eq_refl) as (A & _). f_equal. lia.
  - destruct (needs_is_valid_bit (etype d i)) eqn:Nv; cbn [negb].
    + rewrite (Q2 eq_refl). specialize (EP4 eq_refl).
      destruct (bit_in_bitmap d m o s es i 0 CT V I' ltac:(lia)) as [R1 R2]. rewrite Z.add_0_r in *.
      rewrite get_bit_ok by lia. cbn [bind]. rewrite (A1 eq_refl), negb_involutive. reflexivity.
    + destruct e; try reflexivity. destruct A2 as [A2 _]. rewrite nullable_cases, Vt, Nv in A2. discriminate.
Qed.

Theorem set_null_ok d m o s es i e : container d -> cv d m o s es -> 0 <= i -> nth_error es (Z.to_nat i) = Some e ->
  let r := is_nullable_type_info (etype d i) in
  exists m', set_null d m o i (pos d (zlen es) i) = Ok (r, m')
    /\ (r = false -> m' = m)
    /\ (r = true -> cv d m' o (s - clen (etype d i) e) (lset es (Z.to_nat i) CNull))
    /\ keep (fun x => x < o \/ o + s <= x) m m'.
Proof.
  intros CT V I En r. pose proof (znth_some _ _ _ En) as IL. assert (I' : 0 <= i < zlen es) by lia.
  pose proof CT as [W C]. pose proof (cv_bounds d m o s es CT V) as B.
  pose proof (cv_o _ _ _ _ _ V) as Ho. pose proof (cv_s _ _ _ _ _ V) as Hs. pose proof (vs_range d) as VS.
  destruct (pos_spec d (zlen es) i W C (cv_n _ _ _ _ _ V) I') as (Q1 & Q2 & Q3 & Q4).
  pose proof (cv_el _ _ _ _ _ V i e I En) as [A1 A2]. pose proof (cv_etype_wf d m o s es i CT V I') as Wt.
  pose proof (ebits_parts _ Wt) as (EP1 & EP2 & EP3 & EP4).
  unfold set_null. rewrite (cv_is_null d m o s es i e CT V I En). cbn [bind].
  destruct (is_cnull e) eqn:NE.
  { destruct e; try discriminate. destruct A2 as [A2 _]. exists m. unfold r. rewrite A2. split; [reflexivity|]. split; [discriminate|].
    split; [|apply keep_refl]. intros _. rewrite lset_id by exact En. replace (s - clen (etype d i) CNull) with s by (unfold clen; destruct (is_variable_sized_ (etype d i)); lia). exact V. }
  rewrite Q1. fold r. destruct r eqn:Er; cbn [negb]; [|exists m; split; [reflexivity|]; split; [reflexivity|]; split; [discriminate|apply keep_refl]].
  unfold r in Er. rewrite nullable_cases in Er.
  destruct (needs_is_valid_bit (etype d i)) eqn:Nv.
  - assert (Ft : is_variable_sized_ (etype d i) = false).
    { destruct (is_variable_sized_ (etype d i)) eqn:Vt; [|reflexivity]. destruct (eslot_var (max_size d) _ Wt Vt) as (_ & _ & X & _). congruence. }
    rewrite (Q2 eq_refl). destruct (put_valid d m o s es i CT V I' m eq_refl false Nv) as (m' & E & OF & BT & SL).
    unfold reset_bit. rewrite E. cbn [bind]. exists m'. split; [reflexivity|]. split; [discriminate|].
    assert (EO : elem_ok d m' o s (zlen es) i CNull).
    { pose proof (bits_room d m o s es i CT V I' m eq_refl) as R.
      split; [intros _; cbn; rewrite BT, Z.eqb_refl by (specialize (EP4 eq_refl); lia); reflexivity|].
      split; [rewrite nullable_cases, Nv; apply orb_true_r|congruence]. }
    destruct (cv_set_fixed d m o s es m' i e CNull CT V I En Ft OF EO) as [V' K].
    split; [intros _; unfold clen; rewrite Ft; rewrite Z.sub_0_r; exact V'|].
    eapply keep_weaken; [exact K|]. cbn beta. intros; lia.
  - rewrite orb_false_r in Er. destruct (eslot_var (max_size d) _ Wt Er) as (Bt & Es & _ & Nl). pose proof (slot_in d m o s es i CT V I') as SI. rewrite Es in SI.
    destruct e as [|z|c]; [discriminate|destruct A2; congruence|].
    rewrite (cv_get_size d m o s es CT V). cbn [bind]. rewrite (cv_get_ptr d m o s es i _ CT V I En). cbn [bind ptr_of].
    unfold addr. rewrite Er. destruct A2 as (_ & A2 & _). destruct (A2 Er) as (B1 & B2 & B3 & B4 & B5). unfold max_bytes in *.
    rewrite (get_size_local (etype d i) c m) by (auto; lia). cbn [bind].
    destruct (move_ok d m o s es i _ CT V I En) as (m1 & E1 & V1 & AE & _ & K1). specialize (AE Er). rewrite E1. cbn [bind]. rewrite (Q4 Bt).
    pose proof (keep_len _ _ _ K1) as L1. rewrite write_value_ok by lia. cbn [bind].
    destruct (elements_var d i (zlen es) CT (cv_n _ _ _ _ _ V) I' Er) as [HS VD]. rewrite HS.
    pose proof (pbo_range d) as (P1 & P2 & P3 & P4 & P5 & P6). specialize (P4 HS).
    rewrite u32_id by lia. rewrite Z.add_0_r.
    set (m2 := upd m1 (o + so d (zlen es) i) (enc (Z.to_nat (vs d)) 0)).
    assert (K2 : keep (fun x => x < o + so d (zlen es) i \/ o + so d (zlen es) i + vs d <= x) m1 m2) by (apply (keep_upd' _ _ _ _ (vs d)); auto using zlen_enc_vs; lia).
    pose proof (keep_len _ _ _ K2) as L2. rewrite write_value_ok by lia. cbn [bind].
    set (m3 := upd m2 o (enc (Z.to_nat (vs d)) (s - zlen c))).
    assert (K3 : keep (fun x => x < o \/ o + vs d <= x) m2 m3) by (apply (keep_upd' _ _ _ _ (vs d)); auto using zlen_enc_vs; lia).
    pose proof (keep_len _ _ _ K3) as L3. exists m3. split; [reflexivity|]. split; [discriminate|].
    assert (K123 : keep (fun x => not_var d o (zlen es) i x) m1 m3).
    { eapply keep_trans'; [exact K2|exact K3|]. unfold not_var. cbn beta. intros x X. lia. }
    split.
    + intros _. unfold clen. rewrite Er.
      pose proof (cv_max _ _ _ _ _ V VD).
      apply (cv_set_var d m1 o s es m3 (s - zlen c) i (CBytes c) CNull CT V1 I En Er AE); unfold clen; rewrite ?Er; try lia.
      * unfold m3. rewrite slice_upd_same' by (rewrite ?zlen_enc_vs; lia). rewrite dec_enc. rewrite Z2Nat.id by lia. reflexivity.
      * intros x X NV. apply K123; [lia|exact NV].
      * unfold var_ok, slot. rewrite (keep_slice _ _ _ _ _ K3) by lia. unfold m2. rewrite slice_upd_same' by (rewrite ?zlen_enc_vs; lia).
        apply dec_enc_vs. split; [lia|apply Z.pow_pos_nonneg; lia].
    + eapply keep_trans'; [exact K1|exact K123|]. unfold not_var. cbn beta. intros x X. lia.
Qed.

(** the element that results from storing a datum *)
Definition stored_elem (t : dti) (v : datum) (e' : celem) : Prop :=
  match v with
  | DNull => e' = CNull
  | _ => if is_bit_field t then e' = CBits (num_of v mod 2 ^ size t)
         else exists old, e' = CBytes (sbytes t v old) /\ good t (sbytes t v old)
  end.

Lemma testbit_mod z n k : 0 <= n -> 0 <= k < n -> Z.testbit (z mod 2 ^ n) k = Z.testbit z k.
Proof. intros. rewrite Z.mod_pow2_bits_low by lia. reflexivity. Qed.

Theorem set_containee_ok d m o s es i e inc v : container d -> cv d m o s es -> 0 <= i -> nth_error es (Z.to_nat i) = Some e ->
  fits (etype d i) v -> points_good (etype d i) v -> 0 <= inc < 4294967296 ->
  (is_variable_sized_ d = true -> o + Z.min (s + inc) (max_size d) <= zlen m) ->
  exists r m' s' e', set_containee d m o i inc v = Ok (r, m') /\ can_set_containee d m o i inc v = Ok r
    /\ cv d m' o s' (lset es (Z.to_nat i) e') /\ s' = s - clen (etype d i) e + clen (etype d i) e'
    /\ s' <= s + inc /\ (r = false -> e' = e) /\ (r = true -> stored_elem (etype d i) v e')
    /\ keep (fun x => x < o \/ o + Z.max s s' <= x) m m'.
Proof.
  intros CT V I En FT PG Hinc Hroom. pose proof (znth_some _ _ _ En) as IL. assert (I' : 0 <= i < zlen es) by lia.
  pose proof CT as [W C]. pose proof (cv_bounds d m o s es CT V) as B.
  pose proof (cv_o _ _ _ _ _ V) as Ho. pose proof (cv_s _ _ _ _ _ V) as Hs. pose proof (vs_range d) as VS.
  pose proof (cv_etype_wf d m o s es i CT V I') as Wt.
  pose proof (ebits_parts _ Wt) as (EP1 & EP2 & EP3 & EP4).
  destruct (pos_spec d (zlen es) i W C (cv_n _ _ _ _ _ V) I') as (Q1 & Q2 & Q3 & Q4).
  pose proof (clen_nonneg (etype d i) e) as CN0.
  unfold set_containee, can_set_containee. rewrite C. cbn [negb]. rewrite (cv_get_count d m o s es CT V). cbn [bind].
  replace (zlen es <=? i) with false by lia. rewrite (cv_pos d m o s es i CT V I'). cbn [bind].
  rewrite Q1. change (is_variable_sized_type_info (etype d i)) with (is_variable_sized_ (etype d i)). set (t := etype d i) in *.
  destruct (is_datum_NULL v) eqn:NV.
  { destruct v; try discriminate. destruct (set_null_ok d m o s es i e CT V I En) as (m' & E & R0 & R1 & K). fold t in E, R0, R1. rewrite E.
    destruct (is_nullable_type_info t).
    - exists true, m', (s - clen t e), CNull. pose proof (cv_bounds d m' o _ _ CT (R1 eq_refl)).
      split; [reflexivity|]. split; [reflexivity|]. split; [apply R1; reflexivity|]. split; [unfold clen at 3; destruct (is_variable_sized_ t); lia|].
      split; [lia|]. split; [discriminate|]. split; [reflexivity|]. eapply keep_weaken; [exact K|]. cbn beta. intros; lia.
    - exists false, m', s, e. rewrite (R0 eq_refl) in *. rewrite lset_id by exact En.
      split; [reflexivity|]. split; [reflexivity|]. split; [exact V|]. split; [lia|]. split; [lia|]. split; [reflexivity|]. split; [discriminate|apply keep_refl]. }
  destruct (is_variable_sized_ t) eqn:Vt; cbn [negb].
  2:{ (* fixed size *)
    pose proof (bits_room d m o s es i CT V I' m eq_refl) as R. fold t in R.
    assert (SB : exists m1, (if needs_is_valid_bit t then set_bit m (o + pbo d) (pi_valid (pos d (zlen es) i)) else Ok m) = Ok m1
       /\ only_fixed d (zlen es) m m1 o i /\ (needs_is_valid_bit t = true -> bitat m1 (o + pbo d) (sb d i) = true)).
    { destruct (needs_is_valid_bit t) eqn:Nv.
      - rewrite (Q2 eq_refl). destruct (put_valid d m o s es i CT V I' m eq_refl true Nv) as (m1 & E & OF & BT & SL). exists m1.
        split; [exact E|]. split; [exact OF|]. intros _. rewrite BT, Z.eqb_refl by (specialize (EP4 eq_refl); lia). reflexivity.
      - exists m. split; [reflexivity|]. split; [apply only_fixed_refl|discriminate]. }
    destruct SB as (m1 & E1 & O1 & BV). rewrite E1. cbn [bind]. pose proof O1 as (L1 & _ & _).
    assert (FIN : forall m2 e', only_fixed d (zlen es) m1 m2 o i -> elem_ok d m2 o s (zlen es) i e' -> stored_elem t v e' ->
      forall x, x = Ok (true, m2) ->
      exists r m' s' e', x = Ok (r, m') /\ Ok true = Ok r
        /\ cv d m' o s' (lset es (Z.to_nat i) e') /\ s' = s - clen t e + clen t e'
        /\ s' <= s + inc /\ (r = false -> e' = e) /\ (r = true -> stored_elem t v e')
        /\ keep (fun x => x < o \/ o + Z.max s s' <= x) m m').
    { intros m2 e' O2 EO SE x ->. pose proof (only_fixed_trans _ _ _ _ _ _ _ O1 O2) as O3.
      destruct (cv_set_fixed d m o s es m2 i e e' CT V I En Vt O3 EO) as [V' K].
      exists true, m2, s, e'. split; [reflexivity|]. split; [reflexivity|]. split; [exact V'|]. split; [unfold clen; rewrite Vt; lia|].
      split; [lia|]. split; [discriminate|]. split; [auto|]. eapply keep_weaken; [exact K|]. cbn beta. intros; lia. }
    destruct (is_bit_field t) eqn:Bt.
    - pose proof Bt as Bt'. apply is_bit_field_spec in Bt'. rewrite Bt'. specialize (EP3 eq_refl).
      assert (EV : bit_field_value v = Ok (num_of v)) by (destruct v; try discriminate; try reflexivity; cbn in FT; kill_types).
      rewrite EV. cbn [bind]. rewrite (Q3 eq_refl).
      destruct (put_field d m o s es i CT V I' m1 L1 (num_of v) Bt) as (m2 & E2 & O2 & BT). fold t in E2, BT. rewrite E2. cbn [bind].
      apply (FIN m2 (CBits (num_of v mod 2 ^ size t))); auto.
      + split.
        * intro Nv. fold t in Nv. specialize (EP4 Nv). rewrite BT by lia. rewrite Nv. cbn [b2n].
          replace ((sb d i + 1 <=? sb d i) && (sb d i <? sb d i + 1 + size t)) with false by lia. apply BV. exact Nv.
        * fold t. split; [exact Bt|]. split; [apply Z.mod_pos_bound, Z.pow_pos_nonneg; lia|].
          intros k K. rewrite BT by lia. rewrite testbit_mod by lia.
          match goal with |- (if ?q then _ else _) = _ => replace q with true by lia end. f_equal. lia.
      + unfold stored_elem. rewrite Bt. destruct v; try discriminate; reflexivity.
    - assert (G : forall (x y : res (bool * mem)), match type t with BIT_FIELD => x | _ => y end = y) by (intros; unfold is_bit_field in Bt; destruct (type t); try discriminate; reflexivity).
      rewrite G. clear G.
      assert (GP : get_ptr d m1 o (pos d (zlen es) i) = Ok (Some (o + so d (zlen es) i))).
      { unfold get_ptr. rewrite Q1. fold t. change (is_variable_sized_type_info t) with (is_variable_sized_ t). rewrite Vt, (Q4 eq_refl).
        assert (NB : (if needs_is_valid_bit t then let* b := get_bit m1 (o + pbo d) (pi_valid (pos d (zlen es) i)) in Ok (negb b) else Ok false) = Ok false).
        { destruct (needs_is_valid_bit t) eqn:Nv; [|reflexivity]. rewrite (Q2 eq_refl). specialize (EP4 eq_refl).
          pose proof (bitmap_bytes_bound (sb d (zlen es)) (sb d i) ltac:(lia)).
          rewrite get_bit_ok by lia. cbn [bind]. rewrite (BV eq_refl). reflexivity. }
        rewrite NB. cbn [bind negb]. unfold is_bit_field in Bt. destruct (type t); try discriminate; reflexivity. }
      rewrite GP. cbn [bind]. rewrite (eslot_fixed _ _ Bt Vt) in R. 
      assert (0 <= bitmap_size_in_bytes (sb d (zlen es))) by lia.
      destruct (set_datum_fixed t m1 (o + so d (zlen es) i) true inc v Wt Bt Vt NV FT PG ltac:(lia) ltac:(lia)) as (E2 & L2 & G2).
      set (c := sbytes t v (slice m1 (o + so d (zlen es) i) (size t))) in *.
      destruct (put_slot d m o s es i CT V I' m1 L1 c Bt Vt L2) as (O2 & S2 & B2).
      apply (FIN (upd m1 (o + so d (zlen es) i) c) (CBytes c)); auto.
      + split.
        * intro Nv. fold t in Nv. specialize (EP4 Nv). rewrite B2 by lia. apply BV. exact Nv.
        * fold t. split; [exact Bt|]. split; [congruence|]. intros _. split; [exact L2|exact S2].
      + unfold stored_elem. rewrite Bt. destruct v; try discriminate; (exists (slice m1 (o + so d (zlen es) i) (size t)); split; [reflexivity|exact G2]). }
  (* variable size *)
  destruct (eslot_var (max_size d) t Wt Vt) as (Bt & Es & Nv & Nl).
  pose proof (slot_in d m o s es i CT V I') as SI. fold t in SI. rewrite Es in SI.
  destruct (elements_var d i (zlen es) CT (cv_n _ _ _ _ _ V) I' Vt) as [HS VD]. specialize (Hroom VD).
  pose proof (pbo_range d) as (P1 & P2 & P3 & P4 & P5 & P6). specialize (P4 HS). pose proof (cv_max _ _ _ _ _ V VD) as MX.
  pose proof (vs_enough d W) as VE. pose proof (wf_node d W) as (_ & _ & MSD & _). unfold max_bytes in *.
  destruct (move_ok d m o s es i e CT V I En) as (m1 & E1 & V1 & AE & _ & K1). specialize (AE Vt). rewrite E1. cbn [bind].
  pose proof (keep_len _ _ _ K1) as L1.
  rewrite !(cv_get_size d m1 o s es CT V1). cbn [bind]. rewrite (cv_get_size d m o s es CT V). cbn [bind].
  rewrite !(cv_get_ptr d m1 o s es i e CT V1 I En), (cv_get_ptr d m o s es i e CT V I En). cbn [bind].
  rewrite (u32_id (max_size d - s)) by lia. set (inc' := Z.min inc (max_size d - s)).
  destruct (cv_var_facts d m1 o s es i e CT V1 I En Vt AE) as (FA & AS & CH). fold t in FA, AS. set (a := s - clen t e) in *.
  set (valid := match ptr_of d (zlen es) m1 o i e with Some _ => true | None => false end).
  assert (PO : match ptr_of d (zlen es) m1 o i e with Some a => a | None => o + s end = o + a).
  { unfold ptr_of, a, clen. destruct e as [|z|c]; cbn; rewrite ?Vt; try lia.
    - pose proof (cv_el _ _ _ _ _ V i _ I En) as (_ & A & _). fold t in A. congruence.
    - unfold addr. fold t. rewrite Vt. unfold at_end in AE. rewrite AE. lia. }
  rewrite PO. set (old := clen t e) in *.
  assert (OS : (if valid then get_size t m1 (o + a) else Ok 0) = Ok old /\ (if valid then get_size t m1 (o + a) = Ok old else old = 0)).
  { unfold valid, old, a, clen, ptr_of. rewrite Vt. destruct e as [|z|c].
    - split; reflexivity.
    - pose proof (cv_el _ _ _ _ _ V i _ I En) as (_ & A & _). fold t in A. congruence.
    - pose proof (cv_el _ _ _ _ _ V1 i _ I En) as (_ & _ & A & _). fold t in A. destruct (A Vt) as (A1 & A2 & A3 & A4 & A5).
      unfold at_end in AE. rewrite AE in *.
      assert (get_size t m1 (o + (s - zlen c)) = Ok (zlen c)) by (apply get_size_local; auto; lia). unfold old, clen. rewrite Vt. auto. }
  destruct OS as [OS1 OS2]. rewrite OS1. cbn [bind].
  assert (CAN : match ptr_of d (zlen es) m o i e with
      | Some a0 => can_set_datum t m a0 true inc' v
      | None => can_set_datum t m (o + s) false inc' v end = Ok (size_acceptable t old (zlen (sbytes t v [])) inc')).
  { (* the test does not depend on the position *)
    assert (CS : forall a0 vl, 0 <= a0 -> (if vl : bool then get_size t m a0 = Ok old else old = 0) ->
       can_set_datum t m a0 vl inc' v = Ok (size_acceptable t old (zlen (sbytes t v [])) inc')).
    { intros a0 vl A0 OLD. destruct (size_acceptable t old (zlen (sbytes t v [])) inc') eqn:SA.
      - (* enlarge the buffer for the general lemma *)
        set (big := m ++ zeros (a0 + zlen (sbytes t v []))).
        pose proof (zlen_nonneg (sbytes t v [])) as ZS. pose proof (zlen_nonneg m) as ZM.
        assert (CB : can_set_datum t m a0 vl inc' v = can_set_datum t big a0 vl inc' v \/ True) by auto.
        clear CB.
        assert (OB : if vl then get_size t big a0 = Ok old else old = 0).
        { destruct vl; [|exact OLD]. unfold get_size in *. unfold big.
          assert (RB : forall x r, read_value m x (max_size t) = Ok r -> read_value (m ++ zeros (a0 + zlen (sbytes t v []))) x (max_size t) = Ok r).
          { intros x r Q. unfold read_value in *. destruct (rd m x (vs t)) as [bs|] eqn:Er; [|discriminate].
            apply rd_inv in Er. destruct Er as (X1 & X2 & X3 & ->). rewrite rd_ok by (rewrite ?zlen_app, ?zlen_zeros; lia). rewrite slice_app_l by lia. exact Q. }
          destruct (type t); try assumption;
          (destruct (negb (is_variable_sized_type_info t)); [assumption|]; destruct (has_size_in_prefix t);
           [destruct (read_value m a0 (max_size t)) eqn:Er; [|discriminate]; rewrite (RB _ _ Er); assumption
           |destruct (read_value m (a0 + offset_of_prefix_count t) (max_size t)) eqn:Er; [|discriminate]; rewrite (RB _ _ Er); assumption]). }
        destruct (set_datum_var t big a0 vl inc' v old Wt Vt NV FT PG A0 OB) as (_ & CC & _).
        { intros _. unfold big. rewrite zlen_app, zlen_zeros by lia. lia. }
        rewrite SA in CC. rewrite <- CC. unfold can_set_datum.
        replace (if vl then get_size t big a0 else Ok 0) with (if vl then get_size t m a0 else Ok 0) by (destruct vl; congruence). reflexivity.
      - destruct (set_datum_var t m a0 vl inc' v old Wt Vt NV FT PG A0 OLD) as (_ & CC & _); [congruence|]. rewrite SA in CC. exact CC. }
    destruct e as [|z|c]; cbn [ptr_of].
    - apply CS; [lia|]. unfold old, clen. now rewrite Vt.
    - pose proof (cv_el _ _ _ _ _ V i _ I En) as (_ & A & _). fold t in A. congruence.
    - pose proof (cv_chunk d m o s es i c CT V I En) as (X1 & X2 & X3 & X4 & X5 & X6 & X7). fold t in X4, X5, X7.
      apply CS; [lia|]. unfold old, clen. rewrite Vt. apply get_size_local; auto; lia. }
  rewrite CAN. clear CAN.
  destruct (set_datum_var t m1 (o + a) valid inc' v old Wt Vt NV FT PG ltac:(lia) OS2) as (E2 & _ & G2 & LC).
  { unfold size_acceptable. intro ACC. rewrite L1.
    destruct (zlen (sbytes t v []) <=? old) eqn:LE0; [|].
    - lia.
    - pose proof (zlen_nonneg (sbytes t v [])) as ZS.
      assert (zlen (sbytes t v []) <= max_size t) by lia. pose proof (wf_node t Wt) as (_ & _ & MST & _). unfold max_bytes in *.
      rewrite u32_id in ACC by lia. lia. }
  rewrite E2. cbn [bind]. set (c := sbytes t v []) in *. pose proof (wf_node t Wt) as (_ & _ & MST & _). unfold max_bytes in *.
  destruct (size_acceptable t old (zlen c) inc') eqn:ACC; cbn [andb bind].
  2:{ exists false, m1, s, e. rewrite lset_id by exact En.
      split; [reflexivity|]. split; [reflexivity|]. split; [exact V1|]. split; [lia|]. split; [lia|]. split; [reflexivity|]. split; [discriminate|].
      eapply keep_weaken; [exact K1|]. cbn beta. intros; lia. }
  specialize (G2 eq_refl). destruct (good_size t c G2) as (_ & _ & GS & GL & GM & _). specialize (GM Vt).
  assert (NEW : a + zlen c <= max_size d /\ a + zlen c <= s + inc /\ o + (a + zlen c) <= zlen m).
  { unfold size_acceptable in ACC. unfold a in *. unfold max_bytes in *. destruct (zlen c <=? old) eqn:LE0; [lia|]. rewrite u32_id in ACC by lia. lia. }
  destruct NEW as (NE1 & NE2 & NE3).
  set (m2 := upd m1 (o + a) c).
  assert (K2 : keep (fun x => x < o + a \/ o + a + zlen c <= x) m1 m2) by (apply (keep_upd' _ _ _ _ (zlen c)); auto; lia).
  pose proof (keep_len _ _ _ K2) as L2. rewrite (Q4 Bt).
  assert (E3 : exists m3, (if negb valid then write_value m2 (o + so d (zlen es) i) (max_size d) s else Ok m2) = Ok m3
     /\ keep (fun x => x < o + so d (zlen es) i \/ o + so d (zlen es) i + vs d <= x) m2 m3 /\ slot d (zlen es) m3 o i = a).
  { destruct valid eqn:VL; cbn [negb].
    - exists m2. split; [reflexivity|]. split; [apply keep_refl|]. unfold slot. rewrite (keep_slice _ _ _ _ _ K2) by lia.
      change (dec (slice m1 (o + so d (zlen es) i) (vs d))) with (slot d (zlen es) m1 o i).
      unfold valid, ptr_of in VL. destruct e as [|z|c0]; try discriminate.
      + pose proof (cv_el _ _ _ _ _ V i _ I En) as (_ & A & _). fold t in A. congruence.
      + unfold at_end in AE. unfold a, old, clen. rewrite Vt. exact AE.
    - rewrite write_value_ok by lia. eexists. split; [reflexivity|].
      assert (K3 : keep (fun x => x < o + so d (zlen es) i \/ o + so d (zlen es) i + vs d <= x) m2 (upd m2 (o + so d (zlen es) i) (enc (Z.to_nat (vs d)) s))) by (apply (keep_upd' _ _ _ _ (vs d)); auto using zlen_enc_vs; lia).
      split; [exact K3|]. unfold slot. rewrite slice_upd_same' by (rewrite ?zlen_enc_vs; lia).
      assert (a = s) by (unfold valid in VL; unfold a, old, clen, ptr_of in *; destruct e; try discriminate; rewrite Vt; lia).
      rewrite dec_enc_vs by lia. lia. }
  destruct E3 as (m3 & E3 & K3 & S3). pose proof (keep_len _ _ _ K3) as L3.
  match type of E3 with ?l = _ => match goal with |- context[bind ?l' _] => change l' with l end end. rewrite E3. cbn [bind]. rewrite HS.
  assert (C3 : slice m3 (o + a) (zlen c) = c).
  { rewrite (keep_slice _ _ _ _ _ K3) by lia. unfold m2. apply slice_upd_same'; lia. }
  rewrite (get_size_local t c m3 (o + a)) by (auto; lia). cbn [bind]. rewrite Z.add_0_r.
  assert (US : u32 (s - old + zlen c) = a + zlen c) by (unfold a in *; unfold max_bytes in *; apply u32_id; lia).
  rewrite US. rewrite write_value_ok by lia. cbn [bind].
  set (m4 := upd m3 o (enc (Z.to_nat (vs d)) (a + zlen c))).
  assert (K4 : keep (fun x => x < o \/ o + vs d <= x) m3 m4) by (apply (keep_upd' _ _ _ _ (vs d)); auto using zlen_enc_vs; lia).
  pose proof (keep_len _ _ _ K4) as L4.
  exists true, m4, (a + zlen c), (CBytes c). split; [reflexivity|]. split; [reflexivity|].
  assert (K34 : keep (fun x => not_var d o (zlen es) i x) m2 m4).
  { eapply keep_trans'; [exact K3|exact K4|]. unfold not_var. cbn beta. intros x X. lia. }
  split; [|split; [unfold clen; rewrite Vt; lia|split; [lia|split; [discriminate|split]]]].
  - apply (cv_set_var d m1 o s es m4 (a + zlen c) i e (CBytes c) CT V1 I En Vt AE); fold t; fold old; fold a; try lia.
    + unfold clen. rewrite Vt. reflexivity.
    + unfold m4. rewrite slice_upd_same' by (rewrite ?zlen_enc_vs; lia). rewrite dec_enc. rewrite Z2Nat.id by lia. reflexivity.
    + intros x X NV'. destruct K34 as [_ K34]. rewrite K34 by (auto; lia). apply K2; lia.
    + unfold var_ok. fold t. split; [|split; [|split; [lia|exact GS]]].
      * unfold slot. rewrite (keep_slice _ _ _ _ _ K4) by lia. exact S3.
      * rewrite (keep_slice _ _ _ _ _ K4) by lia. exact C3.
  - intros _. unfold stored_elem. rewrite Bt. destruct v; try discriminate; (exists []; split; [reflexivity|exact G2]).
  - eapply keep_trans'; [exact K1| |].
    + eapply keep_trans'; [exact K2|exact K34|]. intros x X. exact X.
    + unfold not_var. cbn beta. intros x X. lia.
Qed.
