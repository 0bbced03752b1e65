(** * Moving a variable sized element to the end of its container *)
From Verif Require Export ContainerUpd.
From Coq Require Import ZifyBool ZifyNat ZifyN Zify.
Ltac Zify.zify_post_hook ::= Z.div_mod_to_equations.

Lemma for_loop_ok (body : Z -> mem -> res mem) (P : Z -> mem -> Prop) k : forall i m,
  P i m -> (forall j x, i <= j < i + Z.of_nat k -> P j x -> exists x', body j x = Ok x' /\ P (j + 1) x') ->
  exists m', for_loop k i body m = Ok m' /\ P (i + Z.of_nat k) m'.
Proof.
  induction k as [|k IH]; intros i m Pi St; cbn [for_loop].
  - exists m. rewrite Z.add_0_r. auto.
  - destruct (St i m ltac:(lia) Pi) as (m1 & E & P1). rewrite E. cbn [bind].
    destruct (IH (i + 1) m1 P1) as (m' & E' & P').
    + intros j x J Pj. apply St; [lia|exact Pj].
    + exists m'. split; [exact E'|]. replace (i + Z.of_nat (S k)) with (i + 1 + Z.of_nat k) by lia. exact P'.
Qed.

Lemma write_value_ok d m a v : 0 <= a -> a + vs d <= zlen m ->
  write_value m a (max_size d) v = Ok (upd m a (enc (Z.to_nat (vs d)) v)).
Proof. intros. pose proof (vs_range d). unfold write_value. apply wr_ok; rewrite ?zlen_enc; lia. Qed.
Lemma read_value_ok d m a : 0 <= a -> a + vs d <= zlen m -> read_value m a (max_size d) = Ok (dec (slice m a (vs d))).
Proof. intros. pose proof (vs_range d). unfold read_value. rewrite rd_ok by lia. reflexivity. Qed.
Lemma dec_enc_vs d v : 0 <= v < 256 ^ vs d -> dec (enc (Z.to_nat (vs d)) v) = v.
Proof. intro H. pose proof (vs_range d). apply dec_enc_id. rewrite Z2Nat.id by lia. exact H. Qed.
Lemma zlen_enc_vs d v : zlen (enc (Z.to_nat (vs d)) v) = vs d.
Proof. pose proof (vs_range d). rewrite zlen_enc. lia. Qed.
Lemma dec_vs_range d m a : 0 <= a -> a + vs d <= zlen m -> 0 <= dec (slice m a (vs d)) < 256 ^ vs d.
Proof. intros. pose proof (vs_range d). pose proof (dec_range (slice m a (vs d))) as R. rewrite zlen_slice in R by lia. exact R. Qed.

Lemma left_rotate m a len k : 0 <= a -> 0 <= k <= len -> a + len <= zlen m ->
  exists m', mem_left_rotate m a len k = Ok m' /\ keep (fun x => x < a \/ a + len <= x) m m'
    /\ (forall x l, a <= x -> 0 <= l -> x + l <= a + len - k -> slice m' x l = slice m (x + k) l)
    /\ slice m' (a + len - k) k = slice m a k.
Proof.
  intros Ha Hk Hl. unfold mem_left_rotate. replace ((0 <=? k) && (k <=? len)) with true by lia.
  rewrite rd_ok by lia. cbn [bind]. set (bs := slice m a len). assert (Lb : zlen bs = len) by (apply zlen_slice; lia).
  assert (L : zlen (slice bs k (len - k) ++ slice bs 0 k) = len) by (rewrite zlen_app, !zlen_slice by lia; lia).
  rewrite wr_ok by lia. eexists. split; [reflexivity|]. split; [apply (keep_upd' _ _ _ _ len); auto; lia|]. split.
  - intros x l Hx Hl0 Hxl. rewrite slice_upd_in by lia. rewrite slice_app_l by (rewrite ?zlen_slice; lia).
    rewrite slice_slice by lia. unfold bs. rewrite slice_slice by lia. f_equal; lia.
  - rewrite slice_upd_in by lia. rewrite slice_app_r by (rewrite ?zlen_slice; lia). rewrite zlen_slice by lia.
    replace (a + len - k - a - (len - k)) with 0 by lia. rewrite slice_slice by lia. unfold bs. rewrite slice_slice by lia. f_equal; lia.
Qed.

Definition adj (a sz x : Z) : Z := if a <? x then x - sz else x.

Section Move.
  Variables (d : dti) (m : mem) (o s : Z) (es : list celem) (i : Z) (c : list byte).
  Hypothesis CT : container d.
  Hypothesis V : cv d m o s es.
  Hypothesis I : 0 <= i.
  Hypothesis En : nth_error es (Z.to_nat i) = Some (CBytes c).
  Hypothesis Vi : is_variable_sized_ (etype d i) = true.
  Notation n := (zlen es).
  Notation a := (slot d n m o i).
  Notation sz := (zlen c).

  (** the loop over the offsets *)
  Definition patched (m1 : mem) (j : Z) (x : mem) : Prop :=
    keep (fun y => y < o + pbo d + bitmap_size_in_bytes (sb d n) \/ o + FS d n <= y) m1 x
    /\ forall l, 0 <= l < n -> slice x (o + so d n l) (eslot (max_size d) (etype d l)) =
         if (l <? j) && is_variable_sized_ (etype d l) && negb (l =? i)
         then enc (Z.to_nat (vs d)) (adj a sz (slot d n m o l))
         else slice m1 (o + so d n l) (eslot (max_size d) (etype d l)).

  Lemma patch_loop m1 : keep (fun x => x < o + FS d n) m m1 ->
    exists m2, for_loop (Z.to_nat n) 0 (fun j m =>
          let* pj := get_pos d m o j in
          if (j =? i) || negb (is_variable_sized_type_info (pi_type pj)) then Ok m
          else
            let* oj := read_value m (o + pi_off pj) (max_size d) in
            if a <? oj
            then write_value m (o + pi_off pj) (max_size d) (u32 (oj - sz))
            else Ok m) m1 = Ok m2 /\ patched m1 n m2.
  Proof.
    intro K1. pose proof (znth_some _ _ _ En) as IL. assert (I' : 0 <= i < n) by lia.
    pose proof (cv_bounds d m o s es CT V) as B. pose proof CT as [W C].
    pose proof (cv_o _ _ _ _ _ V) as Ho. pose proof (cv_s _ _ _ _ _ V) as Hs. pose proof (zlen_nonneg es) as Zn.
    pose proof (pbo_range d) as (P1 & P2 & P3 & P4 & P5 & P6). pose proof (vs_range d) as VS.
    pose proof (keep_len _ _ _ K1) as L1.
    assert (AF : FS d n <= a). { pose proof (cv_el _ _ _ _ _ V i _ I En) as (_ & _ & A & _). apply (A Vi). }
    destruct (for_loop_ok (fun j m =>
          let* pj := get_pos d m o j in
          if (j =? i) || negb (is_variable_sized_type_info (pi_type pj)) then Ok m
          else
            let* oj := read_value m (o + pi_off pj) (max_size d) in
            if a <? oj
            then write_value m (o + pi_off pj) (max_size d) (u32 (oj - sz))
            else Ok m) (patched m1) (Z.to_nat n) 0 m1) as (m2 & E & P2').
    - split; [apply keep_refl|]. intros l L. replace (l <? 0) with false by lia. reflexivity.
    - intros j x J [KX SX]. assert (J' : 0 <= j < n) by lia. clear J.
      pose proof (keep_len _ _ _ KX) as LX.
      assert (GP : get_pos d x o j = Ok (pos d n j)).
      { apply get_pos_ok; auto; try apply (cv_n _ _ _ _ _ V); [|lia].
        rewrite <- (cv_get_count d m o s es CT V). unfold get_element_count. rewrite C.
        destruct (is_variable_element_count d) eqn:VC; cbn [negb]; [|reflexivity]. specialize (P3 eq_refl).
        rewrite !read_value_ok by lia. do 2 f_equal.
        rewrite (keep_slice _ _ _ _ _ KX) by lia. apply (keep_slice _ _ _ _ _ K1); lia. }
      rewrite GP. cbn [bind]. destruct (pos_spec d n j W C (cv_n _ _ _ _ _ V) J') as (Q1 & Q2 & Q3 & Q4).
      rewrite Q1. unfold is_variable_sized_type_info.
      pose proof (cv_etype_wf d m o s es j CT V J') as Wt.
      pose proof (slot_in d m o s es j CT V J') as SI.
      destruct ((j =? i) || negb (is_variable_sized_ (etype d j))) eqn:SK.
      + exists x. split; [reflexivity|]. split; [exact KX|]. intros l L. rewrite SX by exact L.
        destruct (Z.eq_dec l j) as [->|N].
        * replace ((j <? j + 1) && is_variable_sized_ (etype d j) && negb (j =? i)) with false by (destruct (is_variable_sized_ (etype d j)); lia).
          replace ((j <? j) && is_variable_sized_ (etype d j) && negb (j =? i)) with false by (destruct (is_variable_sized_ (etype d j)); lia). reflexivity.
        * replace (l <? j + 1) with (l <? j) by lia. reflexivity.
      + apply orb_false_elim in SK. destruct SK as [SK1 SK2]. apply negb_false_iff in SK2.
        destruct (eslot_var (max_size d) _ Wt SK2) as (Bt & Es & Nv & Nl). rewrite Es in SI. rewrite (Q4 Bt).
        rewrite read_value_ok by lia. cbn [bind].
        pose proof (SX j J') as SJ. rewrite Z.ltb_irrefl in SJ. cbn [andb] in SJ. rewrite Es in SJ.
        rewrite SJ, (keep_slice _ _ _ _ _ K1) by lia.
        change (dec (slice m (o + so d n j) (vs d))) with (slot d n m o j).
        assert (RJ : 0 <= slot d n m o j < 256 ^ vs d) by (apply dec_vs_range; lia).
        assert (RU : a < slot d n m o j -> 0 <= slot d n m o j - sz < 4294967296).
        { intro GT. destruct (znth_lt es j J') as [ej Ej]. pose proof (cv_el _ _ _ _ _ V j ej ltac:(lia) Ej) as (_ & A).
          pose proof (cv_el _ _ _ _ _ V i _ I En) as (_ & _ & A0 & _). destruct (A0 Vi) as (_ & _ & _ & Q & _).
          destruct ej as [|z|cj].
          - destruct A as [_ A]. specialize (A SK2). lia.
          - destruct A as [A _]. congruence.
          - destruct A as (_ & A & _). destruct (A SK2) as (A1 & A2 & _ & A4 & _).
            pose proof (cv_dis _ _ _ _ _ V i j c cj I ltac:(lia) ltac:(lia) En Ej Vi SK2) as [D|D]; [|lia]. unfold max_bytes in *. lia. }
        set (y := if a <? slot d n m o j then upd x (o + so d n j) (enc (Z.to_nat (vs d)) (slot d n m o j - sz)) else x).
        exists y. split.
        { unfold y. destruct (a <? slot d n m o j) eqn:LT; [|reflexivity]. rewrite u32_id by (apply RU; lia). apply write_value_ok; lia. }
        assert (KY : keep (fun z => z < o + so d n j \/ o + so d n j + vs d <= z) x y).
        { unfold y. destruct (a <? slot d n m o j) eqn:LT; [|apply keep_refl]. apply (keep_upd' _ _ _ _ (vs d)); auto using zlen_enc_vs; lia. }
        split.
        * eapply keep_trans'; [exact KX|exact KY|]. cbn beta. intros z Z. lia.
        * intros l L. destruct (Z.eq_dec l j) as [->|N].
          -- rewrite SK2. replace ((j <? j + 1) && true && negb (j =? i)) with true by lia. rewrite Es.
             unfold y, adj. destruct (a <? slot d n m o j) eqn:LT.
             ++ apply slice_upd_same'; rewrite ?zlen_enc_vs; lia.
             ++ rewrite SJ, (keep_slice _ _ _ _ _ K1) by lia. unfold slot. symmetry.
                rewrite <- (enc_dec (slice m (o + so d n j) (vs d))) at 2. f_equal.
                assert (zlen (slice m (o + so d n j) (vs d)) = vs d) by (apply zlen_slice; lia). unfold zlen in *. lia.
          -- replace (l <? j + 1) with (l <? j) by lia. rewrite <- SX by exact L.
             pose proof (slot_in d m o s es l CT V L). pose proof (eslot_nonneg d m o s es l CT V L).
             pose proof (slots_apart d m o s es j l CT V J' L (not_eq_sym N)) as SA. rewrite Es in SA.
             apply (keep_slice _ _ _ _ _ KY); lia.
    - exists m2. split; [exact E|]. rewrite Z2Nat.id in P2' by lia. exact P2'.
  Qed.

  Lemma move_cv : exists m', move_to_end d m o i (pos d n i) = Ok m' /\ cv d m' o s es /\ at_end d m' o s es i (CBytes c)
    /\ keep (fun x => x < o \/ o + s <= x) m m'.
  Proof.
    pose proof (znth_some _ _ _ En) as IL. assert (I' : 0 <= i < n) by lia.
    pose proof (cv_bounds d m o s es CT V) as B. pose proof CT as [W C].
    pose proof (cv_o _ _ _ _ _ V) as Ho. pose proof (cv_s _ _ _ _ _ V) as Hs. pose proof (zlen_nonneg es) as Zn.
    pose proof (pbo_range d) as (P1 & P2 & P3 & P4 & P5 & P6). pose proof (vs_range d) as VS.
    pose proof (cv_el _ _ _ _ _ V i _ I En) as (_ & _ & A & _). destruct (A Vi) as (A1 & A2 & A3 & A4 & A5). clear A.
    destruct (pos_spec d n i W C (cv_n _ _ _ _ _ V) I') as (Q1 & _ & _ & Q4).
    pose proof (cv_etype_wf d m o s es i CT V I') as Wi.
    destruct (eslot_var (max_size d) _ Wi Vi) as (Bi & Ei & Nvi & Nli).
    pose proof (slot_in d m o s es i CT V I') as SIi. rewrite Ei in SIi.
    destruct (elements_var d i n CT (cv_n _ _ _ _ _ V) I' Vi) as [HS VD]. specialize (P4 HS).
    pose proof (cv_max _ _ _ _ _ V VD) as MX. pose proof (vs_enough d W) as VE. unfold max_bytes in *.
    unfold move_to_end. rewrite Q1. change (is_variable_sized_type_info (etype d i)) with (is_variable_sized_ (etype d i)). rewrite Vi. cbn [negb].
    rewrite (cv_get_ptr d m o s es i _ CT V I En). cbn [bind ptr_of]. unfold addr. rewrite Vi.
    rewrite (get_size_local (etype d i) c m (o + a)) by (auto; lia). cbn [bind].
    rewrite (cv_get_size d m o s es CT V). cbn [bind].
    replace (o + a - o) with a by lia. rewrite (u32_id a) by lia. rewrite (u32_id (a + sz)) by lia.
    destruct (Z.eqb_spec (a + sz) s) as [AE|AE].
    { exists m. split; [reflexivity|]. split; [exact V|]. split; [unfold at_end; lia|apply keep_refl]. }
    rewrite (u32_id (s - a)) by lia.
    destruct (left_rotate m (o + a) (s - a) sz ltac:(lia) ltac:(lia) ltac:(lia)) as (m1 & E1 & K1 & R1 & R2).
    rewrite E1. cbn [bind]. pose proof (keep_len _ _ _ K1) as L1.
    assert (K1' : keep (fun x => x < o + FS d n) m m1) by (eapply keep_weaken; [exact K1|]; cbn beta; intros; lia).
    assert (GC : get_element_count d m1 o = Ok n).
    { rewrite <- (cv_get_count d m o s es CT V). unfold get_element_count. rewrite C.
      destruct (is_variable_element_count d) eqn:VC; cbn [negb]; [|reflexivity]. specialize (P3 eq_refl).
      rewrite !read_value_ok by lia. do 2 f_equal. apply (keep_slice _ _ _ _ _ K1'); lia. }
    rewrite GC. cbn [bind].
    destruct (patch_loop m1 K1') as (m2 & E2 & K2 & S2). rewrite E2. cbn [bind]. pose proof (keep_len _ _ _ K2) as L2.
    rewrite (Q4 Bi), u32_id by lia. rewrite write_value_ok by lia.
    set (m3 := upd m2 (o + so d n i) (enc (Z.to_nat (vs d)) (s - sz))).
    assert (K3 : keep (fun x => x < o + so d n i \/ o + so d n i + vs d <= x) m2 m3) by (apply (keep_upd' _ _ _ _ (vs d)); auto using zlen_enc_vs; lia).
    assert (L3 : zlen m3 = zlen m) by (pose proof (keep_len _ _ _ K3); lia).
    exists m3. split; [reflexivity|].
    (* facts about the result *)
    assert (KP : keep (fun x => x < o + pbo d + bitmap_size_in_bytes (sb d n) \/ (o + FS d n <= x < o + a) \/ o + s <= x) m m3).
    { eapply keep_trans'; [exact K1| |cbn beta; intros x X; split; [lia|exact X]].
      eapply keep_trans'; [exact K2|exact K3|]. cbn beta. intros x X. lia. }
    assert (K23 : keep (fun x => o + FS d n <= x) m1 m3).
    { eapply keep_trans'; [exact K2|exact K3|]. cbn beta. intros x X. lia. }
    assert (SLI : slot d n m3 o i = s - sz).
    { unfold slot, m3. rewrite slice_upd_same' by (rewrite ?zlen_enc_vs; lia). apply dec_enc_vs. lia. }
    assert (SLF : forall l, 0 <= l < n -> l <> i -> slice m3 (o + so d n l) (eslot (max_size d) (etype d l)) =
      if is_variable_sized_ (etype d l) then enc (Z.to_nat (vs d)) (adj a sz (slot d n m o l)) else slice m (o + so d n l) (eslot (max_size d) (etype d l))).
    { intros l L N. pose proof (slot_in d m o s es l CT V L). pose proof (eslot_nonneg d m o s es l CT V L).
      pose proof (slots_apart d m o s es i l CT V I' L (not_eq_sym N)) as SA. rewrite Ei in SA.
      rewrite (keep_slice _ _ _ _ _ K3) by lia. rewrite S2 by exact L. replace (l <? n) with true by lia. replace (negb (l =? i)) with true by lia.
      rewrite andb_true_r. cbn [andb]. destruct (is_variable_sized_ (etype d l)); [reflexivity|]. apply (keep_slice _ _ _ _ _ K1'); lia. }
    assert (ADJ : forall l cl, 0 <= l -> l <> i -> nth_error es (Z.to_nat l) = Some (CBytes cl) -> is_variable_sized_ (etype d l) = true ->
       (a < slot d n m o l /\ a + sz <= slot d n m o l /\ slot d n m o l + zlen cl <= s /\ adj a sz (slot d n m o l) = slot d n m o l - sz)
       \/ (slot d n m o l + zlen cl <= a /\ FS d n <= slot d n m o l /\ adj a sz (slot d n m o l) = slot d n m o l)).
    { intros l cl L N El Vl. pose proof (cv_el _ _ _ _ _ V l _ L El) as (_ & _ & Al & _). destruct (Al Vl) as (B1 & B2 & _ & B4 & _).
      pose proof (cv_dis _ _ _ _ _ V i l c cl I L (not_eq_sym N) En El Vi Vl) as D. unfold adj. destruct (a <? slot d n m o l) eqn:LT; lia. }
    assert (SLV : forall l cl, 0 <= l -> l <> i -> nth_error es (Z.to_nat l) = Some (CBytes cl) -> is_variable_sized_ (etype d l) = true ->
       slot d n m3 o l = adj a sz (slot d n m o l)).
    { intros l cl L N El Vl. pose proof (znth_some _ _ _ El). assert (L' : 0 <= l < n) by lia.
      pose proof (cv_etype_wf d m o s es l CT V L') as Wl. destruct (eslot_var (max_size d) _ Wl Vl) as (_ & Es & _).
      pose proof (slot_in d m o s es l CT V L') as SIl. rewrite Es in SIl.
      specialize (SLF l L' N). rewrite Vl, Es in SLF. unfold slot at 1. rewrite SLF. apply dec_enc_vs.
      assert (0 <= slot d n m o l < 256 ^ vs d) by (apply dec_vs_range; lia). destruct (ADJ l cl L N El Vl) as [D|D]; lia. }
    split; [|split].
    - constructor; auto.
      + lia.
      + exact (cv_n _ _ _ _ _ V).
      + exact (cv_narrow _ _ _ _ _ V).
      + intro VC. rewrite <- (cv_count _ _ _ _ _ V VC). f_equal. specialize (P3 VC). apply (keep_slice _ _ _ _ _ KP); lia.
      + intros _. rewrite <- (cv_size _ _ _ _ _ V HS). f_equal. apply (keep_slice _ _ _ _ _ KP); lia.
      + exact (cv_tot _ _ _ _ _ V).
      + intros l e L El. pose proof (znth_some _ _ _ El) as LL. assert (L' : 0 <= l < n) by lia.
        pose proof (cv_etype_wf d m o s es l CT V L') as Wl. pose proof (ebits_parts _ Wl) as (EP1 & EP2 & EP3 & EP4).
        pose proof (cv_el _ _ _ _ _ V l e L El) as [B1 B2]. split.
        * intro Nv. rewrite <- (B1 Nv). specialize (EP4 Nv).
          destruct (bit_in_bitmap d m o s es l 0 CT V L' ltac:(lia)) as [X1 X2]. rewrite Z.add_0_r in *.
          apply (keep_bitat _ _ _ _ _ KP); lia.
        * destruct (Z.eq_dec l i) as [->|N].
          { rewrite En in El. injection El as <-. split; [exact Bi|]. split; [|congruence]. intros _. rewrite SLI.
            repeat split; try lia; auto. replace (o + (s - sz)) with (o + a + (s - a) - sz) by lia.
            rewrite (keep_slice _ _ _ _ _ K23) by lia. rewrite R2. exact A3. }
          destruct e as [|z|cl].
          -- destruct B2 as [B2 B3]. split; [exact B2|]. intro Vl. specialize (B3 Vl). destruct (eslot_var (max_size d) _ Wl Vl) as (_ & Es & _).
             specialize (SLF l L' N). rewrite Vl, Es in SLF. unfold slot. rewrite SLF. unfold adj. rewrite B3.
             replace (a <? 0) with false by lia. apply dec_enc_vs. lia.
          -- destruct B2 as (B2 & B3 & B4). split; [exact B2|]. split; [exact B3|]. intros k K. rewrite <- (B4 k K).
             rewrite B2 in *. destruct (bit_in_bitmap d m o s es l (b2n (needs_is_valid_bit (etype d l)) + k) CT V L' ltac:(lia)) as [X1 X2]. rewrite Z.add_assoc in *.
             apply (keep_bitat _ _ _ _ _ KP); lia.
          -- destruct B2 as (B2 & B3 & B4). split; [exact B2|]. split.
             ++ intro Vl. destruct (B3 Vl) as (C1 & C2 & C3 & C4 & C5). rewrite (SLV l cl L N El Vl).
                destruct (ADJ l cl L N El Vl) as [(D1 & D2 & D3 & D4)|(D1 & D2 & D3)]; rewrite ?D4, ?D3.
                ** repeat split; try lia; auto. rewrite (keep_slice _ _ _ _ _ K23) by lia. rewrite R1 by lia. rewrite <- C3 at 2. f_equal. lia.
                ** repeat split; try lia; auto. rewrite (keep_slice _ _ _ _ _ KP) by lia. exact C3.
             ++ intro Fl. destruct (B4 Fl) as [C1 C2]. split; [exact C1|]. specialize (SLF l L' N).
                rewrite Fl, (eslot_fixed _ _ B2 Fl) in SLF. congruence.
      + intros j k cj ck J K JK Ej Ek Vj Vk.
        pose proof (cv_dis _ _ _ _ _ V j k cj ck J K JK Ej Ek Vj Vk) as D.
        destruct (Z.eq_dec j i) as [->|Nj]; [|destruct (Z.eq_dec k i) as [->|Nk]].
        * rewrite En in Ej. injection Ej as <-. rewrite SLI, (SLV k ck K (not_eq_sym JK) Ek Vk). destruct (ADJ k ck K (not_eq_sym JK) Ek Vk); lia.
        * rewrite En in Ek. injection Ek as <-. rewrite SLI, (SLV j cj J Nj Ej Vj). destruct (ADJ j cj J Nj Ej Vj); lia.
        * rewrite (SLV j cj J Nj Ej Vj), (SLV k ck K Nk Ek Vk). destruct (ADJ j cj J Nj Ej Vj), (ADJ k ck K Nk Ek Vk); lia.
    - unfold at_end. exact SLI.
    - eapply keep_weaken; [exact KP|]. cbn beta. intros; lia.
  Qed.
End Move.

Theorem move_ok d m o s es i e : container d -> cv d m o s es -> 0 <= i -> nth_error es (Z.to_nat i) = Some e ->
  exists m', move_to_end d m o i (pos d (zlen es) i) = Ok m' /\ cv d m' o s es
    /\ (is_variable_sized_ (etype d i) = true -> at_end d m' o s es i e)
    /\ (is_variable_sized_ (etype d i) = false -> m' = m)
    /\ keep (fun x => x < o \/ o + s <= x) m m'.
Proof.
  intros CT V I En. pose proof (znth_some _ _ _ En) as IL. assert (I' : 0 <= i < zlen es) by lia.
  destruct (is_variable_sized_ (etype d i)) eqn:Vi.
  - destruct e as [|z|c].
    + exists m. unfold move_to_end. destruct CT as [W C].
      destruct (pos_spec d (zlen es) i W C (cv_n _ _ _ _ _ V) I') as (Q1 & _). rewrite Q1. unfold is_variable_sized_type_info. rewrite Vi. cbn [negb].
      rewrite (cv_get_ptr d m o s es i _ (conj W C) V I En). cbn [bind ptr_of].
      split; [reflexivity|]. split; [exact V|]. split; [unfold at_end; auto|]. split; [congruence|apply keep_refl].
    + exfalso. pose proof (cv_el _ _ _ _ _ V i _ I En) as (_ & A & _). pose proof (cv_etype_wf d m o s es i CT V I') as Wi.
      destruct (eslot_var (max_size d) _ Wi Vi) as (Bi & _). congruence.
    + destruct (move_cv d m o s es i c CT V I En Vi) as (m' & E & V' & AE & K). exists m'. split; [exact E|]. split; [exact V'|]. split; [auto|]. split; [discriminate|exact K].
  - exists m. unfold move_to_end. destruct CT as [W C].
    destruct (pos_spec d (zlen es) i W C (cv_n _ _ _ _ _ V) I') as (Q1 & _). rewrite Q1. unfold is_variable_sized_type_info. rewrite Vi. cbn [negb].
    split; [reflexivity|]. split; [exact V|]. split; [discriminate|]. split; [reflexivity|apply keep_refl].
Qed.
