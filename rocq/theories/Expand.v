(** * Inserting elements into a container *)
From Verif Require Export ArrayFacts.
From Coq Require Import ZifyBool ZifyNat ZifyN Zify.
Ltac Zify.zify_post_hook ::= Z.div_mod_to_equations.

Lemma bitmap_nonneg n : 0 <= n -> 0 <= bitmap_size_in_bytes n.
Proof. unfold bitmap_size_in_bytes. lia. Qed.
Lemma bitmap_mono a b : a <= b -> bitmap_size_in_bytes a <= bitmap_size_in_bytes b.
Proof. unfold bitmap_size_in_bytes. lia. Qed.

(** ** adjusting all offsets *)
Lemma patch_slots d m b nn (f : Z -> Z) (body : Z -> mem -> res mem) : 0 <= b -> 0 <= nn -> b + nn * vs d <= zlen m ->
  (forall j x, 0 <= j < nn -> body j x =
     let* a := read_value x (b + j * vs d) (max_size d) in
     if negb (a =? 0) then write_value x (b + j * vs d) (max_size d) (f a) else Ok x) ->
  (forall i, 0 <= i < nn -> dec (slice m (b + i * vs d) (vs d)) <> 0 -> 0 <= f (dec (slice m (b + i * vs d) (vs d))) < 256 ^ vs d) ->
  exists m', for_loop (Z.to_nat nn) 0 body m = Ok m'
    /\ keep (fun x => x < b \/ b + nn * vs d <= x) m m'
    /\ forall i, 0 <= i < nn -> dec (slice m' (b + i * vs d) (vs d)) =
         let a := dec (slice m (b + i * vs d) (vs d)) in if a =? 0 then 0 else f a.
Proof.
  intros B N R Body F. pose proof (vs_range d) as VS. set (w := vs d) in *.
  destruct (for_loop_ok body (fun j x => keep (fun y => y < b \/ b + nn * w <= y) m x
    /\ forall i, 0 <= i < nn -> dec (slice x (b + i * w) w) =
         let a := dec (slice m (b + i * w) w) in if (i <? j) && negb (a =? 0) then f a else a) (Z.to_nat nn) 0 m) as (m' & E & KP & DV).
  - split; [apply keep_refl|]. intros i I. replace (i <? 0) with false by lia. reflexivity.
  - intros j x J [KX DX]. pose proof (keep_len _ _ _ KX) as LX. assert (J' : 0 <= j < nn) by lia. clear J.
    assert (A1 : 0 <= j * w) by (apply Z.mul_nonneg_nonneg; lia).
    assert (A2 : j * w + w <= nn * w) by (assert (0 <= (nn - 1 - j) * w) by (apply Z.mul_nonneg_nonneg; lia); lia).
    rewrite Body by exact J'. unfold w in A1, A2, R. rewrite read_value_ok by lia. fold w in A1, A2, R |- *. cbn [bind].
    pose proof (DX j J') as DJ. cbn zeta in DJ. rewrite Z.ltb_irrefl in DJ. cbn [andb] in DJ. rewrite DJ.
    set (a := dec (slice m (b + j * w) w)) in *.
    destruct (a =? 0) eqn:Ea; cbn [negb].
    + exists x. split; [reflexivity|]. split; [exact KX|]. intros i I. rewrite DX by exact I. cbn zeta.
      destruct (Z.eq_dec i j) as [->|D].
      * fold a. rewrite Ea. cbn [negb]. rewrite !andb_false_r. reflexivity.
      * replace (i <? j + 1) with (i <? j) by lia. reflexivity.
    + unfold w in A1, A2, R. rewrite write_value_ok by lia. fold w in A1, A2, R |- *. eexists. split; [reflexivity|].
      assert (ZE : zlen (enc (Z.to_nat w) (f a)) = w) by (apply zlen_enc_vs).
      split.
      * eapply keep_trans'; [exact KX|apply (keep_upd' (fun z => z < b + j * w \/ b + j * w + w <= z) _ _ _ w); auto; lia|].
        cbn beta. intros z Hz. lia.
      * intros i I. destruct (Z.eq_dec i j) as [->|D].
        -- rewrite slice_upd_same' by lia. fold a. replace ((j <? j + 1) && negb (a =? 0)) with true by lia.
           apply dec_enc_vs. apply F; [exact J'|lia].
        -- assert (0 <= i * w) by (apply Z.mul_nonneg_nonneg; lia).
           assert (i * w + w <= nn * w) by (assert (0 <= (nn - 1 - i) * w) by (apply Z.mul_nonneg_nonneg; lia); lia).
           assert (SEP : i * w + w <= j * w \/ j * w + w <= i * w).
           { destruct (Z_lt_le_dec i j); [left; assert (0 <= (j - 1 - i) * w) by (apply Z.mul_nonneg_nonneg; lia)|right; assert (0 <= (i - 1 - j) * w) by (apply Z.mul_nonneg_nonneg; lia)]; lia. }
           rewrite slice_upd_dis by lia. rewrite DX by exact I. cbn zeta. replace (i <? j + 1) with (i <? j) by lia. reflexivity.
  - exists m'. split; [exact E|]. split; [exact KP|]. intros i I. rewrite DV by exact I. cbn zeta.
    replace (i <? 0 + Z.of_nat (Z.to_nat nn)) with true by lia. cbn [andb]. destruct (dec (slice m (b + i * w) w) =? 0) eqn:Ez; cbn [negb]; lia.
Qed.

(** ** the prefix *)
Section Prefix.
  Variables (d : dti).
  Hypothesis CT : container d.
  Hypothesis VC : is_variable_element_count d = true.
  Notation c := (containee d).

  Lemma slot_keep m m' o n i s : 0 <= o -> 0 <= i < n -> n < 4294967296 -> is_variable_sized_ c = true -> FS d n <= s -> o + s <= zlen m ->
    keep (fun x => o + pbo d <= x < o + s) m m' -> slot d n m' o i = slot d n m o i.
  Proof.
    intros Ho I N Vc F S K. pose proof (arr_count d VC n ltac:(lia)) as CN. destruct CT as [W C].
    destruct (eslot_var (max_size d) _ (arr_wf d CT VC) Vc) as (Bc & Es & _).
    assert (SI : pbo d + bitmap_size_in_bytes (sb d n) <= so d n i /\ so d n i + vs d <= FS d n).
    { pose proof (ss_before d n i n W C CN ltac:(lia) ltac:(lia) ltac:(lia)) as [X1 X2]. rewrite (arr_etype d VC), Es in X2. unfold FS, so. lia. }
    pose proof (sb_nonneg d n n W C CN ltac:(lia)) as SB. pose proof (bitmap_nonneg _ SB). pose proof (vs_range d). pose proof (pbo_range d) as (P1 & _).
    unfold slot. rewrite (keep_slice _ _ _ _ _ K) by lia. reflexivity.
  Qed.
  Lemma elem_ok_keep m m' o n i s e : 0 <= o -> 0 <= i < n -> n < 4294967296 -> FS d n <= s -> o + s <= zlen m ->
    keep (fun x => o + pbo d <= x < o + s) m m' -> elem_ok d m o s n i e -> elem_ok d m' o s n i e.
  Proof.
    intros Ho I N F S K A. pose proof (arr_count d VC n ltac:(lia)) as CN. pose proof CT as [W C].
    pose proof (arr_wf d CT VC) as Wc. pose proof (ebits_range _ Wc) as EB. pose proof (eslot_range (max_size d) _ Wc) as ES.
    pose proof (sb_before d n i n W C CN ltac:(lia) ltac:(lia) ltac:(lia)) as [X1 X2]. rewrite (arr_etype d VC) in X2.
    pose proof (ss_before d n i n W C CN ltac:(lia) ltac:(lia) ltac:(lia)) as [Y1 Y2]. rewrite (arr_etype d VC) in Y2.
    pose proof (FS_le d n n CT CN ltac:(lia)) as FL. pose proof (pbo_range d) as (P1 & _).
    assert (HB : forall b, 0 <= b < ebits c -> bitat m' (o + pbo d) (i * ebits c + b) = bitat m (o + pbo d) (i * ebits c + b)).
    { intros b B. rewrite !(arr_sb d VC) in *. pose proof (bitmap_bytes_bound (n * ebits c) (i * ebits c + b) ltac:(lia)).
      apply (keep_bitat _ _ _ _ _ K); lia. }
    assert (HS : slice m' (o + so d n i) (eslot (max_size d) c) = slice m (o + so d n i) (eslot (max_size d) c)).
    { unfold FS, so in *. pose proof (bitmap_nonneg (sb d n) ltac:(lia)). apply (keep_slice _ _ _ _ _ K); lia. }
    destruct (is_variable_sized_ c) eqn:Vc; [|apply (elem_same_fixed d CT VC m o s n i); auto].
    pose proof (slot_keep m m' o n i s Ho I N Vc F S K) as SL.
    destruct A as [A1 A2]. unfold elem_ok in *. rewrite !(arr_etype d VC) in *. rewrite !(arr_sb d VC) in *. split.
    - intro Nv. destruct (eslot_var (max_size d) _ Wc Vc) as (_ & _ & X & _). congruence.
    - destruct e as [|z|cb].
      + destruct A2 as [A2 A3]. split; [exact A2|]. intros _. rewrite SL. auto.
      + destruct A2 as [A2 _]. destruct (eslot_var (max_size d) _ Wc Vc) as (X & _). congruence.
      + destruct A2 as (B1 & B2 & B3). split; [exact B1|]. split; [|congruence]. intros _. rewrite SL. destruct (B2 Vc) as (Z1 & Z2 & Z3 & Z4 & Z5).
        split; [exact Z1|]. split; [exact Z2|]. split; [|auto]. rewrite <- Z3 at 2. pose proof (bitmap_nonneg (n * ebits c) ltac:(lia)). apply (keep_slice _ _ _ _ _ K); lia.
  Qed.

  Lemma write_prefix_cv m o s es : 0 <= o -> o + s <= zlen m -> zlen es < 4294967296 -> zlen es < 256 ^ vs d -> narrow d (zlen es) ->
    s <= max_size d -> s = FS d (zlen es) + vsum c es ->
    (forall i e, 0 <= i -> nth_error es (Z.to_nat i) = Some e -> elem_ok d m o s (zlen es) i e) ->
    (is_variable_sized_ c = true -> forall i j ci cj, 0 <= i -> 0 <= j -> i <> j ->
      nth_error es (Z.to_nat i) = Some (CBytes ci) -> nth_error es (Z.to_nat j) = Some (CBytes cj) ->
      slot d (zlen es) m o i + zlen ci <= slot d (zlen es) m o j \/ slot d (zlen es) m o j + zlen cj <= slot d (zlen es) m o i) ->
    exists m', write_prefix d m o s (zlen es) = Ok m' /\ cv d m' o s es /\ keep (fun x => x < o \/ o + pbo d <= x) m m'.
  Proof.
    intros Ho Hs N32 NV NR MX ST EL DIS. pose proof CT as [W C]. pose proof (pbo_range d) as (P1 & P2 & P3 & P4 & P5 & P6). specialize (P3 VC).
    pose proof (vs_range d) as VS. pose proof (zlen_nonneg es) as Zn. pose proof (arr_count d VC (zlen es) ltac:(lia)) as CN.
    pose proof (FS_le d (zlen es) (zlen es) CT CN ltac:(lia)) as FL. pose proof (vsum_nonneg c es) as VN.
    pose proof (bitmap_nonneg _ (sb_nonneg d (zlen es) (zlen es) W C CN ltac:(lia))) as BN.
    unfold write_prefix. unfold has_element_count_in_prefix. rewrite VC. rewrite (arr_size_prefix d CT VC) in *.
    set (m1 := if is_variable_sized_ c then upd m (o + 0) (enc (Z.to_nat (vs d)) s) else m).
    assert (E1 : (if is_variable_sized_ c then write_value m (o + 0) (max_size d) s else Ok m) = Ok m1).
    { unfold m1. destruct (is_variable_sized_ c); [|reflexivity]. specialize (P4 eq_refl). apply write_value_ok; lia. }
    step E1.
    assert (K1 : keep (fun x => x < o \/ o + pbo d <= x) m m1).
    { unfold m1. destruct (is_variable_sized_ c); [|apply keep_refl]. specialize (P4 eq_refl). apply (keep_upd' _ _ _ _ (vs d)); auto using zlen_enc_vs; lia. }
    pose proof (keep_len _ _ _ K1) as L1. rewrite write_value_ok by lia. eexists. split; [reflexivity|].
    set (m2 := upd m1 _ _).
    assert (K2 : keep (fun x => x < o + offset_of_prefix_count d \/ o + pbo d <= x) m1 m2) by (apply (keep_upd' _ _ _ _ (vs d)); auto using zlen_enc_vs; lia).
    pose proof (keep_len _ _ _ K2) as L2.
    assert (K : keep (fun x => x < o \/ o + pbo d <= x) m m2) by (eapply keep_trans'; [exact K1|exact K2|]; cbn beta; intros; lia).
    assert (K' : keep (fun x => o + pbo d <= x < o + s) m m2) by (eapply keep_weaken; [exact K|]; cbn beta; intros; lia).
    split; [|exact K]. apply cv_arr; auto; try lia.
    - unfold m2. rewrite slice_upd_same' by (rewrite ?zlen_enc_vs; lia). apply dec_enc_vs. lia.
    - intro Vc. rewrite Vc in *. specialize (P4 eq_refl). rewrite (keep_slice _ _ _ _ _ K2) by lia. unfold m1. rewrite Vc, Z.add_0_r.
      rewrite slice_upd_same' by (rewrite ?zlen_enc_vs; lia). rewrite dec_enc. rewrite Z2Nat.id by lia. reflexivity.
    - intros i e I Ei. pose proof (znth_some _ _ _ Ei). apply (elem_ok_keep m); auto; lia.
    - intros Vc i j ci cj I J D Ei Ej. pose proof (znth_some _ _ _ Ei). pose proof (znth_some _ _ _ Ej).
      rewrite !(slot_keep m m2 o (zlen es) _ s) by (auto; lia). eapply DIS; eassumption.
  Qed.
End Prefix.

(** ** the three cases *)
Section Cases.
  Variables (d : dti) (m : mem) (o s : Z) (es : list celem) (index slots : Z).
  Hypothesis CT : container d.
  Hypothesis VC : is_variable_element_count d = true.
  Hypothesis V : cv d m o s es.
  Notation c := (containee d).
  Notation n := (zlen es).
  Notation k := (ebits c).
  Notation sz := (eslot (max_size d) c).
  Hypothesis HI : 0 <= index <= n.
  Hypothesis HSl : 0 <= slots.
  Notation nn := (n + slots).
  Hypothesis HN : nn < 4294967296.
  Hypothesis HL : pbo d + bitmap_size_in_bytes (nn * k) + nn * sz < 4294967296.
  Hypothesis HR : o + FS d nn <= zlen m.

  (** the elements of [m] from [index] on are [slots] further in [m'], with
      zeros between *)
  Definition shifted (m' : mem) : Prop :=
    keep (fun x => x < o + pbo d \/ o + FS d nn <= x) m m'
    /\ (forall x, 0 <= x < nn * k -> bitat m' (o + pbo d) x =
          if x <? index * k then bitat m (o + pbo d) x
          else if x <? (index + slots) * k then false else bitat m (o + pbo d) (x - slots * k))
    /\ (forall i, 0 <= i < nn -> slice m' (o + so d nn i) sz =
          if i <? index then slice m (o + so d n i) sz
          else if i <? index + slots then zeros sz else slice m (o + so d n (i - slots)) sz).

  Lemma expand_facts : 0 <= o /\ 0 <= k <= 65 /\ 0 <= sz /\ 0 <= slots * k /\ 0 <= index * k <= n * k /\ n * k <= nn * k
    /\ 0 <= slots * sz /\ 0 <= index * sz <= n * sz /\ n * sz <= nn * sz /\ 0 <= pbo d <= 8.
  Proof.
    pose proof (arr_wf d CT VC) as Wc. pose proof (ebits_range _ Wc) as EB. pose proof (eslot_range (max_size d) _ Wc) as ES.
    pose proof (cv_o _ _ _ _ _ V). pose proof (pbo_range d) as (P1 & _).
    repeat split; try lia; try (apply Z.mul_nonneg_nonneg; lia); try (apply Z.mul_le_mono_nonneg_r; lia).
  Qed.

  Lemma expand_bits_ok : is_bit_field c = true -> k <= 64 ->
    exists m', expand_bits d m o index slots n nn = Ok m' /\ shifted m'.
  Proof.
    intros Bc K64. pose proof expand_facts as (F1 & F2 & F3 & F4 & F5 & F6 & F7 & F8 & F9 & F10).
    pose proof (ebits_parts _ (arr_wf d CT VC)) as (EP1 & EP2 & EP3 & EP4). specialize (EP3 Bc). rewrite Bc in EP1.
    assert (Sz : sz = 0) by (unfold eslot; rewrite Bc; reflexivity).
    rewrite (arr_FS d VC), Sz, Z.mul_0_r, Z.add_0_r in HR. rewrite Sz, Z.mul_0_r, Z.add_0_r in HL.
    pose proof (bitmap_mono (n * k) (nn * k) F6) as BM.
    unfold expand_bits. rewrite <- EP1. rewrite (u32_id k) by lia.
    assert (NK : 0 <= nn * k <= 279172874240) by (apply mul65; lia).
    assert (G : forall x, 0 <= x < nn -> u64 (u32 x * k) = x * k).
    { intros x X. rewrite u32_id by lia. apply u64_id. assert (0 <= x * k <= 279172874240) by (apply mul65; lia). lia. }
    destruct (groups_up (o + pbo d) k n nn index slots ltac:(lia) ltac:(lia)
      (fun i m => let from := u64 (u32 (n - 1 - i) * k) in
          let to := u64 (u32 (nn - 1 - i) * k) in
          let* t := get_bits m (o + pbo d) from (from + k - 1) in
          set_bits m (o + pbo d) to (to + k - 1) t) m (nn * k) HI HSl eq_refl eq_refl ltac:(lia)) as (m1 & E1 & K1 & B1).
    { intros j x J. cbv zeta. rewrite !G by lia. reflexivity. }
    step E1. pose proof (keep_len _ _ _ K1) as L1.
    assert (SK : (index + slots) * k <= nn * k) by (apply Z.mul_le_mono_nonneg_r; lia).
    destruct (groups_clear (o + pbo d) k index slots ltac:(lia)
      (fun i m => let to := u64 (u32 (index + i) * k) in set_bits m (o + pbo d) to (to + k - 1) 0) m1 (nn * k) ltac:(lia) HSl SK ltac:(lia)) as (m2 & E2 & K2 & B2).
    { intros j x J Lx. cbv zeta. rewrite G by lia.
      assert (0 <= (index + j) * k) by (apply Z.mul_nonneg_nonneg; lia).
      assert ((index + j + 1) * k <= nn * k) by (apply Z.mul_le_mono_nonneg_r; lia).
      apply clear_bits; lia. }
    step E2. pose proof (keep_len _ _ _ K2) as L2. rewrite u64_id by lia.
    destruct (zero_unused_ok m2 (o + pbo d) (nn * k) ltac:(lia) ltac:(lia) ltac:(lia)) as (m3 & E3 & K3 & B3).
    exists m3. split; [exact E3|]. split; [|split].
    - rewrite (arr_FS d VC), Sz, Z.mul_0_r, Z.add_0_r.
      eapply keep_trans'; [exact K1|eapply keep_trans; [exact K2|exact K3]|]. unfold off_bitmap. cbn beta. intros; lia.
    - intros x X. rewrite B3, B2, B1 by lia.
      destruct (x <? index * k) eqn:C1.
      + replace (index * k <=? x) with false by lia. cbn [andb].
        replace ((index + slots) * k <=? x) with false by lia. reflexivity.
      + replace (index * k <=? x) with true by lia. cbn [andb]. destruct (x <? (index + slots) * k) eqn:C2; [reflexivity|].
        match goal with |- (if ?q then _ else _) = _ => replace q with true by lia end. reflexivity.
    - intros i I. rewrite Sz, !slice_0. destruct (i <? index), (i <? index + slots); reflexivity.
  Qed.

  Lemma expand_fixed_ok : is_bit_field c = false -> is_variable_sized_ c = false -> s = FS d n ->
    exists m', expand_fixed d m o index slots n nn s = Ok m' /\ shifted m'.
  Proof.
    intros Bc Vc Es. pose proof expand_facts as (F1 & F2 & F3 & F4 & F5 & F6 & F7 & F8 & F9 & F10).
    pose proof (ebits_parts _ (arr_wf d CT VC)) as (EP1 & EP2 & EP3 & EP4). rewrite Bc, Z.add_0_r in EP1.
    pose proof (eslot_fixed (max_size d) c Bc Vc) as Sz. pose proof (zlen_nonneg es) as Zn.
    pose proof (bitmap_mono (n * k) (nn * k) F6) as BM. pose proof (bitmap_nonneg (n * k) ltac:(lia)) as BN.
    assert (HR' : o + (pbo d + bitmap_size_in_bytes (nn * k) + nn * sz) <= zlen m) by (rewrite <- (arr_FS d VC); exact HR).
    assert (Es' : s = pbo d + bitmap_size_in_bytes (n * k) + n * sz) by (rewrite <- (arr_FS d VC); exact Es).
    pose proof (cv_s _ _ _ _ _ V) as Hs.
    unfold expand_fixed. rewrite <- EP1, <- Sz.
    assert (NK : 0 <= nn * k <= nn) by (split; [lia|transitivity (nn * 1); [apply Z.mul_le_mono_nonneg_l; lia|lia]]).
    rewrite (u32_id (n * k)), (u32_id (nn * k)) by lia.
    set (bo := bitmap_size_in_bytes (n * k)) in *. set (bn := bitmap_size_in_bytes (nn * k)) in *.
    rewrite (u32_id (pbo d + bo)), (u32_id (pbo d + bn)) by lia. rewrite (u32_id (s - (pbo d + bo))) by lia.
    replace (s - (pbo d + bo)) with (n * sz) by lia.
    set (m1 := if negb (bo =? bn) then upd m (o + (pbo d + bn)) (slice m (o + (pbo d + bo)) (n * sz)) else m).
    assert (E1 : (if negb (bo =? bn) then memmove m (o + (pbo d + bn)) (o + (pbo d + bo)) (n * sz) else Ok m) = Ok m1).
    { unfold m1. destruct (bo =? bn); cbn [negb]; [reflexivity|]. apply memmove_ok; lia. }
    step E1.
    assert (ZS : zlen (slice m (o + (pbo d + bo)) (n * sz)) = n * sz) by (apply zlen_slice; lia).
    assert (K1 : keep (fun x => x < o + (pbo d + bn) \/ o + (pbo d + bn) + n * sz <= x) m m1).
    { unfold m1. destruct (bo =? bn); cbn [negb]; [apply keep_refl|]. apply (keep_upd' _ _ _ _ (n * sz)); auto; lia. }
    assert (S1 : slice m1 (o + (pbo d + bn)) (n * sz) = slice m (o + (pbo d + bo)) (n * sz)).
    { unfold m1. destruct (bo =? bn) eqn:Eb; cbn [negb]; [f_equal; lia|]. apply slice_upd_same'; lia. }
    pose proof (keep_len _ _ _ K1) as L1. clearbody m1.
    (* the bits *)
    assert (E3 : exists m3, (if needs_is_valid_bit c then
      let* m2 := for_loop (Z.to_nat (n - index)) 0 (fun i m =>
        let* t := get_bits m (o + pbo d) (u32 (n - 1 - i)) (u32 (n - 1 - i)) in
        set_bits m (o + pbo d) (u32 (nn - 1 - i)) (u32 (nn - 1 - i)) t) m1 in
      for_loop (Z.to_nat slots) 0 (fun i m => reset_bit m (o + pbo d) (u32 (index + i))) m2
      else Ok m1) = Ok m3 /\ keep (off_bitmap (o + pbo d) bn) m1 m3
      /\ forall x, 0 <= x < nn * k -> bitat m3 (o + pbo d) x =
          if x <? index * k then bitat m1 (o + pbo d) x
          else if x <? (index + slots) * k then false else bitat m1 (o + pbo d) (x - slots * k)).
    { destruct (needs_is_valid_bit c) eqn:Nv; cbn [b2n] in EP1.
      2:{ exists m1. split; [reflexivity|]. split; [apply keep_refl|]. rewrite EP1. intros x X. lia. }
      destruct (groups_up (o + pbo d) 1 n nn index slots ltac:(lia) ltac:(lia)
        (fun i m => let* t := get_bits m (o + pbo d) (u32 (n - 1 - i)) (u32 (n - 1 - i)) in
          set_bits m (o + pbo d) (u32 (nn - 1 - i)) (u32 (nn - 1 - i)) t) m1 (nn * k) HI HSl eq_refl ltac:(rewrite EP1; reflexivity) ltac:(fold bn; lia)) as (m2 & E2 & K2 & B2).
      { intros j x J. rewrite !u32_id by lia. rewrite !Z.mul_1_r, !Z.add_simpl_r. reflexivity. }
      step E2. pose proof (keep_len _ _ _ K2) as L2.
      destruct (groups_clear (o + pbo d) 1 index slots ltac:(lia)
        (fun i m => reset_bit m (o + pbo d) (u32 (index + i))) m2 (nn * k) ltac:(lia) HSl ltac:(lia) ltac:(fold bn; lia)) as (m3 & E3 & K3 & B3).
      { intros j x J Lx. rewrite u32_id by lia. rewrite !Z.mul_1_r. apply clear_bit; try lia; fold bn; lia. }
      exists m3. split; [exact E3|]. split; [eapply keep_trans; [exact K2|exact K3]|].
      intros x X. rewrite B3, B2 by lia. rewrite EP1, !Z.mul_1_r in *. destruct (x <? index) eqn:C1.
      + replace (index <=? x) with false by lia. cbn [andb].
        replace (index + slots <=? x) with false by lia. reflexivity.
      + replace (index <=? x) with true by lia. cbn [andb]. destruct (x <? index + slots) eqn:C2; [reflexivity|].
        match goal with |- (if ?q then _ else _) = _ => replace q with true by lia end. reflexivity. }
    destruct E3 as (m3 & E3 & K3 & B3). step E3. pose proof (keep_len _ _ _ K3) as L3.
    assert (S3 : slice m3 (o + (pbo d + bn)) (n * sz) = slice m (o + (pbo d + bo)) (n * sz)).
    { rewrite (keep_slice _ _ _ _ _ K3); [exact S1| | | |]; try lia. unfold off_bitmap. intros; lia. }
    (* the slots *)
    assert (A1 : 0 <= (n - index) * sz) by (apply Z.mul_nonneg_nonneg; lia).
    assert (A2 : (n - index) * sz <= nn * sz) by (apply Z.mul_le_mono_nonneg_r; lia).
    assert (A3 : (index + slots) * sz <= nn * sz) by (apply Z.mul_le_mono_nonneg_r; lia).
    rewrite (u32_id (index + slots)) by lia. rewrite (u32_id ((index + slots) * sz)), (u32_id (index * sz)), (u32_id ((n - index) * sz)), (u32_id (slots * sz)) by lia.
    rewrite memmove_ok by lia. cbn [bind].
    set (cp := slice m3 (o + (pbo d + bn) + index * sz) ((n - index) * sz)).
    assert (ZC : zlen cp = (n - index) * sz) by (apply zlen_slice; lia).
    set (m4 := upd m3 (o + (pbo d + bn) + (index + slots) * sz) cp).
    assert (L4 : zlen m4 = zlen m3) by (apply zlen_upd; lia).
    rewrite memset_ok by lia. cbn [bind]. fold (zeros (slots * sz)). pose proof (zlen_zeros (slots * sz) ltac:(lia)) as ZZ.
    set (m5 := upd m4 (o + (pbo d + bn) + index * sz) (zeros (slots * sz))).
    assert (L5 : zlen m5 = zlen m4) by (apply zlen_upd; lia).
    assert (K5 : keep (fun x => x < o + (pbo d + bn) \/ o + (pbo d + bn) + nn * sz <= x) m3 m5).
    { assert (Ka : keep (fun x => x < o + (pbo d + bn) + (index + slots) * sz \/ o + (pbo d + bn) + nn * sz <= x) m3 m4) by (apply (keep_upd' _ _ _ _ ((n - index) * sz)); auto; lia).
      assert (Kb : keep (fun x => x < o + (pbo d + bn) + index * sz \/ o + (pbo d + bn) + index * sz + slots * sz <= x) m4 m5) by (apply (keep_upd' _ _ _ _ (slots * sz)); auto; lia).
      eapply keep_trans'; [exact Ka|exact Kb|]. cbn beta. intros; lia. }
    assert (E6 : exists m6, (if needs_is_valid_bit c then zero_unused_bits m5 (o + pbo d) nn else Ok m5) = Ok m6
        /\ keep (off_bitmap (o + pbo d) bn) m5 m6 /\ forall x, 0 <= x < nn * k -> bitat m6 (o + pbo d) x = bitat m5 (o + pbo d) x).
    { destruct (needs_is_valid_bit c) eqn:Nv; cbn [b2n] in EP1.
      - destruct (zero_unused_ok m5 (o + pbo d) nn) as (m6 & E6 & K6 & B6); try lia. { unfold bn in *. rewrite EP1, Z.mul_1_r in *. lia. }
        exists m6. split; [exact E6|]. unfold bn. rewrite EP1, Z.mul_1_r. split; [exact K6|exact B6].
      - exists m5. split; [reflexivity|]. split; [apply keep_refl|reflexivity]. }
    destruct E6 as (m6 & E6 & K6 & B6). exists m6. split; [exact E6|]. pose proof (keep_len _ _ _ K6) as L6.
    assert (K16 : keep (fun x => x < o + pbo d \/ o + FS d nn <= x) m m6).
    { rewrite (arr_FS d VC). eapply keep_trans'; [exact K1|eapply keep_trans'; [exact K3|eapply keep_trans'; [exact K5|exact K6|intros x Q; exact Q]|intros x Q; exact Q]|].
      unfold off_bitmap. cbn beta. intros; lia. }
    split; [exact K16|]. split.
    - intros x X. pose proof (bitmap_bytes_bound _ _ X) as XB. fold bn in XB. rewrite B6 by exact X.
      rewrite (keep_bitat _ _ _ _ _ K5) by lia. rewrite B3 by exact X.
      assert (OLD : forall y, 0 <= y < n * k -> bitat m1 (o + pbo d) y = bitat m (o + pbo d) y).
      { intros y Y. pose proof (bitmap_bytes_bound _ _ Y) as YB. fold bo in YB. apply (keep_bitat _ _ _ _ _ K1); lia. }
      destruct (x <? index * k) eqn:C1; [apply OLD; lia|]. destruct (x <? (index + slots) * k) eqn:C2; [reflexivity|]. apply OLD. lia.
    - intros i I. rewrite !(arr_so d VC). fold bn bo.
      assert (I1 : 0 <= i * sz) by (apply Z.mul_nonneg_nonneg; lia).
      assert (I2 : i * sz + sz <= nn * sz) by (assert (0 <= (nn - 1 - i) * sz) by (apply Z.mul_nonneg_nonneg; lia); lia).
      rewrite (keep_slice _ _ _ _ _ K6); [|lia|lia|lia|unfold off_bitmap; intros; lia].
      assert (SRC : forall l, 0 <= l < n -> slice m3 (o + (pbo d + bn + l * sz)) sz = slice m (o + (pbo d + bo + l * sz)) sz).
      { intros l L.
        assert (J1 : 0 <= l * sz) by (apply Z.mul_nonneg_nonneg; lia).
        assert (J2 : l * sz + sz <= n * sz) by (assert (0 <= (n - 1 - l) * sz) by (apply Z.mul_nonneg_nonneg; lia); lia).
        assert (Q : slice (slice m3 (o + (pbo d + bn)) (n * sz)) (l * sz) sz = slice (slice m (o + (pbo d + bo)) (n * sz)) (l * sz) sz) by (rewrite S3; reflexivity).
        rewrite !slice_slice in Q by lia.
        replace (o + (pbo d + bn + l * sz)) with (o + (pbo d + bn) + l * sz) by lia. replace (o + (pbo d + bo + l * sz)) with (o + (pbo d + bo) + l * sz) by lia. exact Q. }
      unfold m5. destruct (i <? index) eqn:C1.
      + assert (i * sz + sz <= index * sz) by (assert (0 <= (index - 1 - i) * sz) by (apply Z.mul_nonneg_nonneg; lia); lia).
        rewrite slice_upd_dis by lia. unfold m4. rewrite slice_upd_dis by lia. apply SRC. lia.
      + assert (index * sz <= i * sz) by (apply Z.mul_le_mono_nonneg_r; lia).
        destruct (i <? index + slots) eqn:C2.
        * assert (i * sz + sz <= (index + slots) * sz) by (assert (0 <= (index + slots - 1 - i) * sz) by (apply Z.mul_nonneg_nonneg; lia); lia).
          rewrite slice_upd_in by lia. apply slice_zeros; lia.
        * assert ((index + slots) * sz <= i * sz) by (apply Z.mul_le_mono_nonneg_r; lia).
          rewrite slice_upd_dis by lia. unfold m4. rewrite slice_upd_in by lia. unfold cp. rewrite slice_slice by lia.
          rewrite <- SRC by lia. f_equal. lia.
  Qed.

  Lemma shifted_elems m' : is_variable_sized_ c = false -> shifted m' -> forall s' i e, 0 <= i ->
    nth_error (ins es index slots (zelem c)) (Z.to_nat i) = Some e -> elem_ok d m' o s' nn i e.
  Proof.
    intros Vc (KP & HB & HS) s' i e I En. pose proof expand_facts as (F1 & F2 & F3 & F4 & F5 & F6 & F7 & F8 & F9 & F10).
    rewrite nth_ins in En by lia. pose proof (arr_wf d CT VC) as Wc.
    assert (MK : forall a b, 0 <= a -> a + 1 <= b -> 0 <= a * k /\ a * k + k <= b * k).
    { intros a b A B. split; [apply Z.mul_nonneg_nonneg; lia|]. assert (0 <= (b - 1 - a) * k) by (apply Z.mul_nonneg_nonneg; lia). lia. }
    destruct (i <? index) eqn:C1.
    - pose proof (znth_some _ _ _ En). apply (elem_same_fixed d CT VC m o s n i); auto; [apply (cv_el _ _ _ _ _ V); auto| |].
      + intros b B. pose proof (MK i index ltac:(lia) ltac:(lia)). rewrite HB by lia. replace (i * k + b <? index * k) with true by lia. reflexivity.
      + rewrite HS by lia. rewrite C1. reflexivity.
    - destruct (i <? index + slots) eqn:C2.
      + injection En as <-. rewrite <- (arr_etype d VC i). pose proof (MK i (index + slots) ltac:(lia) ltac:(lia)) as M1.
        assert ((index + slots) * k <= nn * k) by (apply Z.mul_le_mono_nonneg_r; lia).
        assert (index * k <= i * k) by (apply Z.mul_le_mono_nonneg_r; lia).
        apply zelem_ok; auto; try (apply arr_count; auto; lia); rewrite ?(arr_etype d VC); auto; try lia.
        * intros b B. rewrite (arr_sb d VC) in B. rewrite HB by lia.
          replace (b <? index * k) with false by lia. replace (b <? (index + slots) * k) with true by lia. reflexivity.
        * rewrite HS by lia. rewrite C1, C2. reflexivity.
      + pose proof (znth_some _ _ _ En). pose proof (MK (i - slots) n ltac:(lia) ltac:(lia)) as M1.
        assert ((index + slots) * k <= i * k) by (apply Z.mul_le_mono_nonneg_r; lia).
        apply (elem_same_fixed d CT VC m o s n (i - slots)); auto; [apply (cv_el _ _ _ _ _ V); auto; lia| |].
        * intros b B. rewrite HB by lia. replace (i * k + b <? index * k) with false by lia.
          replace (i * k + b <? (index + slots) * k) with false by lia. f_equal. lia.
        * rewrite HS by lia. rewrite C1, C2. reflexivity.
  Qed.

  (** *** variable size *)
  Hypothesis Vc : is_variable_sized_ c = true.

  Lemma var_facts : k = 0 /\ sz = vs d /\ is_bit_field c = false /\ (forall q i, so d q i = pbo d + i * vs d) /\ (forall q, FS d q = pbo d + q * vs d).
  Proof.
    destruct (eslot_var (max_size d) _ (arr_wf d CT VC) Vc) as (Bc & Ez & Nv & Nl).
    assert (K0 : k = 0) by (unfold ebits; rewrite Nv, Bc; reflexivity).
    split; [exact K0|]. split; [exact Ez|]. split; [exact Bc|]. split; intros.
    - rewrite (arr_so d VC), K0, Ez, Z.mul_0_r. change (bitmap_size_in_bytes 0) with 0. lia.
    - rewrite (arr_FS d VC), K0, Ez, Z.mul_0_r. change (bitmap_size_in_bytes 0) with 0. lia.
  Qed.
  Lemma var_slot_cases i : 0 <= i < n -> exists e, nth_error es (Z.to_nat i) = Some e /\
    ((e = CNull /\ slot d n m o i = 0) \/
     exists cb, e = CBytes cb /\ FS d n <= slot d n m o i /\ slot d n m o i + zlen cb <= s
       /\ slice m (o + slot d n m o i) (zlen cb) = cb /\ 1 <= zlen cb <= max_size c /\ get_size c cb 0 = Ok (zlen cb)).
  Proof.
    intro I. destruct (znth_lt es i I) as [e E]. exists e. split; [exact E|].
    destruct (cv_el _ _ _ _ _ V i e ltac:(lia) E) as [_ A]. rewrite (arr_etype d VC) in A. destruct e as [|z|cb].
    - left. split; [reflexivity|]. apply A. exact Vc.
    - destruct A as [A _]. pose proof var_facts as (_ & _ & X & _). congruence.
    - right. exists cb. split; [reflexivity|]. destruct A as (_ & A & _). exact (A Vc).
  Qed.

  Lemma expand_var_ok : s + slots * vs d <= max_size d -> o + (s + slots * vs d) <= zlen m ->
    exists m', expand_var d m o index slots nn s = Ok m'
      /\ keep (fun x => x < o + pbo d \/ o + (s + slots * vs d) <= x) m m'
      /\ (forall i e, 0 <= i -> nth_error (ins es index slots (zelem c)) (Z.to_nat i) = Some e -> elem_ok d m' o (s + slots * vs d) nn i e)
      /\ (forall i j ci cj, 0 <= i -> 0 <= j -> i <> j ->
          nth_error (ins es index slots (zelem c)) (Z.to_nat i) = Some (CBytes ci) -> nth_error (ins es index slots (zelem c)) (Z.to_nat j) = Some (CBytes cj) ->
          slot d nn m' o i + zlen ci <= slot d nn m' o j \/ slot d nn m' o j + zlen cj <= slot d nn m' o i).
  Proof.
    intros MX RM. pose proof var_facts as (K0 & Ez & Bc & SO & FSE). pose proof CT as [W C].
    pose proof (cv_o _ _ _ _ _ V) as Ho. pose proof (cv_s _ _ _ _ _ V) as Hs. pose proof (cv_tot _ _ _ _ _ V) as TOT. pose proof (vtot_nonneg d es 0) as VN.
    pose proof (pbo_range d) as (P1 & _). pose proof (vs_range d) as VS. pose proof (vs_enough d W) as VE. pose proof (wf_node d W) as (_ & _ & MSD & _). unfold max_bytes in *.
    pose proof (zlen_nonneg es) as Zn. rewrite FSE in TOT. rewrite Ez, K0, Z.mul_0_r in HL. change (bitmap_size_in_bytes 0) with 0 in HL.
    assert (PB : 1 <= pbo d). { pose proof (pbo_range d) as (_ & Q & P3 & _). specialize (P3 VC). lia. }
    set (w := vs d) in *.
    assert (W1 : 0 <= index * w <= n * w) by (split; [apply Z.mul_nonneg_nonneg; lia|apply Z.mul_le_mono_nonneg_r; lia]).
    assert (W2 : 0 <= slots * w) by (apply Z.mul_nonneg_nonneg; lia).
    unfold expand_var. fold w. rewrite (u32_id (pbo d + w * index)), (u32_id (pbo d + w * (index + slots))) by lia.
    rewrite u32_id by lia. rewrite memmove_ok by lia. cbn [bind].
    set (cp := slice m (o + (pbo d + w * index)) (s - (pbo d + w * index))).
    assert (ZC : zlen cp = s - (pbo d + w * index)) by (apply zlen_slice; lia).
    set (m1 := upd m (o + (pbo d + w * (index + slots))) cp).
    assert (L1 : zlen m1 = zlen m) by (apply zlen_upd; lia).
    rewrite u32_id by lia. rewrite memset_ok by lia. cbn [bind].
    replace (pbo d + w * (index + slots) - (pbo d + w * index)) with (slots * w) by lia. fold (zeros (slots * w)).
    pose proof (zlen_zeros (slots * w) ltac:(lia)) as ZZ.
    set (m2 := upd m1 (o + (pbo d + w * index)) (zeros (slots * w))).
    assert (L2 : zlen m2 = zlen m1) by (apply zlen_upd; lia).
    assert (K12 : keep (fun x => x < o + (pbo d + w * index) \/ o + (s + slots * w) <= x) m m2).
    { assert (Ka : keep (fun x => x < o + (pbo d + w * (index + slots)) \/ o + (s + slots * w) <= x) m m1) by (apply (keep_upd' _ _ _ _ (s - (pbo d + w * index))); auto; lia).
      assert (Kb : keep (fun x => x < o + (pbo d + w * index) \/ o + (pbo d + w * index) + slots * w <= x) m1 m2) by (apply (keep_upd' _ _ _ _ (slots * w)); auto; lia).
      eapply keep_trans'; [exact Ka|exact Kb|]. cbn beta. intros; lia. }
    (* contents of m2 *)
    assert (MV : forall x l, pbo d + index * w <= x -> 0 <= l -> x + l <= s -> slice m2 (o + (x + slots * w)) l = slice m (o + x) l).
    { intros x l X1 X2 X3. unfold m2. rewrite slice_upd_dis by lia. unfold m1. rewrite slice_upd_in by lia. unfold cp. rewrite slice_slice by lia. f_equal. lia. }
    assert (SL2 : forall i, 0 <= i < nn -> dec (slice m2 (o + pbo d + i * w) w) =
        if i <? index then slot d n m o i else if i <? index + slots then 0 else slot d n m o (i - slots)).
    { intros i I. unfold slot. rewrite !SO. fold w. 
      assert (I1 : 0 <= i * w) by (apply Z.mul_nonneg_nonneg; lia). destruct (i <? index) eqn:C1.
      - assert (i * w + w <= index * w) by (assert (0 <= (index - 1 - i) * w) by (apply Z.mul_nonneg_nonneg; lia); lia).
        rewrite (keep_slice _ _ _ _ _ K12) by lia. do 2 f_equal. lia.
      - assert (index * w <= i * w) by (apply Z.mul_le_mono_nonneg_r; lia). destruct (i <? index + slots) eqn:C2.
        + assert (i * w + w <= (index + slots) * w) by (assert (0 <= (index + slots - 1 - i) * w) by (apply Z.mul_nonneg_nonneg; lia); lia).
          unfold m2. rewrite slice_upd_in by lia. rewrite slice_zeros by lia. apply dec_zeros.
        + assert ((index + slots) * w <= i * w) by (apply Z.mul_le_mono_nonneg_r; lia).
          assert (i * w + w <= nn * w) by (assert (0 <= (nn - 1 - i) * w) by (apply Z.mul_nonneg_nonneg; lia); lia).
          rewrite <- (MV (pbo d + (i - slots) * w) w) by lia. do 2 f_equal. lia. }
    assert (OFF : forall l, 0 <= l < n -> slot d n m o l <> 0 -> pbo d + n * w <= slot d n m o l < s).
    { intros l L NZ. destruct (var_slot_cases l L) as (e & _ & [[_ Z0]|(cb & _ & A1 & A2 & _ & A4 & _)]); [lia|]. rewrite FSE in A1. fold w in A1. lia. }
    assert (RG : forall l, 0 <= l < n -> slot d n m o l <> 0 -> 0 <= u32 (slot d n m o l + slots * w) < 256 ^ w /\ u32 (slot d n m o l + slots * w) = slot d n m o l + slots * w).
    { intros l L NZ. specialize (OFF l L NZ). rewrite u32_id by lia. lia. }
    destruct (patch_slots d m2 (o + pbo d) nn (fun a => u32 (a + slots * w))
      (fun i m => let at_ := o + pbo d + u32 (i * w) in
        let* a := read_value m at_ (max_size d) in
        if negb (a =? 0) then write_value m at_ (max_size d) (u32 (a + slots * w)) else Ok m)) as (m3 & E3 & K3 & D3); fold w; try lia.
    { intros j x J. cbv zeta. rewrite u32_id; [reflexivity|]. split; [apply Z.mul_nonneg_nonneg; lia|].
      assert (0 <= (nn - 1 - j) * w) by (apply Z.mul_nonneg_nonneg; lia). lia. }
    { intros i I. rewrite SL2 by exact I. destruct (i <? index) eqn:C1; [intro NZ; apply RG; auto; lia|]. destruct (i <? index + slots) eqn:C2; [lia|].
      intro NZ; apply RG; auto; lia. }
    fold w in D3. exists m3. split; [exact E3|]. pose proof (keep_len _ _ _ K3) as L3. fold w in K3.
    split. { eapply keep_trans'; [exact K12|exact K3|]. cbn beta. intros; lia. }
    assert (SL3 : forall i, 0 <= i < nn -> slot d nn m3 o i =
        let a := if i <? index then slot d n m o i else if i <? index + slots then 0 else slot d n m o (i - slots) in if a =? 0 then 0 else a + slots * w).
    { intros i I. unfold slot at 1. rewrite SO. fold w. rewrite Z.add_assoc, D3 by exact I. rewrite SL2 by exact I. cbv zeta.
      destruct (i <? index) eqn:C1.
      - destruct (slot d n m o i =? 0) eqn:Z0; [reflexivity|]. apply RG; lia.
      - destruct (i <? index + slots) eqn:C2; [reflexivity|]. destruct (slot d n m o (i - slots) =? 0) eqn:Z0; [reflexivity|]. apply RG; lia. }
    set (src := fun i => if i <? index then i else i - slots).
    assert (NTH : forall i e, 0 <= i -> nth_error (ins es index slots (zelem c)) (Z.to_nat i) = Some e ->
       0 <= i < nn /\ ((e = CNull /\ slot d nn m3 o i = 0) \/
        exists cb, e = CBytes cb /\ 0 <= src i < n /\ nth_error es (Z.to_nat (src i)) = Some (CBytes cb)
          /\ (i < index \/ index + slots <= i)
          /\ slot d nn m3 o i = slot d n m o (src i) + slots * w /\ pbo d + n * w <= slot d n m o (src i) /\ slot d n m o (src i) + zlen cb <= s
          /\ slice m (o + slot d n m o (src i)) (zlen cb) = cb /\ 1 <= zlen cb <= max_size c /\ get_size c cb 0 = Ok (zlen cb))).
    { intros i e I En. pose proof (znth_some _ _ _ En) as IL. rewrite zlen_ins in IL by lia. assert (I' : 0 <= i < nn) by lia. split; [exact I'|].
      rewrite nth_ins in En by lia. pose proof (SL3 i I') as SI. cbv zeta in SI.
      assert (ZN : zelem c = CNull) by (unfold zelem, is_nullable_type_info, is_variable_sized_type_info; rewrite Vc; reflexivity).
      unfold src in *. destruct (i <? index) eqn:C1; [|destruct (i <? index + slots) eqn:C2].
      - assert (A0 : 0 <= i < n) by lia. destruct (var_slot_cases i A0) as (e' & E' & [[-> Z0]|(cb & -> & A1 & A2 & A3 & A4 & A5)]); assert (e = _) by (rewrite En in E'; injection E' as E'; exact E'); subst e.
        + left. split; [reflexivity|]. rewrite SI, Z0. reflexivity.
        + right. exists cb. rewrite FSE in A1. fold w in A1. replace (slot d n m o i =? 0) with false in SI by lia. repeat split; auto; lia.
      - left. split; [congruence|]. exact SI.
      - assert (A0 : 0 <= i - slots < n) by lia. destruct (var_slot_cases _ A0) as (e' & E' & [[-> Z0]|(cb & -> & A1 & A2 & A3 & A4 & A5)]); assert (e = _) by (rewrite En in E'; injection E' as E'; exact E'); subst e.
        + left. split; [reflexivity|]. rewrite SI, Z0. reflexivity.
        + right. exists cb. rewrite FSE in A1. fold w in A1. replace (slot d n m o (i - slots) =? 0) with false in SI by lia. repeat split; auto; lia. }
    split.
    - intros i e I En. destruct (NTH i e I En) as (I' & [[-> Z0]|(cb & -> & R1 & R2 & R2' & R3 & R4 & R5 & R6 & R7 & R8)]).
      + destruct (eslot_var (max_size d) _ (arr_wf d CT VC) Vc) as (_ & _ & Nv & Nl). unfold elem_ok. rewrite (arr_etype d VC). split; [congruence|]. split; [exact Nl|]. intros _. exact Z0.
      + destruct (eslot_var (max_size d) _ (arr_wf d CT VC) Vc) as (_ & _ & Nv & Nl). unfold elem_ok. rewrite (arr_etype d VC). split; [congruence|]. split; [exact Bc|]. split; [|congruence]. intros _.
        rewrite R3, FSE. fold w. split; [lia|]. split; [lia|]. split; [|auto].
        rewrite (keep_slice _ _ _ _ _ K3) by lia. rewrite MV by lia. exact R6.
    - intros i j ci cj I J D Ei Ej.
      destruct (NTH i _ I Ei) as (I' & [[Q _]|(cb & Q & R1 & R2 & R2' & R3 & R4 & R5 & R6 & R7 & R8)]); [discriminate|]. injection Q as <-.
      destruct (NTH j _ J Ej) as (J' & [[Q _]|(cb & Q & T1 & T2 & T2' & T3 & T4 & T5 & T6 & T7 & T8)]); [discriminate|]. injection Q as <-.
      rewrite R3, T3.
      assert (DS : src i <> src j) by (unfold src; cbn beta; destruct (i <? index) eqn:Ci; destruct (j <? index) eqn:Cj; lia).
      pose proof (cv_dis _ _ _ _ _ V (src i) (src j) ci cj ltac:(lia) ltac:(lia) DS R2 T2) as DD. rewrite !(arr_etype d VC) in DD. specialize (DD Vc Vc). lia.
  Qed.
End Cases.

(** ** [expand_container] *)
Theorem expand_ok d m o s es index slots inc : container d -> cv d m o s es -> is_variable_element_count d = true ->
  0 <= index -> 0 <= inc < 4294967296 -> expand_limits d s (zlen es) slots ->
  o + Z.min (s + inc) (max_size d) <= zlen m ->
  exists r m' s' es', expand d m o index slots inc = Ok (r, m') /\ can_expand d m o index slots inc = Ok r
    /\ cv d m' o s' es' /\ s' <= s + inc
    /\ (r = false -> m' = m /\ s' = s /\ es' = es)
    /\ (r = true -> index <= zlen es /\ es' = ins es index slots (zelem (containee d)))
    /\ keep (fun x => x < o \/ o + Z.max s s' <= x) m m'.
Proof.
  intros CT V VC HI Hinc LIM ROOM. pose proof CT as [W C]. pose proof (cv_o _ _ _ _ _ V) as Ho. pose proof (cv_s _ _ _ _ _ V) as Hs.
  pose proof (cv_bounds d m o s es CT V) as B. pose proof (zlen_nonneg es) as Zn. pose proof (arr_wf d CT VC) as Wc.
  pose proof (cv_max _ _ _ _ _ V (arr_var d VC)) as MX. pose proof (pbo_range d) as (P1 & _). pose proof (vs_range d) as VS. pose proof (vs_enough d W) as VE.
  pose proof (wf_node d W) as (_ & _ & MSD & _). unfold max_bytes in *.
  set (c := containee d) in *. set (n := zlen es) in *.
  pose proof (ebits_parts _ Wc) as (EP1 & EP2 & EP3 & EP4). pose proof (eslot_range (max_size d) _ Wc) as ES0. pose proof (ebits_range _ Wc) as EB0.
  destruct LIM as (LS & LB & LF). fold c in LB, LF. unfold bytes_of_bits in LB.
  assert (BB : bits_in_bitmap c = ebits c).
  { unfold bits_in_bitmap, validity_bits, ebits, needs_is_valid_bit, is_variable_sized_type_info. rewrite (proj1 (wf_spec c Wc)). destruct (negb (is_variable_sized_ c) && is_nullable c); reflexivity. }
  assert (SS : slot_bytes (max_size d) c (size c) = eslot (max_size d) c) by (unfold slot_bytes, eslot; rewrite (proj1 (wf_spec c Wc)); reflexivity).
  rewrite BB, SS in LB. rewrite BB in LF. change ((((n + slots) * ebits c) + 7) / 8) with (bitmap_size_in_bytes ((n + slots) * ebits c)) in LB.
  change (((n * ebits c) + 7) / 8) with (bitmap_size_in_bytes (n * ebits c)) in LB.
  assert (NK0 : 0 <= (n + slots) * ebits c) by (apply Z.mul_nonneg_nonneg; lia). pose proof (bitmap_nonneg _ NK0) as BN.
  assert (NS0 : 0 <= (n + slots) * eslot (max_size d) c) by (apply Z.mul_nonneg_nonneg; lia).
  assert (TOT : s = FS d n + vsum c es) by (rewrite (cv_tot _ _ _ _ _ V) at 1; fold n; rewrite (arr_vtot d VC); reflexivity).
  assert (LB' : pbo d + bitmap_size_in_bytes ((n + slots) * ebits c) + (n + slots) * eslot (max_size d) c + vsum c es < 4294967296).
  { rewrite TOT, (arr_FS d VC) in LB. fold c in LB. lia. }
  pose proof (vsum_nonneg c es) as VSN. clear LB. rename LB' into LB.
  assert (V256 : 256 ^ vs d <= 4294967296) by (change 4294967296 with (256 ^ 4); apply Z.pow_le_mono_r; lia).
  assert (NN : n + slots < 4294967296).
  { destruct (is_bit_field c) eqn:Bc; [specialize (LF eq_refl); lia|]. pose proof (arr_eslot d CT VC Bc) as E1. fold c in E1.
    assert ((n + slots) * 1 <= (n + slots) * eslot (max_size d) c) by (apply Z.mul_le_mono_nonneg_l; lia). lia. }
  assert (FAIL : exists r m' s' es', Ok (false, m) = Ok (r, m') /\ Ok false = Ok r /\ cv d m' o s' es' /\ s' <= s + inc
     /\ (r = false -> m' = m /\ s' = s /\ es' = es) /\ (r = true -> index <= n /\ es' = ins es index slots (zelem c)) /\ keep (fun x => x < o \/ o + Z.max s s' <= x) m m').
  { exists false, m, s, es. split; [reflexivity|]. split; [reflexivity|]. split; [exact V|]. split; [lia|]. split; [auto|]. split; [discriminate|apply keep_refl]. }
  unfold expand, can_expand, expand_plan. rewrite VC. cbn [negb]. rewrite (cv_get_count d m o s es CT V). cbn [bind]. fold n c.
  replace (4294967295 <? slots + n) with false by lia.
  destruct (n <? index) eqn:CI; [exact FAIL|].
  destruct (slots =? 0) eqn:CS.
  { exists true, m, s, es. cbn [bind]. split; [reflexivity|]. split; [reflexivity|]. split; [exact V|]. split; [lia|]. split; [discriminate|].
    split; [|apply keep_refl]. intros _. split; [lia|]. unfold ins. replace slots with 0 by lia. cbn. symmetry. apply firstn_skipn. }
  rewrite (cv_get_size d m o s es CT V). cbn [bind]. rewrite (u32_id (n + slots)) by lia.
  assert (VF : is_variable_sized_ c = false -> vsum c es = 0).
  { intro Vc. clear - Vc. induction es as [|e l IH]; [reflexivity|]. cbn [vsum fold_right]. fold (vsum c l). rewrite IH. unfold clen. rewrite Vc. reflexivity. }
  assert (CVT : containee d = c) by reflexivity.
  set (s' := FS d (n + slots) + vsum c es).
  match goal with |- context[size_acceptable d s ?x inc] => set (ns := x) end.
  assert (NS : ns = s').
  { unfold ns, s'. rewrite (arr_FS d VC), CVT. destruct (is_bit_field c) eqn:Bc.
    - pose proof Bc as Bc'. apply is_bit_field_spec in Bc'. rewrite Bc'. rewrite <- EP1. specialize (LF eq_refl).
      assert (Sz : eslot (max_size d) c = 0) by (unfold eslot; rewrite Bc; reflexivity). rewrite Sz, Z.mul_0_r in *.
      assert (Vc : is_variable_sized_ c = false). { destruct (is_variable_sized_ c) eqn:Vc; [|reflexivity]. destruct (eslot_var (max_size d) _ Wc Vc) as (X & _). congruence. }
      assert ((n + slots) * ebits c <= 279172874240) by (apply mul65; lia).
      rewrite VF, (u32_id (ebits c)) by (auto; lia). rewrite u64_id by lia. rewrite Z.mul_comm. rewrite u32_id by lia. lia.
    - assert (G : forall (x y : Z), match type c with BIT_FIELD => x | _ => y end = y) by (intros; unfold is_bit_field in Bc; destruct (type c); try discriminate; reflexivity).
      rewrite G. rewrite Z.add_0_r in EP1. change (is_variable_sized_type_info c) with (is_variable_sized_ c). destruct (is_variable_sized_ c) eqn:Vc; cbn [negb].
      + destruct (eslot_var (max_size d) _ Wc Vc) as (_ & Es & Nv & _). rewrite Nv in EP1. cbn in EP1.
        rewrite TOT, (arr_FS d VC), CVT in *. rewrite EP1, Es, Z.mul_0_r in *. change (bitmap_size_in_bytes (n * 0)) with (bitmap_size_in_bytes 0) in *. rewrite Z.mul_0_r in *. change (bitmap_size_in_bytes 0) with 0 in *.
        pose proof (vsum_nonneg c es). assert (0 <= n * vs d) by (apply Z.mul_nonneg_nonneg; lia). rewrite u32_id by lia. lia.
      + pose proof (eslot_fixed (max_size d) c Bc Vc) as Es. rewrite <- EP1, <- Es. rewrite VF by reflexivity.
        assert ((n + slots) * ebits c <= n + slots) by (transitivity ((n + slots) * 1); [apply Z.mul_le_mono_nonneg_l; lia|lia]).
        rewrite (u32_id ((n + slots) * ebits c)) by lia. rewrite (Z.mul_comm (eslot (max_size d) c)). rewrite u32_id by lia. lia. }
  rewrite NS. clearbody ns. subst ns.
  destruct (size_acceptable d s s' inc) eqn:ACC; cbn [negb bind]; [|exact FAIL].
  assert (SMONO : s <= s').
  { rewrite TOT. unfold s'. rewrite !(arr_FS d VC), CVT. 
    assert (n * ebits c <= (n + slots) * ebits c) by (apply Z.mul_le_mono_nonneg_r; lia).
    assert (n * eslot (max_size d) c <= (n + slots) * eslot (max_size d) c) by (apply Z.mul_le_mono_nonneg_r; lia).
    pose proof (bitmap_mono (n * ebits c) ((n + slots) * ebits c) ltac:(lia)). lia. }
  assert (S32 : s' <= max_size d /\ s' <= s + inc).
  { unfold size_acceptable in ACC. assert (s' <= max_size d) by lia. rewrite u32_id in ACC by lia. lia. }
  destruct S32 as [S1 S2].
  assert (N256 : n + slots < 256 ^ vs d).
  { destruct (is_bit_field c) eqn:Bc; [apply LF; reflexivity|]. pose proof (arr_eslot d CT VC Bc) as E1. fold c in E1.
    assert ((n + slots) * 1 <= (n + slots) * eslot (max_size d) c) by (apply Z.mul_le_mono_nonneg_l; lia).
    assert (1 <= pbo d). { pose proof (pbo_range d) as (_ & Q & P3 & _). specialize (P3 VC). lia. }
    unfold s' in S1. rewrite (arr_FS d VC), CVT in S1. pose proof (vsum_nonneg c es). lia. }
  assert (RF : o + FS d (n + slots) <= zlen m) by (unfold s' in *; pose proof (vsum_nonneg c es); lia).
  assert (ZI : zlen (ins es index slots (zelem c)) = n + slots) by (apply zlen_ins; fold n; lia).
  assert (FIN : forall body m', body = Ok m' -> keep (fun x => x < o + pbo d \/ o + s' <= x) m m' ->
     (forall i e, 0 <= i -> nth_error (ins es index slots (zelem c)) (Z.to_nat i) = Some e -> elem_ok d m' o s' (n + slots) i e) ->
     (is_variable_sized_ c = true -> forall i j ci cj, 0 <= i -> 0 <= j -> i <> j ->
          nth_error (ins es index slots (zelem c)) (Z.to_nat i) = Some (CBytes ci) -> nth_error (ins es index slots (zelem c)) (Z.to_nat j) = Some (CBytes cj) ->
          slot d (n + slots) m' o i + zlen ci <= slot d (n + slots) m' o j \/ slot d (n + slots) m' o j + zlen cj <= slot d (n + slots) m' o i) ->
     exists r m'' s'' es'', (let* x := body in let* y := write_prefix d x o s' (n + slots) in Ok (true, y)) = Ok (r, m'') /\ Ok true = Ok r /\ cv d m'' o s'' es'' /\ s'' <= s + inc
     /\ (r = false -> m'' = m /\ s'' = s /\ es'' = es) /\ (r = true -> index <= n /\ es'' = ins es index slots (zelem c)) /\ keep (fun x => x < o \/ o + Z.max s s'' <= x) m m'').
  { intros body m' -> K EL DIS. cbn [bind]. pose proof (keep_len _ _ _ K) as L.
    destruct (write_prefix_cv d CT VC m' o s' (ins es index slots (zelem c))) as (m'' & E & V' & K'); try rewrite ZI; auto; try lia.
    { intros _ Bc K65. fold c in Bc, K65. specialize (LF Bc). lia. }
    { unfold s'. rewrite CVT. rewrite vsum_ins; [reflexivity|]. apply clen_zelem. }
    rewrite ZI in E. rewrite E. cbn [bind]. exists true, m'', s', (ins es index slots (zelem c)).
    split; [reflexivity|]. split; [reflexivity|]. split; [exact V'|]. split; [lia|]. split; [discriminate|]. split; [intros _; split; [lia|reflexivity]|].
    eapply keep_trans'; [exact K|exact K'|]. cbn beta. intros x X. lia. }
  assert (Lk : pbo d + bitmap_size_in_bytes ((n + slots) * ebits c) + (n + slots) * eslot (max_size d) c < 4294967296) by lia.
  destruct (is_bit_field c) eqn:Bc.
  - pose proof Bc as Bc'. apply is_bit_field_spec in Bc'. rewrite Bc'. specialize (LF eq_refl).
    assert (Vc : is_variable_sized_ c = false). { destruct (is_variable_sized_ c) eqn:Vc; [|reflexivity]. destruct (eslot_var (max_size d) _ Wc Vc) as (X & _). congruence. }
    destruct (expand_bits_ok d m o s es index slots CT VC V ltac:(fold n; lia) ltac:(lia) NN Lk RF Bc ltac:(fold c; lia)) as (m' & E & SH).
    fold n in E. apply (FIN _ m' E).
    + destruct SH as (K & _). eapply keep_weaken; [exact K|]. unfold s'. rewrite VF by exact Vc. fold n. cbn beta. intros; lia.
    + intros i e I En. eapply shifted_elems; eauto; fold n; lia.
    + congruence.
  - assert (G : forall (x y : res mem), match type c with BIT_FIELD => x | _ => y end = y) by (intros; unfold is_bit_field in Bc; destruct (type c); try discriminate; reflexivity).
    rewrite G. change (is_variable_sized_type_info c) with (is_variable_sized_ c). destruct (is_variable_sized_ c) eqn:Vc; cbn [negb].
    + destruct (eslot_var (max_size d) _ Wc Vc) as (_ & Es & Nv & _). rewrite Nv in EP1. cbn in EP1.
      assert (S' : s' = s + slots * vs d).
      { unfold s'. rewrite TOT, !(arr_FS d VC), CVT, EP1, Es, !Z.mul_0_r. change (bitmap_size_in_bytes 0) with 0. lia. }
      destruct (expand_var_ok d m o s es index slots CT VC V ltac:(fold n; lia) ltac:(lia) Lk Vc ltac:(lia) ltac:(lia)) as (m' & E & K & EL & DIS).
      fold n in E, EL, DIS. rewrite <- S' in *. apply (FIN _ m' E); auto.
    + destruct (expand_fixed_ok d m o s es index slots CT VC V ltac:(fold n; lia) ltac:(lia) NN Lk RF Bc Vc ltac:(rewrite TOT, VF by reflexivity; fold n; lia)) as (m' & E & SH).
      fold n in E. apply (FIN _ m' E).
      * destruct SH as (K & _). eapply keep_weaken; [exact K|]. unfold s'. rewrite VF by reflexivity. fold n. cbn beta. intros; lia.
      * intros i e I En. eapply shifted_elems; eauto; fold n; lia.
      * congruence.
Qed.
