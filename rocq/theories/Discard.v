(** * Removing elements from a container *)
From Verif Require Export Expand.
From Coq Require Import ZifyBool ZifyNat ZifyN Zify.
Ltac Zify.zify_post_hook ::= Z.div_mod_to_equations.

Lemma nth_error_ext {A} (l r : list A) : (forall i, nth_error l i = nth_error r i) -> l = r.
Proof.
  revert r. induction l as [|x l IH]; intros [|y r] H; auto.
  - specialize (H O). discriminate.
  - specialize (H O). discriminate.
  - pose proof (H O) as H0. injection H0 as ->. f_equal. apply IH. intro i. exact (H (S i)).
Qed.
Lemma vsum_null c l : (forall i e, nth_error l i = Some e -> e = CNull) -> vsum c l = 0.
Proof.
  induction l as [|x l IH]; intro H; [reflexivity|]. cbn [vsum fold_right]. fold (vsum c l). rewrite IH by (intros i e; exact (H (S i) e)).
  rewrite (H O x eq_refl). unfold clen. destruct (is_variable_sized_ c); reflexivity.
Qed.
Lemma vsum_del c es i k : 0 <= i -> 0 <= k ->
  (forall j e, i <= j < i + k -> nth_error es (Z.to_nat j) = Some e -> e = CNull) -> vsum c (del es i k) = vsum c es.
Proof.
  intros I K H. unfold del. rewrite vsum_app. rewrite <- (firstn_skipn (Z.to_nat i) es) at 3. rewrite vsum_app. f_equal.
  rewrite <- (firstn_skipn (Z.to_nat k) (skipn (Z.to_nat i) es)). rewrite vsum_app, (vsum_null c (firstn (Z.to_nat k) (skipn (Z.to_nat i) es))).
  - rewrite skipn_skipn. rewrite Z.add_0_l. do 2 f_equal. lia.
  - intros j e E. assert (J : (j < Z.to_nat k)%nat).
    { assert (X : nth_error (firstn (Z.to_nat k) (skipn (Z.to_nat i) es)) j <> None) by congruence. apply nth_error_Some in X. rewrite firstn_length in X. lia. }
    rewrite nth_error_firstn, nth_error_skipn in E by exact J. apply (H (i + Z.of_nat j) e); [lia|]. rewrite <- E. f_equal. lia.
Qed.

Section Cases.
  Variables (d : dti) (m : mem) (o s : Z) (es : list celem) (index slots : Z).
  Hypothesis CT : container d.
  Hypothesis VC : is_variable_element_count d = true.
  Hypothesis V : cv d m o s es.
  Notation c := (containee d).
  Notation n := (zlen es).
  Notation k := (ebits c).
  Notation sz := (eslot (max_size d) c).
  Hypothesis HI : 0 <= index.
  Hypothesis HSl : 0 <= slots.
  Hypothesis HIS : index + slots <= n.
  Notation nn := (n - slots).

  Definition shifted_down (m' : mem) : Prop :=
    keep (fun x => x < o + pbo d \/ o + FS d n <= x) m m'
    /\ (forall x, 0 <= x < nn * k -> bitat m' (o + pbo d) x =
          if x <? index * k then bitat m (o + pbo d) x else bitat m (o + pbo d) (x + slots * k))
    /\ (forall i, 0 <= i < nn -> slice m' (o + so d nn i) sz =
          if i <? index then slice m (o + so d n i) sz else slice m (o + so d n (i + slots)) sz).

  Lemma discard_facts : 0 <= o /\ 0 <= k <= 65 /\ 0 <= sz /\ 0 <= slots * k /\ 0 <= index * k <= nn * k /\ nn * k <= n * k
    /\ 0 <= slots * sz /\ 0 <= index * sz <= nn * sz /\ nn * sz <= n * sz /\ 0 <= pbo d <= 8 /\ n < 4294967296
    /\ pbo d + bitmap_size_in_bytes (n * k) + n * sz <= s /\ s <= 2147483520 /\ o + s <= zlen m.
  Proof.
    pose proof (arr_wf d CT VC) as Wc. pose proof (ebits_range _ Wc) as EB. pose proof (eslot_range (max_size d) _ Wc) as ES.
    pose proof (cv_o _ _ _ _ _ V). pose proof (pbo_range d) as (P1 & _). pose proof (cv_n _ _ _ _ _ V) as [N _].
    pose proof (cv_bounds d m o s es CT V) as B. rewrite (arr_FS d VC) in B. unfold max_bytes in B. pose proof (cv_s _ _ _ _ _ V).
    assert (0 <= slots * k) by (apply Z.mul_nonneg_nonneg; lia). assert (0 <= slots * sz) by (apply Z.mul_nonneg_nonneg; lia).
    assert (0 <= index * k) by (apply Z.mul_nonneg_nonneg; lia). assert (0 <= index * sz) by (apply Z.mul_nonneg_nonneg; lia).
    assert (index * k <= nn * k) by (apply Z.mul_le_mono_nonneg_r; lia). assert (index * sz <= nn * sz) by (apply Z.mul_le_mono_nonneg_r; lia).
    repeat split; lia.
  Qed.

  Lemma discard_bits_ok : is_bit_field c = true -> k <= 64 ->
    exists m', discard_bits d m o index slots n nn = Ok (FS d nn, m') /\ shifted_down m'.
  Proof.
    intros Bc K64. pose proof discard_facts as (F1 & F2 & F3 & F4 & F5 & F6 & F7 & F8 & F9 & F10 & F11 & F12 & F13 & F14).
    pose proof (ebits_parts _ (arr_wf d CT VC)) as (EP1 & EP2 & EP3 & EP4). specialize (EP3 Bc). rewrite Bc in EP1.
    assert (Sz : sz = 0) by (unfold eslot; rewrite Bc; reflexivity).
    pose proof (bitmap_mono (nn * k) (n * k) F6) as BM. rewrite Sz, Z.mul_0_r in F12. pose proof (bitmap_nonneg (nn * k) ltac:(lia)) as BN.
    unfold discard_bits. rewrite <- EP1. rewrite (u32_id k) by lia.
    assert (NK : 0 <= n * k <= 279172874240) by (apply mul65; lia).
    assert (G : forall x, 0 <= x < n -> u64 (u32 x * k) = x * k).
    { intros x X. rewrite u32_id by lia. apply u64_id. assert (0 <= x * k <= 279172874240) by (apply mul65; lia). lia. }
    destruct (groups_down (o + pbo d) k n index slots ltac:(lia) ltac:(lia)
      (fun i m => let from := u64 (u32 (index + slots + i) * k) in
          let to := u64 (u32 (index + i) * k) in
          let* t := get_bits m (o + pbo d) from (from + k - 1) in
          set_bits m (o + pbo d) to (to + k - 1) t) m (n * k) HI HSl HIS eq_refl ltac:(lia)) as (m1 & E1 & K1 & B1).
    { intros j x J. cbv zeta. rewrite !G by lia. reflexivity. }
    step E1. exists m1. split.
    - rewrite (arr_FS d VC), Sz, Z.mul_0_r, Z.add_0_r. rewrite (Z.mul_comm k nn), u64_id, u32_id by lia. reflexivity.
    - split; [|split].
      + rewrite (arr_FS d VC). eapply keep_weaken; [exact K1|]. unfold off_bitmap. cbn beta. intros; lia.
      + intros x X. rewrite B1 by lia. destruct (x <? index * k) eqn:C1.
        * replace (index * k <=? x) with false by lia. reflexivity.
        * match goal with |- (if ?q then _ else _) = _ => replace q with true by lia end. reflexivity.
      + intros i I. rewrite Sz, !slice_0. destruct (i <? index); reflexivity.
  Qed.

  Lemma discard_fixed_ok : is_bit_field c = false -> is_variable_sized_ c = false -> s = FS d n ->
    exists m', discard_fixed d m o index slots n nn s = Ok (FS d nn, m') /\ shifted_down m'.
  Proof.
    intros Bc Vc Es. pose proof discard_facts as (F1 & F2 & F3 & F4 & F5 & F6 & F7 & F8 & F9 & F10 & F11 & F12 & F13 & F14).
    pose proof (ebits_parts _ (arr_wf d CT VC)) as (EP1 & EP2 & EP3 & EP4). rewrite Bc, Z.add_0_r in EP1.
    pose proof (eslot_fixed (max_size d) c Bc Vc) as Sz. pose proof (zlen_nonneg es) as Zn.
    pose proof (bitmap_mono (nn * k) (n * k) F6) as BM. pose proof (bitmap_nonneg (nn * k) ltac:(lia)) as BN.
    assert (Es' : s = pbo d + bitmap_size_in_bytes (n * k) + n * sz) by (rewrite <- (arr_FS d VC); exact Es).
    unfold discard_fixed. rewrite <- EP1, <- Sz.
    assert (NK : 0 <= n * k <= n) by (split; [lia|transitivity (n * 1); [apply Z.mul_le_mono_nonneg_l; lia|lia]]).
    rewrite (u32_id (n * k)), (u32_id (nn * k)) by lia.
    set (bo := bitmap_size_in_bytes (n * k)) in *. set (bn := bitmap_size_in_bytes (nn * k)) in *.
    rewrite (u32_id (pbo d + bo)), (u32_id (pbo d + bn)) by lia. rewrite (u32_id (s - (pbo d + bo))) by lia.
    replace (s - (pbo d + bo)) with (n * sz) by lia.
    rewrite (Z.mul_comm sz nn). rewrite (u32_id (pbo d + bn + nn * sz)) by lia.
    (* the bits *)
    assert (E1 : exists m1, (if needs_is_valid_bit c then
      for_loop (Z.to_nat (n - (index + slots))) 0 (fun i m =>
        let* t := get_bits m (o + pbo d) (u32 (index + slots + i)) (u32 (index + slots + i)) in
        set_bits m (o + pbo d) (u32 (index + i)) (u32 (index + i)) t) m
      else Ok m) = Ok m1 /\ keep (off_bitmap (o + pbo d) bo) m m1
      /\ forall x, 0 <= x < nn * k -> bitat m1 (o + pbo d) x =
          if x <? index * k then bitat m (o + pbo d) x else bitat m (o + pbo d) (x + slots * k)).
    { destruct (needs_is_valid_bit c) eqn:Nv; cbn [b2n] in EP1.
      2:{ exists m. split; [reflexivity|]. split; [apply keep_refl|]. rewrite EP1. intros x X. lia. }
      destruct (groups_down (o + pbo d) 1 n index slots ltac:(lia) ltac:(lia)
        (fun i m => let* t := get_bits m (o + pbo d) (u32 (index + slots + i)) (u32 (index + slots + i)) in
        set_bits m (o + pbo d) (u32 (index + i)) (u32 (index + i)) t) m (n * k) HI HSl HIS ltac:(rewrite EP1; reflexivity) ltac:(fold bo; lia)) as (m1 & E1 & K1 & B1).
      { intros j x J. rewrite !u32_id by lia. rewrite !Z.mul_1_r, !Z.add_simpl_r. reflexivity. }
      exists m1. split; [exact E1|]. split; [exact K1|].
      intros x X. rewrite B1 by lia. rewrite EP1, !Z.mul_1_r in *. destruct (x <? index) eqn:C1.
      + replace (index <=? x) with false by lia. reflexivity.
      + match goal with |- (if ?q then _ else _) = _ => replace q with true by lia end. reflexivity. }
    destruct E1 as (m1 & E1 & K1 & B1). step E1. pose proof (keep_len _ _ _ K1) as L1.
    assert (S1 : slice m1 (o + (pbo d + bo)) (n * sz) = slice m (o + (pbo d + bo)) (n * sz)).
    { apply (keep_slice _ _ _ _ _ K1); try lia. unfold off_bitmap. intros; lia. }
    assert (ZS : zlen (slice m1 (o + (pbo d + bo)) (n * sz)) = n * sz) by (apply zlen_slice; lia).
    set (m2 := if negb (bo =? bn) then upd m1 (o + (pbo d + bn)) (slice m1 (o + (pbo d + bo)) (n * sz)) else m1).
    assert (E2 : (if negb (bo =? bn) then memmove m1 (o + (pbo d + bn)) (o + (pbo d + bo)) (n * sz) else Ok m1) = Ok m2).
    { unfold m2. destruct (bo =? bn); cbn [negb]; [reflexivity|]. apply memmove_ok; lia. }
    step E2.
    assert (K2 : keep (fun x => x < o + (pbo d + bn) \/ o + (pbo d + bn) + n * sz <= x) m1 m2).
    { unfold m2. destruct (bo =? bn); cbn [negb]; [apply keep_refl|]. apply (keep_upd' _ _ _ _ (n * sz)); auto; lia. }
    assert (S2 : slice m2 (o + (pbo d + bn)) (n * sz) = slice m (o + (pbo d + bo)) (n * sz)).
    { rewrite <- S1. unfold m2. destruct (bo =? bn) eqn:Eb; cbn [negb]; [f_equal; lia|]. apply slice_upd_same'; lia. }
    pose proof (keep_len _ _ _ K2) as L2. clearbody m2.
    assert (A1 : 0 <= (n - (index + slots)) * sz) by (apply Z.mul_nonneg_nonneg; lia).
    rewrite (u32_id (index + slots)) by lia. rewrite (u32_id ((index + slots) * sz)), (u32_id (index * sz)), (u32_id ((n - (index + slots)) * sz)) by lia.
    rewrite memmove_ok by lia. cbn [bind].
    set (cp := slice m2 (o + (pbo d + bn) + (index + slots) * sz) ((n - (index + slots)) * sz)).
    assert (ZC : zlen cp = (n - (index + slots)) * sz) by (apply zlen_slice; lia).
    set (m3 := upd m2 (o + (pbo d + bn) + index * sz) cp).
    assert (K3 : keep (fun x => x < o + (pbo d + bn) + index * sz \/ o + (pbo d + bn) + nn * sz <= x) m2 m3) by (apply (keep_upd' _ _ _ _ ((n - (index + slots)) * sz)); auto; lia).
    pose proof (keep_len _ _ _ K3) as L3.
    exists m3. split; [rewrite (arr_FS d VC); reflexivity|]. split; [|split].
    - rewrite (arr_FS d VC). eapply keep_trans'; [exact K1|eapply keep_trans'; [exact K2|exact K3|intros x Q; exact Q]|].
      unfold off_bitmap. fold bo. cbn beta. intros; lia.
    - intros x X. pose proof (bitmap_bytes_bound _ _ X) as XB. fold bn in XB.
      rewrite (keep_bitat _ _ _ _ _ K3), (keep_bitat _ _ _ _ _ K2) by lia. apply B1. exact X.
    - intros i I. rewrite !(arr_so d VC). fold bn bo.
      assert (I1 : 0 <= i * sz) by (apply Z.mul_nonneg_nonneg; lia).
      assert (I2 : i * sz + sz <= nn * sz) by (assert (0 <= (nn - 1 - i) * sz) by (apply Z.mul_nonneg_nonneg; lia); lia).
      assert (SRC : forall l, 0 <= l < n -> slice m2 (o + (pbo d + bn + l * sz)) sz = slice m (o + (pbo d + bo + l * sz)) sz).
      { intros l L.
        assert (J1 : 0 <= l * sz) by (apply Z.mul_nonneg_nonneg; lia).
        assert (J2 : l * sz + sz <= n * sz) by (assert (0 <= (n - 1 - l) * sz) by (apply Z.mul_nonneg_nonneg; lia); lia).
        assert (Q : slice (slice m2 (o + (pbo d + bn)) (n * sz)) (l * sz) sz = slice (slice m (o + (pbo d + bo)) (n * sz)) (l * sz) sz) by (rewrite S2; reflexivity).
        rewrite !slice_slice in Q by lia.
        replace (o + (pbo d + bn + l * sz)) with (o + (pbo d + bn) + l * sz) by lia. replace (o + (pbo d + bo + l * sz)) with (o + (pbo d + bo) + l * sz) by lia. exact Q. }
      unfold m3. destruct (i <? index) eqn:C1.
      + assert (i * sz + sz <= index * sz) by (assert (0 <= (index - 1 - i) * sz) by (apply Z.mul_nonneg_nonneg; lia); lia).
        rewrite slice_upd_dis by lia. apply SRC. lia.
      + assert (index * sz <= i * sz) by (apply Z.mul_le_mono_nonneg_r; lia).
        rewrite slice_upd_in by lia. unfold cp. rewrite slice_slice by lia. rewrite <- SRC by lia. f_equal. lia.
  Qed.

  Lemma shifted_down_elems m' : is_variable_sized_ c = false -> shifted_down m' -> forall s' i e, 0 <= i ->
    nth_error (del es index slots) (Z.to_nat i) = Some e -> elem_ok d m' o s' nn i e.
  Proof.
    intros Vc (KP & HB & HS) s' i e I En. pose proof discard_facts as (F1 & F2 & F3 & F4 & F5 & F6 & F7 & F8 & F9 & F10 & F11 & F12 & F13 & F14).
    pose proof (znth_some _ _ _ En) as IL. rewrite zlen_del in IL by lia.
    rewrite nth_del in En by lia.
    assert (MK : forall a b, 0 <= a -> a + 1 <= b -> 0 <= a * k /\ a * k + k <= b * k).
    { intros a b A B. split; [apply Z.mul_nonneg_nonneg; lia|]. assert (0 <= (b - 1 - a) * k) by (apply Z.mul_nonneg_nonneg; lia). lia. }
    pose proof (MK i nn ltac:(lia) ltac:(lia)) as M0.
    destruct (i <? index) eqn:C1.
    - apply (elem_same_fixed d CT VC m o s n i); auto; [apply (cv_el _ _ _ _ _ V); auto| |].
      + intros b B. pose proof (MK i index ltac:(lia) ltac:(lia)). rewrite HB by lia. replace (i * k + b <? index * k) with true by lia. reflexivity.
      + rewrite HS by lia. rewrite C1. reflexivity.
    - apply (elem_same_fixed d CT VC m o s n (i + slots)); auto; [apply (cv_el _ _ _ _ _ V); auto; lia| |].
      + intros b B. assert (index * k <= i * k) by (apply Z.mul_le_mono_nonneg_r; lia). rewrite HB by lia.
        replace (i * k + b <? index * k) with false by lia. f_equal. lia.
      + rewrite HS by lia. rewrite C1. reflexivity.
  Qed.

  (** *** variable size *)
  Hypothesis Vc : is_variable_sized_ c = true.

  Lemma null_loop : exists m1 s1 es1, for_loop (Z.to_nat slots) 0 (fun i m =>
      let* pi := get_pos d m o (u32 (index + i)) in
      let* (_, m') := set_null d m o (u32 (index + i)) pi in Ok m') m = Ok m1
    /\ cv d m1 o s1 es1 /\ s1 <= s /\ zlen es1 = n /\ keep (fun x => x < o \/ o + s <= x) m m1
    /\ (forall l, 0 <= l < n -> nth_error es1 (Z.to_nat l) = if (index <=? l) && (l <? index + slots) then Some CNull else nth_error es (Z.to_nat l)).
  Proof.
    pose proof (cv_n _ _ _ _ _ V) as [N32 _].
    destruct (for_loop_ok (fun i m =>
      let* pi := get_pos d m o (u32 (index + i)) in
      let* (_, m') := set_null d m o (u32 (index + i)) pi in Ok m')
      (fun j x => exists s1 es1, cv d x o s1 es1 /\ s1 <= s /\ zlen es1 = n /\ keep (fun x => x < o \/ o + s <= x) m x
        /\ forall l, 0 <= l < n -> nth_error es1 (Z.to_nat l) = if (index <=? l) && (l <? index + j) then Some CNull else nth_error es (Z.to_nat l))
      (Z.to_nat slots) 0 m) as (m1 & E & s1 & es1 & V1 & R).
    - exists s, es. split; [exact V|]. split; [lia|]. split; [reflexivity|]. split; [apply keep_refl|].
      intros l L. replace ((index <=? l) && (l <? index + 0)) with false by lia. reflexivity.
    - intros j x J (s1 & es1 & V1 & S1 & Z1 & K1 & N1). rewrite u32_id by lia.
      rewrite (cv_pos d x o s1 es1 _ CT V1) by lia. cbn [bind].
      destruct (znth_lt es1 (index + j) ltac:(lia)) as [e En].
      destruct (set_null_ok d x o s1 es1 (index + j) e CT V1 ltac:(lia) En) as (x' & E & _ & R1 & KX).
      rewrite (arr_etype d VC) in *.
      assert (NL : is_nullable_type_info c = true) by (unfold is_nullable_type_info, is_variable_sized_type_info; rewrite Vc; reflexivity).
      rewrite NL in *. specialize (R1 eq_refl). rewrite E. cbn [bind].
      pose proof (clen_nonneg c e) as CN.
      exists x'. split; [reflexivity|]. eexists _, _. split; [exact R1|]. split; [lia|]. split; [rewrite zlen_lset; exact Z1|]. split.
      + eapply keep_trans'; [exact K1|exact KX|]. cbn beta. intros; lia.
      + intros l L. destruct (Z.eq_dec l (index + j)) as [->|D].
        * rewrite lset_same by (unfold zlen in *; lia). replace ((index <=? index + j) && (index + j <? index + (j + 1))) with true by lia. reflexivity.
        * rewrite lset_other by lia. rewrite N1 by exact L.
          replace (l <? index + (j + 1)) with (l <? index + j) by lia. reflexivity.
    - exists m1, s1, es1. rewrite Z.add_0_l in R. rewrite Z2Nat.id in R by lia. auto.
  Qed.
End Cases.

Lemma discard_shift d m o s es index slots : container d -> is_variable_element_count d = true -> cv d m o s es -> is_variable_sized_ (containee d) = true ->
  0 <= index -> 0 <= slots -> index + slots <= zlen es ->
  (forall l e, index <= l < index + slots -> nth_error es (Z.to_nat l) = Some e -> e = CNull) ->
  let w := vs d in
  let from := pbo d + w * (index + slots) in
  let to := pbo d + w * index in
  let nn := zlen es - slots in
  exists m', (let* m2 := memmove m (o + to) (o + from) (u32 (s - from)) in
     for_loop (Z.to_nat nn) 0 (fun i m =>
       let at_ := o + pbo d + u32 (i * w) in
       let* a := read_value m at_ (max_size d) in
       if negb (a =? 0) then write_value m at_ (max_size d) (u32 (a - (from - to))) else Ok m) m2) = Ok m'
    /\ keep (fun x => x < o + pbo d \/ o + s <= x) m m'
    /\ (forall i e, 0 <= i -> nth_error (del es index slots) (Z.to_nat i) = Some e -> elem_ok d m' o (s - slots * w) nn i e)
    /\ (forall i j ci cj, 0 <= i -> 0 <= j -> i <> j ->
        nth_error (del es index slots) (Z.to_nat i) = Some (CBytes ci) -> nth_error (del es index slots) (Z.to_nat j) = Some (CBytes cj) ->
        slot d nn m' o i + zlen ci <= slot d nn m' o j \/ slot d nn m' o j + zlen cj <= slot d nn m' o i).
Proof.
  intros CT VC V Vc HI HS HIS NUL w from to nn.
  destruct (var_facts d CT VC Vc) as (K0 & Ez & Bc & SO & FSE). pose proof CT as [W C].
  pose proof (cv_o _ _ _ _ _ V) as Ho. pose proof (cv_s _ _ _ _ _ V) as Hs. pose proof (cv_tot _ _ _ _ _ V) as TOT. pose proof (vtot_nonneg d es 0) as VN.
  pose proof (pbo_range d) as (P1 & _). pose proof (vs_range d) as VS. pose proof (vs_enough d W) as VE. pose proof (wf_node d W) as (_ & _ & MSD & _). unfold max_bytes in *.
  assert (PB : 1 <= pbo d). { pose proof (pbo_range d) as (_ & Q & P3 & _). specialize (P3 VC). lia. }
  pose proof (zlen_nonneg es) as Zn. rewrite FSE in TOT. pose proof (cv_max _ _ _ _ _ V (arr_var d VC)) as MX.
  set (n := zlen es) in *. fold w in VS, VE, TOT.
  assert (W1 : 0 <= index * w) by (apply Z.mul_nonneg_nonneg; lia).
  assert (W2 : 0 <= slots * w) by (apply Z.mul_nonneg_nonneg; lia).
  assert (W3 : (index + slots) * w <= n * w) by (apply Z.mul_le_mono_nonneg_r; lia).
  assert (W4 : 0 <= nn * w) by (apply Z.mul_nonneg_nonneg; lia).
  rewrite u32_id by (unfold from; lia). rewrite memmove_ok by (unfold from, to; lia). cbn [bind].
  set (cp := slice m (o + from) (s - from)).
  assert (ZC : zlen cp = s - from) by (apply zlen_slice; unfold from; lia).
  set (m2 := upd m (o + to) cp).
  assert (K2 : keep (fun x => x < o + to \/ o + s <= x) m m2) by (apply (keep_upd' _ _ _ _ (s - from)); auto; unfold from, to; lia).
  pose proof (keep_len _ _ _ K2) as L2.
  assert (MV : forall x l, from <= x -> 0 <= l -> x + l <= s -> slice m2 (o + (x - slots * w)) l = slice m (o + x) l).
  { intros x l X1 X2 X3. unfold m2. rewrite slice_upd_in by (unfold from, to in *; lia). unfold cp. rewrite slice_slice by (unfold from, to in *; lia). f_equal. unfold from, to. lia. }
  set (src := fun i => if i <? index then i else i + slots).
  assert (SL2 : forall i, 0 <= i < nn -> dec (slice m2 (o + pbo d + i * w) w) = slot d n m o (src i)).
  { intros i I. unfold slot, src. rewrite SO. fold w.
    assert (I1 : 0 <= i * w) by (apply Z.mul_nonneg_nonneg; lia). destruct (i <? index) eqn:C1.
    - assert (i * w + w <= index * w) by (assert (0 <= (index - 1 - i) * w) by (apply Z.mul_nonneg_nonneg; lia); lia).
      rewrite (keep_slice _ _ _ _ _ K2) by (unfold to; lia). do 2 f_equal. lia.
    - assert (index * w <= i * w) by (apply Z.mul_le_mono_nonneg_r; lia).
      assert (i * w + w <= nn * w) by (assert (0 <= (nn - 1 - i) * w) by (apply Z.mul_nonneg_nonneg; lia); lia).
      rewrite <- (MV (pbo d + (i + slots) * w) w) by (unfold from, nn in *; lia). do 2 f_equal. lia. }
  assert (SR : forall i, 0 <= i < nn -> 0 <= src i < n) by (intros i I; unfold src; destruct (i <? index) eqn:C1; lia).
  assert (OFF : forall l, 0 <= l < n -> slot d n m o l <> 0 -> pbo d + n * w <= slot d n m o l < s).
  { intros l L NZ. destruct (var_slot_cases d m o s es CT VC V Vc l L) as (e & _ & [[_ Z0]|(cb & _ & A1 & A2 & _ & A4 & _)]); [fold n in Z0; lia|]. fold n in A1, A2, A4. rewrite FSE in A1. fold w in A1. lia. }
  assert (RG : forall l, 0 <= l < n -> slot d n m o l <> 0 -> 0 <= u32 (slot d n m o l - (from - to)) < 256 ^ w /\ u32 (slot d n m o l - (from - to)) = slot d n m o l - slots * w).
  { intros l L NZ. specialize (OFF l L NZ). unfold from, to, nn in *. rewrite u32_id by lia. lia. }
  destruct (patch_slots d m2 (o + pbo d) nn (fun a => u32 (a - (from - to)))
    (fun i m => let at_ := o + pbo d + u32 (i * w) in
      let* a := read_value m at_ (max_size d) in
      if negb (a =? 0) then write_value m at_ (max_size d) (u32 (a - (from - to))) else Ok m)) as (m3 & E3 & K3 & D3); fold w; try lia.
  { intros j x J. cbv zeta. rewrite u32_id; [reflexivity|]. split; [apply Z.mul_nonneg_nonneg; lia|].
    assert (0 <= (nn - 1 - j) * w) by (apply Z.mul_nonneg_nonneg; lia). lia. }
  { intros i I. rewrite SL2 by exact I. intro NZ. apply RG; auto. }
  fold w in D3, K3. exists m3. split; [exact E3|]. pose proof (keep_len _ _ _ K3) as L3.
  split. { eapply keep_trans'; [exact K2|exact K3|]. unfold to. cbn beta. intros; lia. }
  assert (SL3 : forall i, 0 <= i < nn -> slot d nn m3 o i = if slot d n m o (src i) =? 0 then 0 else slot d n m o (src i) - slots * w).
  { intros i I. unfold slot at 1. rewrite SO. fold w. rewrite Z.add_assoc, D3 by exact I. rewrite SL2 by exact I. cbv zeta.
    destruct (slot d n m o (src i) =? 0) eqn:Z0; [reflexivity|]. apply RG; auto; lia. }
  assert (ND : forall i, 0 <= i -> nth_error (del es index slots) (Z.to_nat i) = nth_error es (Z.to_nat (src i))).
  { intros i I. rewrite nth_del by lia. unfold src. destruct (i <? index); reflexivity. }
  assert (NTH : forall i e, 0 <= i -> nth_error (del es index slots) (Z.to_nat i) = Some e ->
     0 <= i < nn /\ ((e = CNull /\ slot d nn m3 o i = 0) \/
      exists cb, e = CBytes cb /\ nth_error es (Z.to_nat (src i)) = Some (CBytes cb)
        /\ slot d nn m3 o i = slot d n m o (src i) - slots * w /\ pbo d + n * w <= slot d n m o (src i) /\ slot d n m o (src i) + zlen cb <= s
        /\ slice m (o + slot d n m o (src i)) (zlen cb) = cb /\ 1 <= zlen cb <= max_size (containee d) /\ get_size (containee d) cb 0 = Ok (zlen cb))).
  { intros i e I En. pose proof (znth_some _ _ _ En) as IL. rewrite zlen_del in IL by lia. assert (I' : 0 <= i < nn) by (unfold nn, n; lia). split; [exact I'|].
    rewrite ND in En by exact I. pose proof (SL3 i I') as SI. 
    destruct (var_slot_cases d m o s es CT VC V Vc (src i) (SR i I')) as (e' & E' & [[-> Z0]|(cb & -> & A1 & A2 & A3 & A4 & A5)]); rewrite En in E'; injection E' as E'; subst e; [fold n in Z0|fold n in A1, A2, A3, A4, A5].
    + left. split; [reflexivity|]. rewrite SI, Z0. reflexivity.
    + right. exists cb. rewrite FSE in A1. fold w in A1. replace (slot d n m o (src i) =? 0) with false in SI by lia. repeat split; auto; lia. }
  split.
  - intros i e I En. destruct (NTH i e I En) as (I' & [[-> Z0]|(cb & -> & R2 & R3 & R4 & R5 & R6 & R7 & R8)]).
    + destruct (eslot_var (max_size d) _ (arr_wf d CT VC) Vc) as (_ & _ & Nv & Nl). unfold elem_ok. rewrite (arr_etype d VC). split; [congruence|]. split; [exact Nl|]. intros _. exact Z0.
    + destruct (eslot_var (max_size d) _ (arr_wf d CT VC) Vc) as (_ & _ & Nv & Nl). unfold elem_ok. rewrite (arr_etype d VC). split; [congruence|]. split; [exact Bc|]. split; [|congruence]. intros _.
      rewrite R3, FSE. fold w. unfold nn in *. split; [lia|]. split; [lia|]. split; [|auto].
      rewrite (keep_slice _ _ _ _ _ K3) by lia. rewrite MV by (unfold from; lia). exact R6.
  - intros i j ci cj I J D Ei Ej.
    destruct (NTH i _ I Ei) as (I' & [[Q _]|(cb & Q & R2 & R3 & R4 & R5 & R6 & R7 & R8)]); [discriminate|]. injection Q as <-.
    destruct (NTH j _ J Ej) as (J' & [[Q _]|(cb & Q & T2 & T3 & T4 & T5 & T6 & T7 & T8)]); [discriminate|]. injection Q as <-.
    rewrite R3, T3.
    assert (DS : src i <> src j) by (unfold src; cbn beta; destruct (i <? index) eqn:Ci; destruct (j <? index) eqn:Cj; lia).
    pose proof (SR i I') as SRi. pose proof (SR j J') as SRj.
    pose proof (cv_dis _ _ _ _ _ V (src i) (src j) ci cj ltac:(lia) ltac:(lia) DS R2 T2) as DD. rewrite !(arr_etype d VC) in DD. specialize (DD Vc Vc). fold n in DD. lia.
Qed.

(** ** [discard_from_container] *)
Theorem discard_ok d m o s es index slots : container d -> cv d m o s es -> is_variable_element_count d = true ->
  0 <= index < 4294967296 -> 0 <= slots < 4294967296 ->
  exists r m' s' es', discard d m o index slots = Ok (r, m') /\ can_discard d m o index slots = Ok r
    /\ cv d m' o s' es' /\ s' <= s
    /\ (r = false -> m' = m /\ s' = s /\ es' = es)
    /\ (r = true -> index + slots <= zlen es /\ es' = del es index slots)
    /\ keep (fun x => x < o \/ o + s <= x) m m'.
Proof.
  intros CT V VC HI HSl. pose proof CT as [W C]. pose proof (cv_o _ _ _ _ _ V) as Ho. pose proof (cv_s _ _ _ _ _ V) as Hs.
  pose proof (cv_bounds d m o s es CT V) as B. pose proof (zlen_nonneg es) as Zn. pose proof (arr_wf d CT VC) as Wc.
  pose proof (cv_max _ _ _ _ _ V (arr_var d VC)) as MX. pose proof (pbo_range d) as (P1 & _). pose proof (vs_range d) as VS. pose proof (vs_enough d W) as VE.
  pose proof (wf_node d W) as (_ & _ & MSD & _). pose proof (cv_n _ _ _ _ _ V) as [N32 _]. unfold max_bytes in *.
  set (c := containee d) in *. set (n := zlen es) in *.
  assert (TOT : s = FS d n + vsum c es) by (rewrite (cv_tot _ _ _ _ _ V) at 1; fold n; rewrite (arr_vtot d VC); reflexivity).
  assert (N256 : n < 256 ^ vs d).
  { pose proof (cv_count _ _ _ _ _ V VC) as CN. fold n in CN. rewrite <- CN. 
    pose proof (pbo_range d) as (_ & P2 & P3 & _). specialize (P3 VC). apply dec_vs_range; lia. }
  assert (FAIL : exists r m' s' es', Ok (false, m) = Ok (r, m') /\ Ok false = Ok r /\ cv d m' o s' es' /\ s' <= s
     /\ (r = false -> m' = m /\ s' = s /\ es' = es) /\ (r = true -> index + slots <= n /\ es' = del es index slots) /\ keep (fun x => x < o \/ o + s <= x) m m').
  { exists false, m, s, es. split; [reflexivity|]. split; [reflexivity|]. split; [exact V|]. split; [lia|]. split; [auto|]. split; [discriminate|apply keep_refl]. }
  unfold discard, can_discard. rewrite VC. cbn [negb]. rewrite (cv_get_count d m o s es CT V). cbn [bind]. fold n c.
  destruct (n <=? index) eqn:C1; [exact FAIL|].
  assert (BF : is_bit_field c = true -> ebits c <= 64).
  { intro Bc. pose proof (cv_narrow _ _ _ _ _ V VC Bc) as NR. fold c n in NR. lia. }
  destruct (n - index <? slots) eqn:C2; [exact FAIL|]. cbn [bind negb].
  destruct (slots =? 0) eqn:CS.
  { exists true, m, s, es. split; [reflexivity|]. split; [reflexivity|]. split; [exact V|]. split; [lia|]. split; [discriminate|].
    split; [|apply keep_refl]. intros _. split; [lia|]. unfold del. replace (index + slots) with index by lia. symmetry. apply firstn_skipn. }
  rewrite (cv_get_size d m o s es CT V). cbn [bind]. rewrite (u32_id (n - slots)) by lia.
  assert (ZI : zlen (del es index slots) = n - slots) by (apply zlen_del; fold n; lia).
  assert (VF : forall l, is_variable_sized_ c = false -> vsum c l = 0).
  { intros l Vc. clear - Vc. induction l as [|e l IH]; [reflexivity|]. cbn [vsum fold_right]. fold (vsum c l). rewrite IH. unfold clen. rewrite Vc. reflexivity. }
  assert (FM : FS d (n - slots) <= FS d n).
  { rewrite !(arr_FS d VC). fold c. pose proof (ebits_range _ Wc). pose proof (eslot_range (max_size d) _ Wc).
    assert ((n - slots) * ebits c <= n * ebits c) by (apply Z.mul_le_mono_nonneg_r; lia).
    assert ((n - slots) * eslot (max_size d) c <= n * eslot (max_size d) c) by (apply Z.mul_le_mono_nonneg_r; lia).
    pose proof (bitmap_mono ((n - slots) * ebits c) (n * ebits c) ltac:(lia)). lia. }
  assert (FIN : forall body s' m', body = Ok (s', m') -> s' <= s -> s' = FS d (n - slots) + vsum c (del es index slots) -> keep (fun x => x < o \/ o + s <= x) m m' ->
     (forall i e, 0 <= i -> nth_error (del es index slots) (Z.to_nat i) = Some e -> elem_ok d m' o s' (n - slots) i e) ->
     (is_variable_sized_ c = true -> forall i j ci cj, 0 <= i -> 0 <= j -> i <> j ->
          nth_error (del es index slots) (Z.to_nat i) = Some (CBytes ci) -> nth_error (del es index slots) (Z.to_nat j) = Some (CBytes cj) ->
          slot d (n - slots) m' o i + zlen ci <= slot d (n - slots) m' o j \/ slot d (n - slots) m' o j + zlen cj <= slot d (n - slots) m' o i) ->
     exists r m'' s'' es'', (let* (ns, x) := body in let* y := write_prefix d x o ns (n - slots) in Ok (true, y)) = Ok (r, m'') /\ Ok true = Ok r /\ cv d m'' o s'' es'' /\ s'' <= s
     /\ (r = false -> m'' = m /\ s'' = s /\ es'' = es) /\ (r = true -> index + slots <= n /\ es'' = del es index slots) /\ keep (fun x => x < o \/ o + s <= x) m m'').
  { intros body s' m' -> SL ST K EL DIS. cbn [bind]. pose proof (keep_len _ _ _ K) as L.
    destruct (write_prefix_cv d CT VC m' o s' (del es index slots)) as (m'' & E & V' & K'); try rewrite ZI; auto; try lia.
    { intros _ Bc. fold c. specialize (BF Bc). lia. }
    rewrite ZI in E. rewrite E. cbn [bind]. exists true, m'', s', (del es index slots).
    split; [reflexivity|]. split; [reflexivity|]. split; [exact V'|]. split; [lia|]. split; [discriminate|]. split; [intros _; split; [lia|reflexivity]|].
    eapply keep_trans'; [exact K|exact K'|]. cbn beta. intros x X. destruct X; [lia|]. split; [lia|]. right.
    assert (pbo d <= s) by lia. lia. }
  destruct (is_bit_field c) eqn:Bc.
  - pose proof Bc as Bc'. apply is_bit_field_spec in Bc'. rewrite Bc'.
    assert (Vc : is_variable_sized_ c = false). { destruct (is_variable_sized_ c) eqn:Vc; [|reflexivity]. destruct (eslot_var (max_size d) _ Wc Vc) as (X & _). congruence. }
    destruct (discard_bits_ok d m o s es index slots CT VC V ltac:(lia) ltac:(lia) ltac:(fold n; lia) Bc ltac:(fold c; auto)) as (m' & E & SH).
    fold n in E. rewrite VF in TOT by exact Vc. apply (FIN _ _ m' E); try lia.
    + rewrite VF by exact Vc. lia.
    + destruct SH as (K & _). eapply keep_weaken; [exact K|]. fold n. cbn beta. intros; lia.
    + intros i e I En. apply (shifted_down_elems d m o s es index slots CT VC V) with (m' := m'); auto; fold n; lia.
    + congruence.
  - assert (G : forall (x y : res (Z * mem)), match type c with BIT_FIELD => x | _ => y end = y) by (intros; unfold is_bit_field in Bc; destruct (type c); try discriminate; reflexivity).
    rewrite G. change (is_variable_sized_type_info c) with (is_variable_sized_ c). destruct (is_variable_sized_ c) eqn:Vc; cbn [negb].
    + destruct (null_loop d m o s es index slots CT VC V ltac:(lia) ltac:(lia) ltac:(fold n; lia) Vc) as (m1 & s1 & es1 & E1 & V1 & S1 & Z1 & K1 & N1). fold n in Z1, N1.
      assert (DE : del es1 index slots = del es index slots).
      { apply nth_error_ext. intro i. destruct (Z_lt_le_dec (Z.of_nat i) (n - slots)) as [L|L].
        - pose proof (nth_del es1 index slots (Z.of_nat i) ltac:(lia) ltac:(lia) ltac:(lia)) as Q1.
          pose proof (nth_del es index slots (Z.of_nat i) ltac:(fold n; lia) ltac:(lia) ltac:(lia)) as Q2. rewrite Nat2Z.id in Q1, Q2.
          rewrite Q1, Q2. destruct (Z.of_nat i <? index) eqn:CC.
          + pose proof (N1 (Z.of_nat i) ltac:(lia)) as Q. rewrite Nat2Z.id in Q. rewrite Q. replace ((index <=? Z.of_nat i) && (Z.of_nat i <? index + slots)) with false by lia. reflexivity.
          + rewrite N1 by lia. replace ((index <=? Z.of_nat i + slots) && (Z.of_nat i + slots <? index + slots)) with false by lia. reflexivity.
        - assert (zlen (del es1 index slots) = n - slots) by (rewrite zlen_del; lia).
          rewrite !(proj2 (nth_error_None _ _)); auto; unfold zlen in *; lia. }
      assert (NUL : forall l e, index <= l < index + slots -> nth_error es1 (Z.to_nat l) = Some e -> e = CNull).
      { intros l e L E. rewrite N1 in E by lia. replace ((index <=? l) && (l <? index + slots)) with true in E by lia. congruence. }
      destruct (discard_shift d m1 o s1 es1 index slots CT VC V1 Vc ltac:(lia) ltac:(lia) ltac:(lia) NUL) as (m3 & E3 & K3 & EL & DIS).
      pose proof (cv_tot _ _ _ _ _ V1) as TOT1. rewrite (arr_vtot d VC) in TOT1. fold c in TOT1. rewrite Z1 in *. rewrite DE in EL, DIS.
      destruct (var_facts d CT VC Vc) as (K0 & Ez & _ & SO & FSE). pose proof (cv_bounds d m1 o s1 es1 CT V1) as B1. rewrite Z1 in B1. unfold max_bytes in B1.
      pose proof (vsum_nonneg c es1) as VN1. rewrite !FSE in TOT1. rewrite !FSE in TOT.
      assert (W0 : 0 <= slots * vs d) by (apply Z.mul_nonneg_nonneg; lia).
      assert (W1 : 0 <= index * vs d) by (apply Z.mul_nonneg_nonneg; lia).
      assert (W2 : (index + slots) * vs d <= n * vs d) by (apply Z.mul_le_mono_nonneg_r; lia).
      apply (FIN _ (s1 - slots * vs d) m3).
      * unfold discard_var. step E1. rewrite (cv_get_size d m1 o s1 es1 CT V1). cbn [bind]. 
        rewrite (u32_id (pbo d + vs d * (index + slots))), (u32_id (pbo d + vs d * index)), (u32_id (s1 - vs d * slots)) by lia.
        destruct (memmove m1 (o + (pbo d + vs d * index)) (o + (pbo d + vs d * (index + slots))) (u32 (s1 - (pbo d + vs d * (index + slots))))) as [m2|] eqn:E2; [|discriminate]. cbn [bind] in E3 |- *.
        step E3. do 2 f_equal. lia.
      * lia.
      * rewrite FSE. rewrite <- DE, (vsum_del c es1 index slots); [lia|lia|lia|exact NUL].
      * eapply keep_trans'; [exact K1|exact K3|]. cbn beta. intros x X. split; [exact X|]. destruct X as [X|X]; [left; lia|right; lia].
      * exact EL.
      * intros _. exact DIS.
    + destruct (discard_fixed_ok d m o s es index slots CT VC V ltac:(lia) ltac:(lia) ltac:(fold n; lia) Bc Vc ltac:(rewrite TOT, VF by reflexivity; fold n; lia)) as (m' & E & SH).
      fold n in E. rewrite VF in TOT by reflexivity. apply (FIN _ _ m' E); try lia.
      * rewrite VF by reflexivity. lia.
      * destruct SH as (K & _). eapply keep_weaken; [exact K|]. fold n. cbn beta. intros; lia.
      * intros i e I En. apply (shifted_down_elems d m o s es index slots CT VC V) with (m' := m'); auto; fold n; lia.
Qed.
