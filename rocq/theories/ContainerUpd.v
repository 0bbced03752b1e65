(** * Changing one element of a container *)
From Verif Require Export ContainerFacts.
From Coq Require Import ZifyBool ZifyNat ZifyN Zify.
Ltac Zify.zify_post_hook ::= Z.div_mod_to_equations.

(** replace element [i] *)
Fixpoint lset {A} (l : list A) (i : nat) (x : A) : list A :=
  match l, i with
  | [], _ => []
  | _ :: l', O => x :: l'
  | y :: l', S i' => y :: lset l' i' x
  end.
Lemma lset_len {A} (l : list A) x : forall i, length (lset l i x) = length l.
Proof. induction l as [|y l IH]; intros [|i]; cbn; auto. Qed.
Lemma zlen_lset {A} (l : list A) i x : zlen (lset l i x) = zlen l.
Proof. unfold zlen. now rewrite lset_len. Qed.
Lemma lset_same {A} (l : list A) x : forall i, (i < length l)%nat -> nth_error (lset l i x) i = Some x.
Proof. induction l as [|y l IH]; intros [|i] H; cbn in *; try lia; auto. apply IH. lia. Qed.
Lemma lset_other {A} (l : list A) x : forall i j, i <> j -> nth_error (lset l i x) j = nth_error l j.
Proof. induction l as [|y l IH]; intros [|i] [|j] H; cbn in *; try lia; auto. Qed.
Lemma lset_id {A} (l : list A) x : forall i, nth_error l i = Some x -> lset l i x = l.
Proof. induction l as [|y l IH]; intros [|i] H; cbn in *; try discriminate; [congruence|]. f_equal. auto. Qed.
Lemma lset_lset {A} (l : list A) x y : forall i, lset (lset l i x) i y = lset l i y.
Proof. induction l as [|z l IH]; intros [|i]; cbn; f_equal; auto. Qed.
Lemma vtot_lset d es e e' : forall i b, nth_error es i = Some e ->
  vtot d b (lset es i e') = vtot d b es - clen (etype d (b + Z.of_nat i)) e + clen (etype d (b + Z.of_nat i)) e'.
Proof.
  induction es as [|x es IH]; intros [|i] b H; cbn [nth_error lset vtot] in *; try discriminate.
  - injection H as <-. rewrite Z.add_0_r. lia.
  - rewrite (IH i (b + 1) H). replace (b + 1 + Z.of_nat i) with (b + Z.of_nat (S i)) by lia. lia.
Qed.

(** ** the general update *)
Section Update.
  Variables (d : dti) (m : mem) (o s : Z) (es : list celem).
  Hypothesis CT : container d.
  Hypothesis V : cv d m o s es.
  Notation n := (zlen es).
  Variables (m' : mem) (s' i : Z) (e e' : celem).
  Hypothesis I : 0 <= i.
  Hypothesis En : nth_error es (Z.to_nat i) = Some e.
  Hypothesis Hl : o + s' <= zlen m'.
  Hypothesis Hc : is_variable_element_count d = true -> slice m' (o + offset_of_prefix_count d) (vs d) = slice m (o + offset_of_prefix_count d) (vs d).
  Hypothesis Hsz : has_size_in_prefix d = true -> dec (slice m' o (vs d)) = s' mod 256 ^ vs d.
  Hypothesis Hmax : is_variable_sized_ d = true -> s' <= max_size d.
  Hypothesis Hs' : s' = s - clen (etype d i) e + clen (etype d i) e'.
  Hypothesis Hi : elem_ok d m' o s' n i e'.
  Hypothesis Hbits : forall j k, 0 <= j < n -> j <> i -> 0 <= k < ebits (etype d j) ->
    bitat m' (o + pbo d) (sb d j + k) = bitat m (o + pbo d) (sb d j + k).
  Hypothesis Hslots : forall j, 0 <= j < n -> j <> i ->
    slice m' (o + so d n j) (eslot (max_size d) (etype d j)) = slice m (o + so d n j) (eslot (max_size d) (etype d j)).
  Hypothesis Hchunks : forall j cj, 0 <= j -> j <> i -> nth_error es (Z.to_nat j) = Some (CBytes cj) -> is_variable_sized_ (etype d j) = true ->
    slot d n m o j + zlen cj <= s' /\ slice m' (o + slot d n m o j) (zlen cj) = cj
    /\ (forall c', e' = CBytes c' -> is_variable_sized_ (etype d i) = true ->
         slot d n m' o i + zlen c' <= slot d n m o j \/ slot d n m o j + zlen cj <= slot d n m' o i).

  Lemma cv_update : cv d m' o s' (lset es (Z.to_nat i) e').
  Proof.
    pose proof (znth_some _ _ _ En) as IL. assert (I' : 0 <= i < n) by lia.
    pose proof (cv_bounds d m o s es CT V) as B. pose proof CT as [W C].
    assert (SL : forall j, 0 <= j < n -> j <> i -> is_variable_sized_ (etype d j) = true -> slot d n m' o j = slot d n m o j).
    { intros j J N Vj. pose proof (cv_etype_wf d m o s es j CT V J) as Wt.
      destruct (eslot_var (max_size d) _ Wt Vj) as (_ & Es & _). specialize (Hslots j J N). rewrite Es in Hslots.
      unfold slot. now rewrite Hslots. }
    assert (ND : forall j x, 0 <= j -> j <> i -> nth_error (lset es (Z.to_nat i) e') (Z.to_nat j) = Some x -> nth_error es (Z.to_nat j) = Some x).
    { intros j x J N E. rewrite lset_other in E by lia. exact E. }
    assert (NS : forall x, nth_error (lset es (Z.to_nat i) e') (Z.to_nat i) = Some x -> x = e').
    { intros x E. rewrite lset_same in E by (unfold zlen in *; lia). congruence. }
    constructor; rewrite ?zlen_lset; auto.
    - exact (cv_o _ _ _ _ _ V).
    - exact (cv_n _ _ _ _ _ V).
    - exact (cv_narrow _ _ _ _ _ V).
    - intro VC. rewrite (Hc VC). exact (cv_count _ _ _ _ _ V VC).
    - rewrite (vtot_lset d es e e' (Z.to_nat i) 0 En), Hs', (cv_tot _ _ _ _ _ V).
      replace (0 + Z.of_nat (Z.to_nat i)) with i by lia. lia.
    - intros j x J Ej. destruct (Z.eq_dec j i) as [->|N].
      + apply NS in Ej. subst x. exact Hi.
      + apply ND in Ej; auto. pose proof (znth_some _ _ _ Ej) as JL. assert (J' : 0 <= j < n) by lia.
        pose proof (cv_etype_wf d m o s es j CT V J') as Wt.
        pose proof (ebits_parts _ Wt) as (EP1 & EP2 & EP3 & EP4).
        pose proof (cv_el _ _ _ _ _ V j x J Ej) as [A1 A2]. split.
        * intro Nv. rewrite <- (A1 Nv). specialize (EP4 Nv). rewrite <- (Z.add_0_r (sb d j)). apply Hbits; auto; lia.
        * destruct x as [|z|c].
          -- destruct A2 as [A2 A3]. split; [exact A2|]. intro Vj. rewrite SL by assumption. auto.
          -- destruct A2 as (A2 & A3 & A4). split; [exact A2|]. split; [exact A3|]. intros k K. rewrite <- (A4 k K).
             rewrite A2 in *. rewrite <- !Z.add_assoc. apply Hbits; auto; lia.
          -- destruct A2 as (A2 & A3 & A4). split; [exact A2|]. split.
             ++ intro Vj. destruct (A3 Vj) as (B1 & B2 & B3 & B4 & B5).
                destruct (Hchunks j c J N Ej Vj) as (C1 & C2 & _). rewrite SL by assumption. auto.
             ++ intro Fj. destruct (A4 Fj) as [B1 B2]. split; [exact B1|]. specialize (Hslots j J' N).
                rewrite (eslot_fixed _ _ A2 Fj) in Hslots. congruence.
    - intros j k cj ck J K JK Ej Ek Vj Vk.
      destruct (Z.eq_dec j i) as [->|Nj].
      + apply NS in Ej. apply ND in Ek; auto. pose proof (znth_some _ _ _ Ek). rewrite (SL k) by (auto; lia).
        destruct (Hchunks k ck K (not_eq_sym JK) Ek Vk) as (_ & _ & D). exact (D cj (eq_sym Ej) Vj).
      + apply ND in Ej; auto. pose proof (znth_some _ _ _ Ej). rewrite (SL j) by (auto; lia).
        destruct (Z.eq_dec k i) as [->|Nk].
        * apply NS in Ek. destruct (Hchunks j cj J Nj Ej Vj) as (_ & _ & D). specialize (D ck (eq_sym Ek) Vk). tauto.
        * apply ND in Ek; auto. pose proof (znth_some _ _ _ Ek). rewrite (SL k) by (auto; lia).
          eapply cv_dis; eassumption.
  Qed.
End Update.

(** ** order of the parts of two elements *)
Lemma bits_apart d m o s es i j k l : container d -> cv d m o s es -> 0 <= i < zlen es -> 0 <= j < zlen es -> i <> j ->
  0 <= k < ebits (etype d i) -> 0 <= l < ebits (etype d j) -> sb d i + k <> sb d j + l.
Proof.
  intros [W C] V I J N K L. pose proof (cv_n _ _ _ _ _ V) as CN.
  destruct (Z_lt_le_dec i j).
  - pose proof (sb_before d _ i j W C CN ltac:(lia) ltac:(lia) ltac:(lia)). lia.
  - pose proof (sb_before d _ j i W C CN ltac:(lia) ltac:(lia) ltac:(lia)). lia.
Qed.
Lemma slots_apart d m o s es i j : container d -> cv d m o s es -> 0 <= i < zlen es -> 0 <= j < zlen es -> i <> j ->
  so d (zlen es) i + eslot (max_size d) (etype d i) <= so d (zlen es) j \/ so d (zlen es) j + eslot (max_size d) (etype d j) <= so d (zlen es) i.
Proof.
  intros [W C] V I J N. pose proof (cv_n _ _ _ _ _ V) as CN. unfold so.
  destruct (Z_lt_le_dec i j).
  - pose proof (ss_before d _ i j W C CN ltac:(lia) ltac:(lia) ltac:(lia)). lia.
  - pose proof (ss_before d _ j i W C CN ltac:(lia) ltac:(lia) ltac:(lia)). lia.
Qed.
Lemma eslot_nonneg d m o s es i : container d -> cv d m o s es -> 0 <= i < zlen es -> 0 <= eslot (max_size d) (etype d i).
Proof. intros CT V I. apply eslot_range. eapply cv_etype_wf; eassumption. Qed.
Lemma ebits_nonneg d m o s es i : container d -> cv d m o s es -> 0 <= i < zlen es -> 0 <= ebits (etype d i) <= 65.
Proof. intros CT V I. apply ebits_range. eapply cv_etype_wf; eassumption. Qed.

(** ** an element of fixed size *)
(** [m'] differs from [m] only in the bits and in the slot of element [i] *)
Definition only_fixed (d : dti) (n : Z) (m m' : mem) (o i : Z) : Prop :=
  zlen m' = zlen m
  /\ (forall x, 0 <= x < zlen m -> bat m' x <> bat m x ->
        (o + pbo d + sb d i / 8 <= x /\ x < o + pbo d + bitmap_size_in_bytes (sb d i + ebits (etype d i)))
        \/ o + so d n i <= x < o + so d n i + eslot (max_size d) (etype d i))
  /\ (forall b, 0 <= b < sb d n -> ~ (sb d i <= b < sb d i + ebits (etype d i)) -> bitat m' (o + pbo d) b = bitat m (o + pbo d) b).

Lemma cv_set_fixed d m o s es m' i e e' : container d -> cv d m o s es -> 0 <= i -> nth_error es (Z.to_nat i) = Some e ->
  is_variable_sized_ (etype d i) = false -> only_fixed d (zlen es) m m' o i -> elem_ok d m' o s (zlen es) i e' ->
  cv d m' o s (lset es (Z.to_nat i) e') /\ keep (fun x => x < o \/ o + FS d (zlen es) <= x) m m'.
Proof.
  intros CT V I En Fi (OL & OB & OT) Hi.
  pose proof (znth_some _ _ _ En) as IL. assert (I' : 0 <= i < zlen es) by lia.
  pose proof (cv_bounds d m o s es CT V) as B. pose proof CT as [W C].
  pose proof (cv_o _ _ _ _ _ V) as Ho. pose proof (cv_s _ _ _ _ _ V) as Hs.
  pose proof (pbo_range d) as (P1 & P2 & P3 & P4 & P5 & P6). pose proof (vs_range d).
  pose proof (slot_in d m o s es i CT V I') as SI. pose proof (eslot_nonneg d m o s es i CT V I') as EN.
  pose proof (cv_n _ _ _ _ _ V) as CN.
  destruct (sb_before d _ i (zlen es) W C CN ltac:(lia) ltac:(lia) ltac:(lia)) as [B1 B2].
  pose proof (ebits_nonneg d m o s es i CT V I').
  assert (BM : bitmap_size_in_bytes (sb d i + ebits (etype d i)) <= bitmap_size_in_bytes (sb d (zlen es))) by (unfold bitmap_size_in_bytes; lia).
  assert (Q : forall a k, 0 <= a -> 0 <= k -> a + k <= zlen m ->
     (a + k <= o + pbo d + sb d i / 8 \/ o + pbo d + bitmap_size_in_bytes (sb d i + ebits (etype d i)) <= a) ->
     (a + k <= o + so d (zlen es) i \/ o + so d (zlen es) i + eslot (max_size d) (etype d i) <= a) ->
     slice m' a k = slice m a k).
  { intros a k Ha Hk Hb Hd1 Hd2. apply bat_ext; try lia. intros x Hx.
    destruct (Byte.byte_eq_dec (bat m' (a + x)) (bat m (a + x))) as [E|E]; [exact E|]. apply OB in E; lia. }
  split.
  - eapply cv_update; try eassumption.
    + lia.
    + intro VC. specialize (P3 VC). apply Q; lia.
    + intro HS. rewrite <- (cv_size _ _ _ _ _ V HS). f_equal. specialize (P4 HS). apply Q; lia.
    + apply (cv_max _ _ _ _ _ V).
    + unfold clen. rewrite Fi. lia.
    + intros j k J N K. destruct (sb_before d _ j (zlen es) W C CN ltac:(lia) ltac:(lia) ltac:(lia)). apply OT; [lia|].
      intro R. apply (bits_apart d m o s es i j (sb d j + k - sb d i) k CT V I' J (not_eq_sym N)); lia.
    + intros j J N. pose proof (slot_in d m o s es j CT V J). pose proof (eslot_nonneg d m o s es j CT V J).
      pose proof (slots_apart d m o s es i j CT V I' J (not_eq_sym N)). apply Q; lia.
    + intros j cj J N Ej Vj. pose proof (cv_el _ _ _ _ _ V j _ J Ej) as (_ & _ & A & _). destruct (A Vj) as (A1 & A2 & A3 & A4 & _).
      split; [lia|]. split; [|intros; congruence]. rewrite <- A3 at 2. pose proof (zlen_nonneg cj). apply Q; lia.
  - split; [exact OL|]. intros x X P.
    destruct (Byte.byte_eq_dec (bat m' x) (bat m x)) as [E|E]; [exact E|]. apply OB in E; lia.
Qed.

Lemma only_fixed_trans d n m1 m2 m3 o i : only_fixed d n m1 m2 o i -> only_fixed d n m2 m3 o i -> only_fixed d n m1 m3 o i.
Proof.
  intros (L1 & B1 & T1) (L2 & B2 & T2). split; [congruence|]. split.
  - intros x X D. destruct (Byte.byte_eq_dec (bat m2 x) (bat m1 x)) as [E|E]; [apply B2; [lia|congruence]|auto].
  - intros b R N. rewrite T2, T1; auto.
Qed.
Lemma only_fixed_refl d n m o i : only_fixed d n m m o i.
Proof. split; [reflexivity|]. split; [congruence|reflexivity]. Qed.

Section FixedUpdates.
  Variables (d : dti) (m0 : mem) (o s : Z) (es : list celem) (i : Z).
  Hypothesis CT : container d.
  Hypothesis V0 : cv d m0 o s es.
  Hypothesis I' : 0 <= i < zlen es.
  Notation n := (zlen es).
  Notation t := (etype d i).
  Variable m : mem.
  Hypothesis Lm : zlen m = zlen m0.

  Lemma bits_room : 0 <= sb d i /\ sb d i + ebits t <= sb d n /\ 0 <= o /\ 0 <= pbo d
    /\ o + pbo d + bitmap_size_in_bytes (sb d n) <= zlen m /\ pbo d + bitmap_size_in_bytes (sb d n) <= so d n i
    /\ o + so d n i + eslot (max_size d) t <= zlen m /\ 0 <= eslot (max_size d) t /\ 0 <= ebits t.
  Proof.
    pose proof (cv_bounds d m0 o s es CT V0) as B. pose proof CT as [W C].
    pose proof (cv_o _ _ _ _ _ V0) as Ho. pose proof (cv_s _ _ _ _ _ V0) as Hs. pose proof (cv_n _ _ _ _ _ V0) as CN.
    destruct (sb_before d _ i n W C CN ltac:(lia) ltac:(lia) ltac:(lia)) as [B1 B2].
    pose proof (slot_in d m0 o s es i CT V0 I'). pose proof (eslot_nonneg d m0 o s es i CT V0 I'). pose proof (ebits_nonneg d m0 o s es i CT V0 I').
    pose proof (sb_nonneg d n i W C CN ltac:(lia)). lia.
  Qed.

  (** setting bits of element [i] *)
  Lemma only_bits m' : zlen m' = zlen m ->
    (forall x, 0 <= x < zlen m -> ~ (o + pbo d + sb d i / 8 <= x < o + pbo d + bitmap_size_in_bytes (sb d i + ebits t)) -> bat m' x = bat m x) ->
    (forall b, 0 <= b < sb d n -> ~ (sb d i <= b < sb d i + ebits t) -> bitat m' (o + pbo d) b = bitat m (o + pbo d) b) ->
    only_fixed d n m m' o i.
  Proof.
    intros L B T. split; [exact L|]. split; [|exact T].
    intros x X D. left. destruct (Z_le_gt_dec (o + pbo d + sb d i / 8) x); [destruct (Z_lt_ge_dec x (o + pbo d + bitmap_size_in_bytes (sb d i + ebits t))); [lia|]|];
    exfalso; apply D; apply B; lia.
  Qed.

  Lemma put_valid b : needs_is_valid_bit t = true ->
    exists m', put_bit m (o + pbo d) (sb d i) b = Ok m' /\ only_fixed d n m m' o i
      /\ (forall j, 0 <= j < sb d n -> bitat m' (o + pbo d) j = if j =? sb d i then b else bitat m (o + pbo d) j)
      /\ slice m' (o + so d n i) (eslot (max_size d) t) = slice m (o + so d n i) (eslot (max_size d) t).
  Proof.
    intro Nv. pose proof bits_room as R. pose proof (cv_etype_wf d m0 o s es i CT V0 I') as Wt.
    pose proof (ebits_parts _ Wt) as (EP1 & EP2 & EP3 & EP4). specialize (EP4 Nv).
    pose proof (bitmap_bytes_bound (sb d n) (sb d i) ltac:(lia)) as BB.
    exists (put_bit_val m (o + pbo d) (sb d i) b). split; [apply put_bit_ok; lia|].
    assert (BT : forall j, 0 <= j < sb d n -> bitat (put_bit_val m (o + pbo d) (sb d i) b) (o + pbo d) j = if j =? sb d i then b else bitat m (o + pbo d) j).
    { intros j J. rewrite bitat_put by lia. reflexivity. }
    assert (KP : keep (fun x => x <> o + pbo d + sb d i / 8) m (put_bit_val m (o + pbo d) (sb d i) b)) by (apply keep_put; lia).
    split; [|split; [exact BT|]].
    - apply only_bits.
      + apply zlen_put_bit; lia.
      + intros x X N. apply KP; [exact X|]. unfold bitmap_size_in_bytes in *. lia.
      + intros j J N. rewrite BT by lia. destruct (j =? sb d i) eqn:E; [lia|reflexivity].
    - apply (keep_slice _ _ _ _ _ KP); try lia.
  Qed.

  Lemma put_field v : is_bit_field t = true ->
    let f := sb d i + b2n (needs_is_valid_bit t) in
    exists m', set_bits m (o + pbo d) f (f + size t - 1) v = Ok m' /\ only_fixed d n m m' o i
      /\ (forall j, 0 <= j < sb d n -> bitat m' (o + pbo d) j = if (f <=? j) && (j <? f + size t) then Z.testbit v (j - f) else bitat m (o + pbo d) j).
  Proof.
    intros Bt f. pose proof bits_room as R. pose proof (cv_etype_wf d m0 o s es i CT V0 I') as Wt.
    pose proof (ebits_parts _ Wt) as (EP1 & EP2 & EP3 & EP4). rewrite Bt in EP1. specialize (EP3 Bt).
    pose proof (bitmap_bytes_bound (sb d n) (f + size t - 1) ltac:(lia)) as BB.
    destruct (set_bits_ok m (o + pbo d) f (f + size t - 1) v) as (m' & E & KP & BT); try lia.
    exists m'. split; [exact E|]. 
    assert (BT' : forall j, 0 <= j < sb d n -> bitat m' (o + pbo d) j = if (f <=? j) && (j <? f + size t) then Z.testbit v (j - f) else bitat m (o + pbo d) j).
    { intros j J. rewrite BT by lia. replace (j <=? f + size t - 1) with (j <? f + size t) by lia. reflexivity. }
    split; [|exact BT'].
    apply only_bits.
    - exact (keep_len _ _ _ KP).
    - intros x X N. apply KP; [exact X|]. unfold bitmap_size_in_bytes in *. lia.
    - intros j J N. rewrite BT' by lia. destruct ((f <=? j) && (j <? f + size t)) eqn:Q; [lia|reflexivity].
  Qed.

  Lemma put_slot c : is_bit_field t = false -> is_variable_sized_ t = false -> zlen c = size t ->
    only_fixed d n m (upd m (o + so d n i) c) o i
    /\ slice (upd m (o + so d n i) c) (o + so d n i) (size t) = c
    /\ (forall j, 0 <= j < sb d n -> bitat (upd m (o + so d n i) c) (o + pbo d) j = bitat m (o + pbo d) j).
  Proof.
    intros Bt Ft L. pose proof bits_room as R. rewrite (eslot_fixed _ _ Bt Ft) in R.
    assert (0 <= bitmap_size_in_bytes (sb d n)) by (unfold bitmap_size_in_bytes; lia).
    assert (BT : forall j, 0 <= j < sb d n -> bitat (upd m (o + so d n i) c) (o + pbo d) j = bitat m (o + pbo d) j).
    { intros j J. pose proof (bitmap_bytes_bound (sb d n) j J). apply bitat_upd_dis; lia. }
    split; [|split; [|exact BT]].
    - split; [rewrite zlen_upd; lia|]. split; [|intros; apply BT; lia].
      intros x X D. rewrite (eslot_fixed _ _ Bt Ft). right.
      pose proof (keep_upd m (o + so d n i) c ltac:(lia) ltac:(lia)) as [_ KP].
      destruct (Z_lt_ge_dec x (o + so d n i)); [exfalso; apply D, KP; lia|].
      destruct (Z_lt_ge_dec x (o + so d n i + zlen c)); [lia|exfalso; apply D, KP; lia].
    - apply slice_upd_same'; lia.
  Qed.
End FixedUpdates.

(** ** an element of variable size at the end of the container *)
Definition at_end (d : dti) (m : mem) (o s : Z) (es : list celem) (i : Z) (e : celem) : Prop :=
  match e with CBytes c => slot d (zlen es) m o i = s - zlen c | _ => True end.
Definition var_ok (d : dti) (m : mem) (o a n i : Z) (e : celem) : Prop :=
  match e with
  | CNull => slot d n m o i = 0
  | CBits _ => False
  | CBytes c => slot d n m o i = a /\ slice m (o + a) (zlen c) = c /\ 1 <= zlen c <= max_size (etype d i) /\ get_size (etype d i) c 0 = Ok (zlen c)
  end.
(** bytes of the container that an update of the variable sized element [i],
    located from [a] on, leaves alone *)
Definition not_var (d : dti) (o n i : Z) (x : Z) : Prop :=
  ~ (o <= x < o + vs d) /\ ~ (o + so d n i <= x < o + so d n i + vs d).

Lemma cv_var_facts d m o s es i e : container d -> cv d m o s es -> 0 <= i -> nth_error es (Z.to_nat i) = Some e ->
  is_variable_sized_ (etype d i) = true -> at_end d m o s es i e ->
  let a := s - clen (etype d i) e in
  FS d (zlen es) <= a /\ a <= s /\ (forall j cj, 0 <= j -> j <> i -> nth_error es (Z.to_nat j) = Some (CBytes cj) -> is_variable_sized_ (etype d j) = true ->
     FS d (zlen es) <= slot d (zlen es) m o j /\ slot d (zlen es) m o j + zlen cj <= a).
Proof.
  intros CT V I En Vi AE a. pose proof (cv_bounds d m o s es CT V) as B.
  pose proof (cv_el _ _ _ _ _ V i e I En) as (_ & A). unfold at_end in AE.
  assert (FA : FS d (zlen es) <= a <= s).
  { unfold a, clen. rewrite Vi. destruct e as [|z|c]; [lia|lia|]. destruct A as (_ & A & _). destruct (A Vi) as (A1 & A2 & A3 & A4 & _). pose proof (zlen_nonneg c). lia. }
  split; [lia|]. split; [lia|]. intros j cj J N Ej Vj.
  pose proof (cv_el _ _ _ _ _ V j _ J Ej) as (_ & _ & Aj & _). destruct (Aj Vj) as (A1 & A2 & A3 & A4 & _).
  split; [exact A1|]. unfold a, clen. rewrite Vi. destruct e as [|z|c]; [lia|lia|].
  pose proof (cv_dis _ _ _ _ _ V i j c cj I J (not_eq_sym N) En Ej Vi Vj). lia.
Qed.

Lemma cv_set_var d m o s es m' s' i e e' : container d -> cv d m o s es -> 0 <= i -> nth_error es (Z.to_nat i) = Some e ->
  is_variable_sized_ (etype d i) = true -> at_end d m o s es i e ->
  let a := s - clen (etype d i) e in
  zlen m' = zlen m -> o + s' <= zlen m' -> s' <= max_size d ->
  s' = a + clen (etype d i) e' ->
  dec (slice m' o (vs d)) = s' mod 256 ^ vs d ->
  (forall x, o <= x < o + a -> not_var d o (zlen es) i x -> bat m' x = bat m x) ->
  var_ok d m' o a (zlen es) i e' ->
  cv d m' o s' (lset es (Z.to_nat i) e').
Proof.
  intros CT V I En Vi AE a Lm Hl HM Hs' Hsz Hx Hv.
  pose proof (znth_some _ _ _ En) as IL. assert (I' : 0 <= i < zlen es) by lia.
  pose proof (cv_bounds d m o s es CT V) as B. pose proof CT as [W C].
  pose proof (cv_o _ _ _ _ _ V) as Ho. pose proof (cv_s _ _ _ _ _ V) as Hs.
  destruct (cv_var_facts d m o s es i e CT V I En Vi AE) as (FA & AS & CH). fold a in FA, AS, CH.
  pose proof (cv_etype_wf d m o s es i CT V I') as Wt. destruct (eslot_var (max_size d) _ Wt Vi) as (Bt & Es & Nv & Nl).
  pose proof (slot_in d m o s es i CT V I') as SI. rewrite Es in SI.
  destruct (elements_var d i (zlen es) CT (cv_n _ _ _ _ _ V) I' Vi) as [HS VD].
  pose proof (pbo_range d) as (P1 & P2 & P3 & P4 & P5 & P6). specialize (P4 HS). pose proof (vs_range d) as VS.
  assert (Q : forall x k, o + vs d <= x -> 0 <= k -> x + k <= o + a ->
     (x + k <= o + so d (zlen es) i \/ o + so d (zlen es) i + vs d <= x) -> slice m' x k = slice m x k).
  { intros x k H1 H2 H3 H4. apply bat_ext; try lia. intros y Hy. apply Hx; [lia|]. unfold not_var. lia. }
  apply (cv_update d m o s es CT V m' s' i e e' I En).
  - exact Hl.
  - intro VC. specialize (P3 VC). apply Q; lia.
  - auto.
  - intro; exact HM.
  - lia.
  - split; [congruence|]. unfold var_ok, clen in *. rewrite Vi in *. destruct e' as [|z|c'].
    + split; [exact Nl|]. auto.
    + destruct Hv.
    + destruct Hv as (S1 & S2 & S3 & S4). split; [exact Bt|]. split; [|congruence]. intros _. rewrite S1. repeat split; try lia; auto.
  - intros j k J N K. pose proof (bit_in_bitmap d m o s es j k CT V J K) as [Q1 Q2].
    unfold bitat. rewrite Hx; [reflexivity|lia|]. unfold not_var. lia.
  - intros j J N. pose proof (slot_in d m o s es j CT V J). pose proof (eslot_nonneg d m o s es j CT V J).
    pose proof (slots_apart d m o s es i j CT V I' J (not_eq_sym N)). rewrite Es in *. apply Q; lia.
  - intros j cj J N Ej Vj. destruct (CH j cj J N Ej Vj) as [C1 C2]. pose proof (zlen_nonneg cj).
    pose proof (clen_nonneg (etype d i) e').
    pose proof (cv_el _ _ _ _ _ V j _ J Ej) as (_ & _ & Aj & _). destruct (Aj Vj) as (A1 & A2 & A3 & A4 & _).
    split; [lia|]. split.
    + rewrite <- A3 at 2. apply Q; lia.
    + intros c' -> _. unfold var_ok in Hv. right. lia.
Qed.
