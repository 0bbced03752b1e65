(** * Facts about unchanged bytes and about ranges of bits *)
From Verif Require Export BytesFacts.
From Coq Require Import ZifyBool ZifyNat ZifyN Zify.
Ltac Zify.zify_post_hook ::= Z.div_mod_to_equations.

(** bytes satisfying [P] are the same in both buffers *)
Definition keep (P : Z -> Prop) (m m' : mem) : Prop :=
  zlen m' = zlen m /\ forall x, 0 <= x < zlen m -> P x -> bat m' x = bat m x.

Lemma keep_refl P m : keep P m m.
Proof. split; reflexivity. Qed.
Lemma keep_sym (P : Z -> Prop) m m' : keep P m m' -> keep P m' m.
Proof. intros [L A]. split; [lia|]. intros x X p. symmetry. apply A; [lia|exact p]. Qed.
Lemma keep_trans (P : Z -> Prop) m1 m2 m3 : keep P m1 m2 -> keep P m2 m3 -> keep P m1 m3.
Proof. intros [L1 A1] [L2 A2]. split; [lia|]. intros x X p. rewrite A2, A1; auto; lia. Qed.
Lemma keep_weaken (P Q : Z -> Prop) m m' : keep P m m' -> (forall x, 0 <= x < zlen m -> Q x -> P x) -> keep Q m m'.
Proof. intros [L A] I. split; [exact L|]. intros x X q. apply A; auto. Qed.
Lemma keep_trans' (P1 P2 Q : Z -> Prop) m1 m2 m3 : keep P1 m1 m2 -> keep P2 m2 m3 ->
  (forall x, Q x -> P1 x /\ P2 x) -> keep Q m1 m3.
Proof.
  intros K1 K2 I. apply (keep_trans Q m1 m2 m3).
  - apply (keep_weaken P1); [exact K1|]. intros x _ q. apply I. exact q.
  - apply (keep_weaken P2); [exact K2|]. intros x _ q. apply I. exact q.
Qed.
Lemma keep_len P m m' : keep P m m' -> zlen m' = zlen m.
Proof. intros [L _]. exact L. Qed.

Lemma bat_ext m o n m' o' : 0 <= o -> 0 <= o' -> 0 <= n -> o + n <= zlen m -> o' + n <= zlen m' ->
  (forall k, 0 <= k < n -> bat m (o + k) = bat m' (o' + k)) -> slice m o n = slice m' o' n.
Proof.
  intros H1 H2 H3 H4 H5 A. apply list_eq_nth; rewrite !zlen_slice by lia; [reflexivity|].
  intros d k Hk.
  rewrite (nth_indep (slice m o n) d Byte.x00) by (pose proof (zlen_slice m o n H1 H3 H4); unfold zlen in *; lia).
  rewrite (nth_indep (slice m' o' n) d Byte.x00) by (pose proof (zlen_slice m' o' n H2 H3 H5); unfold zlen in *; lia).
  change (bat (slice m o n) k = bat (slice m' o' n) k).
  rewrite !bat_slice by lia. apply A. lia.
Qed.
Lemma slice_bat m o n m' o' k : 0 <= o -> 0 <= o' -> slice m o n = slice m' o' n -> 0 <= k < n ->
  bat m (o + k) = bat m' (o' + k).
Proof. intros H1 H2 E Hk. rewrite <- (bat_slice m o n k), <- (bat_slice m' o' n k), E by lia. reflexivity. Qed.

Lemma keep_slice (P : Z -> Prop) m m' a n : keep P m m' -> 0 <= a -> 0 <= n -> a + n <= zlen m ->
  (forall x, a <= x < a + n -> P x) -> slice m' a n = slice m a n.
Proof.
  intros [L A] H1 H2 H3 I. apply bat_ext; try lia. intros k Hk. apply A; [lia|]. apply I. lia.
Qed.
Lemma keep_bitat (P : Z -> Prop) m m' o i : keep P m m' -> 0 <= o -> 0 <= i -> o + i / 8 < zlen m ->
  P (o + i / 8) -> bitat m' o i = bitat m o i.
Proof. intros [L A] H1 H2 H3 I. unfold bitat. rewrite A; [reflexivity|lia|exact I]. Qed.
Lemma keep_upd m a bs : 0 <= a -> a + zlen bs <= zlen m -> keep (fun x => x < a \/ a + zlen bs <= x) m (upd m a bs).
Proof.
  intros H1 H2. split; [apply zlen_upd; lia|]. intros x X D. rewrite bat_upd by lia.
  replace ((a <=? x) && (x <? a + zlen bs)) with false by lia. reflexivity.
Qed.
Lemma keep_upd' (P : Z -> Prop) m a bs n : 0 <= a -> zlen bs = n -> a + n <= zlen m ->
  (forall x, P x -> x < a \/ a + n <= x) -> keep P m (upd m a bs).
Proof.
  intros H1 H2 H3 I. apply (keep_weaken _ _ _ _ (keep_upd m a bs H1 ltac:(lia))).
  intros x _ p. rewrite H2. apply I. exact p.
Qed.
Lemma keep_put m o i b : 0 <= o -> 0 <= i -> o + i / 8 < zlen m ->
  keep (fun x => x <> o + i / 8) m (put_bit_val m o i b).
Proof.
  intros. unfold put_bit_val. apply (keep_upd' _ _ _ _ 1); try lia; try reflexivity; intros; lia.
Qed.

(** ** ranges of bits *)
Fixpoint bits_val (m : mem) (o i : Z) (n : nat) : Z :=
  match n with O => 0 | S n' => (if bitat m o i then 1 else 0) + 2 * bits_val m o (i + 1) n' end.

Lemma get_bits_from_ok m o n : forall i, 0 <= o -> 0 <= i -> (n = O \/ o + (i + Z.of_nat n - 1) / 8 < zlen m) ->
  get_bits_from m o i n = Ok (bits_val m o i n).
Proof.
  induction n as [|n IH]; intros i Ho Hi Hb; [reflexivity|]. cbn [get_bits_from bits_val].
  rewrite get_bit_ok by lia. cbn [bind]. rewrite IH by lia. reflexivity.
Qed.
Lemma get_bits_ok m o f l : 0 <= o -> 0 <= f -> f <= l -> l - f < 64 -> o + l / 8 < zlen m ->
  get_bits m o f l = Ok (bits_val m o f (Z.to_nat (l - f + 1))).
Proof.
  intros. unfold get_bits. replace ((f <=? l) && (l - f <? 64)) with true by lia.
  apply get_bits_from_ok; lia.
Qed.
Lemma bits_val_range m o n : forall i, 0 <= bits_val m o i n < 2 ^ Z.of_nat n.
Proof.
  induction n as [|n IH]; intros i; cbn [bits_val]; [cbn; lia|].
  specialize (IH (i + 1)). rewrite Nat2Z.inj_succ, Z.pow_succ_r by lia. destruct (bitat m o i); lia.
Qed.
Lemma bits_val_testbit m o n : forall i k, 0 <= k < Z.of_nat n -> Z.testbit (bits_val m o i n) k = bitat m o (i + k).
Proof.
  induction n as [|n IH]; intros i k Hk; [lia|]. cbn [bits_val].
  rewrite Z.add_comm. 
  replace (2 * bits_val m o (i + 1) n + (if bitat m o i then 1 else 0)) with (2 * bits_val m o (i + 1) n + Z.b2z (bitat m o i)) by (destruct (bitat m o i); reflexivity).
  destruct (Z.eq_dec k 0) as [->|Hn].
  - rewrite Z.testbit_0_r, Z.add_0_r. reflexivity.
  - replace k with (Z.succ (k - 1)) at 1 by lia. rewrite Z.testbit_succ_r by lia. rewrite IH by lia. f_equal. lia.
Qed.
Lemma testbit_high v n k : 0 <= v < 2 ^ n -> 0 <= n <= k -> Z.testbit v k = false.
Proof.
  intros Hv Hk. destruct (Z.eq_dec v 0) as [->|Hn]; [apply Z.bits_0|].
  apply Z.bits_above_log2; [lia|]. apply Z.log2_lt_pow2; [lia|].
  apply Z.lt_le_trans with (2 ^ n); [lia|]. apply Z.pow_le_mono_r; lia.
Qed.
Lemma bits_eq v w n : 0 <= n -> 0 <= v < 2 ^ n -> 0 <= w < 2 ^ n ->
  (forall k, 0 <= k < n -> Z.testbit v k = Z.testbit w k) -> v = w.
Proof.
  intros Hn Hv Hw A. apply Z.bits_inj'. intros k Hk.
  destruct (Z_lt_le_dec k n); [apply A; lia|]. rewrite !(testbit_high _ n k); auto; lia.
Qed.

Lemma set_bits_from_ok o n : forall m i v, 0 <= o -> 0 <= i -> (n = O \/ o + (i + Z.of_nat n - 1) / 8 < zlen m) ->
  exists m', set_bits_from m o i n v = Ok m'
  /\ keep (fun x => x < o + i / 8 \/ o + (i + Z.of_nat n - 1) / 8 < x) m m'
  /\ (forall j, 0 <= j -> bitat m' o j = if (i <=? j) && (j <? i + Z.of_nat n) then Z.testbit v (j - i) else bitat m o j).
Proof.
  induction n as [|n IH]; intros m i v Ho Hi Hb.
  - exists m. cbn. split; [reflexivity|]. split; [apply keep_refl|]. intros j Hj.
    replace ((i <=? j) && (j <? i + 0)) with false by lia. reflexivity.
  - cbn [set_bits_from]. rewrite put_bit_ok by lia. cbn [bind].
    set (m1 := put_bit_val m o i (Z.odd v)).
    assert (L1 : zlen m1 = zlen m) by (apply zlen_put_bit; lia).
    destruct (IH m1 (i + 1) (v / 2) Ho ltac:(lia) ltac:(lia)) as (m' & E & K & B).
    exists m'. split; [exact E|]. split.
    { assert (K0 : keep (fun x => x <> o + i / 8) m m1) by (apply keep_put; lia); eapply keep_trans'; [exact K0 | exact K |]. cbn beta. intros x X. replace (i + Z.of_nat (S n) - 1) with (i + 1 + Z.of_nat n - 1) in X by lia. split; lia. }
    intros j Hj. rewrite B by lia. unfold m1. rewrite bitat_put by lia.
    destruct (j =? i) eqn:Eji.
    + replace ((i + 1 <=? j) && (j <? i + 1 + Z.of_nat n)) with false by lia.
      replace ((i <=? j) && (j <? i + Z.of_nat (S n))) with true by lia.
      replace (j - i) with 0 by lia. symmetry. rewrite Z.bit0_odd. reflexivity.
    + destruct ((i + 1 <=? j) && (j <? i + 1 + Z.of_nat n)) eqn:Er.
      * replace ((i <=? j) && (j <? i + Z.of_nat (S n))) with true by lia.
        replace (j - i) with (Z.succ (j - (i + 1))) by lia. apply Z.div2_bits. lia.
      * replace ((i <=? j) && (j <? i + Z.of_nat (S n))) with false by lia. reflexivity.
Qed.
Lemma set_bits_ok m o f l v : 0 <= o -> 0 <= f -> f <= l -> l - f < 64 -> o + l / 8 < zlen m ->
  exists m', set_bits m o f l v = Ok m'
  /\ keep (fun x => x < o + f / 8 \/ o + l / 8 < x) m m'
  /\ (forall j, 0 <= j -> bitat m' o j = if (f <=? j) && (j <=? l) then Z.testbit v (j - f) else bitat m o j).
Proof.
  intros. unfold set_bits. replace ((f <=? l) && (l - f <? 64)) with true by lia.
  destruct (set_bits_from_ok o (Z.to_nat (l - f + 1)) m f v) as (m' & E & K & B); try lia.
  exists m'. split; [exact E|]. split.
  - eapply keep_weaken; [exact K|]. cbn beta. intros x _ X. rewrite Z2Nat.id by lia. replace (f + (l - f + 1) - 1) with l by lia. exact X.
  - intros j Hj. rewrite B by lia. rewrite Z2Nat.id by lia.
    replace (j <? f + (l - f + 1)) with (j <=? l) by lia. reflexivity.
Qed.
