(** * Facts about bytes and memory *)
From Coq Require Import ZifyBool ZifyNat ZifyN Zify.
From Coq Require Import Strings.Byte.
From Verif Require Export Bytes PageUtil.
Ltac Zify.zify_post_hook ::= Z.div_mod_to_equations.

(** ** bytes *)
Lemma b2z_range b : 0 <= b2z b < 256.
Proof. unfold b2z. pose proof (Byte.to_N_bounded b). lia. Qed.

Lemma b2z_z2b z : b2z (z2b z) = z mod 256.
Proof.
  unfold z2b, b2z.
  destruct (Byte.of_N (Z.to_N (z mod 256))) as [b|] eqn:E.
  - apply Byte.to_of_N in E. rewrite E. lia.
  - apply Byte.of_N_None_iff in E. lia.
Qed.

Lemma z2b_b2z b : z2b (b2z b) = b.
Proof.
  unfold z2b. pose proof (b2z_range b) as R. rewrite Z.mod_small by lia.
  unfold b2z. rewrite N2Z.id. rewrite Byte.of_to_N. reflexivity.
Qed.

Lemma b2z_inj a b : b2z a = b2z b -> a = b.
Proof. intro H. rewrite <- (z2b_b2z a), <- (z2b_b2z b), H. reflexivity. Qed.

Lemma z2b_mod z : z2b (z mod 256) = z2b z.
Proof. apply b2z_inj. rewrite !b2z_z2b. lia. Qed.

(** ** zlen *)
Lemma zlen_nonneg {A} (l : list A) : 0 <= zlen l.
Proof. unfold zlen; lia. Qed.
Lemma zlen_nil (A : Type) : zlen (@nil A) = 0.
Proof. reflexivity. Qed.
Lemma zlen_cons {A} (a : A) l : zlen (a :: l) = 1 + zlen l.
Proof. unfold zlen; cbn [length]; lia. Qed.
Lemma zlen_app {A} (l1 l2 : list A) : zlen (l1 ++ l2) = zlen l1 + zlen l2.
Proof. unfold zlen; rewrite app_length; lia. Qed.
Lemma zlen_repeat {A} (a : A) n : zlen (repeat a n) = Z.of_nat n.
Proof. unfold zlen; rewrite repeat_length; lia. Qed.
Lemma zlen_rev {A} (l : list A) : zlen (rev l) = zlen l.
Proof. unfold zlen; rewrite rev_length; lia. Qed.
Lemma zlen_map {A B} (f : A -> B) l : zlen (map f l) = zlen l.
Proof. unfold zlen; rewrite map_length; lia. Qed.
Lemma zlen_zero {A} (l : list A) : zlen l = 0 -> l = [].
Proof. destruct l; [reflexivity|rewrite zlen_cons; pose proof (zlen_nonneg l); lia]. Qed.

Lemma u32_id z : 0 <= z < 4294967296 -> u32 z = z.
Proof. intros; unfold u32; lia. Qed.
Lemma u64_id z : 0 <= z < 18446744073709551616 -> u64 z = z.
Proof. intros; unfold u64; lia. Qed.
Lemma u32_range z : 0 <= u32 z < 4294967296.
Proof. unfold u32; lia. Qed.

(** ** enc / dec *)
Lemma enc_length n v : length (enc n v) = n.
Proof. revert v; induction n as [|n IH]; intro v; cbn; [reflexivity|rewrite IH; reflexivity]. Qed.
Lemma zlen_enc n v : zlen (enc n v) = Z.of_nat n.
Proof. unfold zlen; rewrite enc_length; reflexivity. Qed.

Lemma dec_range l : 0 <= dec l < 256 ^ zlen l.
Proof.
  induction l as [|b l IH]; [cbn; lia|].
  rewrite zlen_cons, Z.pow_add_r by (pose proof (zlen_nonneg l); lia).
  cbn [dec]. pose proof (b2z_range b). change (256 ^ 1) with 256. nia.
Qed.

Lemma dec_enc n v : dec (enc n v) = v mod 256 ^ Z.of_nat n.
Proof.
  revert v; induction n as [|n IH]; intro v.
  - cbn. rewrite Z.mod_1_r. reflexivity.
  - cbn [enc dec]. rewrite b2z_z2b, IH.
    replace (Z.of_nat (S n)) with (1 + Z.of_nat n) by lia.
    rewrite Z.pow_add_r by lia. change (256 ^ 1) with 256.
    assert (0 < 256 ^ Z.of_nat n) by (apply Z.pow_pos_nonneg; lia).
    rewrite Z.rem_mul_r by lia. lia.
Qed.

Lemma dec_enc_id n v : 0 <= v < 256 ^ Z.of_nat n -> dec (enc n v) = v.
Proof. intro H. rewrite dec_enc. apply Z.mod_small; lia. Qed.

Lemma enc_dec l : enc (length l) (dec l) = l.
Proof.
  induction l as [|b l IH]; [reflexivity|].
  cbn [length enc dec]. pose proof (b2z_range b).
  f_equal.
  - rewrite <- z2b_mod. replace ((b2z b + 256 * dec l) mod 256) with (b2z b) by lia. apply z2b_b2z.
  - replace ((b2z b + 256 * dec l) / 256) with (dec l) by lia. exact IH.
Qed.

Lemma dec_inj l1 l2 : length l1 = length l2 -> dec l1 = dec l2 -> l1 = l2.
Proof. intros HL H. rewrite <- (enc_dec l1), <- (enc_dec l2), HL, H. reflexivity. Qed.

Lemma enc_mod n v : enc n (v mod 256 ^ Z.of_nat n) = enc n v.
Proof.
  apply dec_inj; [rewrite !enc_length; reflexivity|].
  rewrite !dec_enc. apply Z.mod_mod.
  assert (0 < 256 ^ Z.of_nat n) by (apply Z.pow_pos_nonneg; lia). lia.
Qed.

Lemma dec_repeat_0 n : dec (repeat Byte.x00 n) = 0.
Proof. induction n as [|n IH]; [reflexivity|]. cbn [repeat dec]. rewrite IH. reflexivity. Qed.

(** ** pointwise view *)
Definition bat (m : mem) (k : Z) : byte := nth (Z.to_nat k) m Byte.x00.

Lemma skipn_skipn {A} a b (l : list A) : skipn a (skipn b l) = skipn (a + b) l.
Proof.
  revert l; induction b as [|b IH]; intro l; [rewrite Nat.add_0_r; reflexivity|].
  destruct l as [|x l]; [rewrite !skipn_nil; reflexivity|].
  rewrite Nat.add_succ_r. cbn [skipn]. apply IH.
Qed.

Lemma nth_repeat_lt {A} (a d : A) n k : (k < n)%nat -> nth k (repeat a n) d = a.
Proof.
  revert k; induction n as [|n IH]; intros k Hk; [lia|].
  destruct k; [reflexivity|]. cbn [repeat nth]. apply IH; lia.
Qed.

Section Slices.
Context {A : Type}.
Implicit Types m bs : list A.

Lemma zlen_slice m o n : 0 <= o -> 0 <= n -> o + n <= zlen m -> zlen (slice m o n) = n.
Proof. unfold zlen, slice; intros. rewrite firstn_length, skipn_length. lia. Qed.

Lemma zlen_upd m o bs : 0 <= o -> o + zlen bs <= zlen m -> zlen (upd m o bs) = zlen m.
Proof.
  unfold zlen, upd; intros. rewrite !app_length, firstn_length, skipn_length. unfold zlen; lia.
Qed.

Lemma nth_slice m o n k d : 0 <= o -> 0 <= k < n ->
  nth (Z.to_nat k) (slice m o n) d = nth (Z.to_nat (o + k)) m d.
Proof.
  intros Ho Hk. unfold slice.
  replace (Z.to_nat (o + k)) with (Z.to_nat o + Z.to_nat k)%nat by lia.
  assert (Hn: (Z.to_nat k < Z.to_nat n)%nat) by lia.
  generalize (Z.to_nat k) (Z.to_nat n) (Z.to_nat o) Hn. clear.
  intros k n o Hn. revert m; induction o as [|o IH]; intro m.
  - cbn [skipn Nat.add]. revert k n Hn; induction m as [|a m IHm]; intros k n Hn.
    + rewrite firstn_nil. destruct k; reflexivity.
    + destruct n; [lia|]. cbn [firstn]. destruct k; [reflexivity|]. cbn [nth]. apply IHm; lia.
  - destruct m as [|a m]; cbn [skipn Nat.add nth].
    + rewrite firstn_nil. destruct k; reflexivity.
    + apply IH.
Qed.

Lemma nth_upd m o bs k d : 0 <= o -> o + zlen bs <= zlen m -> 0 <= k ->
  nth (Z.to_nat k) (upd m o bs) d =
  if (o <=? k) && (k <? o + zlen bs) then nth (Z.to_nat (k - o)) bs d else nth (Z.to_nat k) m d.
Proof.
  intros Ho Hb Hk. unfold upd, zlen in *.
  assert (Lf : length (firstn (Z.to_nat o) m) = Z.to_nat o) by (rewrite firstn_length; lia).
  destruct (Z.leb_spec o k) as [H1|H1]; cbn [andb].
  - rewrite app_nth2 by lia. rewrite Lf.
    replace (Z.to_nat k - Z.to_nat o)%nat with (Z.to_nat (k - o)) by lia.
    destruct (Z.ltb_spec k (o + Z.of_nat (length bs))) as [H2|H2].
    + apply app_nth1. lia.
    + rewrite app_nth2 by lia.
      rewrite <- (firstn_skipn (Z.to_nat (o + Z.of_nat (length bs))) m) at 2.
      rewrite app_nth2; rewrite firstn_length; [|lia].
      f_equal. lia.
  - rewrite app_nth1 by lia.
    rewrite <- (firstn_skipn (Z.to_nat o) m) at 2. rewrite app_nth1 by lia. reflexivity.
Qed.

Lemma list_eq_nth m1 m2 :
  zlen m1 = zlen m2 ->
  (forall d k, 0 <= k < zlen m1 -> nth (Z.to_nat k) m1 d = nth (Z.to_nat k) m2 d) -> m1 = m2.
Proof.
  intros HL H. unfold zlen in *.
  destruct m1 as [|d m1']; [destruct m2; [reflexivity|cbn in HL; lia]|].
  apply nth_ext with (d := d) (d' := d); [lia|].
  intros n Hn. specialize (H d (Z.of_nat n)). rewrite Nat2Z.id in H. apply H. lia.
Qed.

Lemma slice_upd_same m o bs : 0 <= o -> o + zlen bs <= zlen m ->
  slice (upd m o bs) o (zlen bs) = bs.
Proof.
  intros Ho Hb. apply list_eq_nth.
  - apply zlen_slice; [lia|apply zlen_nonneg|]. rewrite zlen_upd; lia.
  - intros d k Hk. rewrite zlen_slice in Hk; [|lia|apply zlen_nonneg|rewrite zlen_upd; lia].
    rewrite nth_slice by lia. rewrite nth_upd by lia.
    destruct (Z.leb_spec o (o + k)); [|lia]. destruct (Z.ltb_spec (o + k) (o + zlen bs)); [|lia].
    cbn [andb]. f_equal. lia.
Qed.

Lemma slice_upd_same' m o bs n : 0 <= o -> o + zlen bs <= zlen m -> n = zlen bs ->
  slice (upd m o bs) o n = bs.
Proof. intros; subst n; apply slice_upd_same; assumption. Qed.

Lemma slice_upd_dis m o bs a n : 0 <= o -> o + zlen bs <= zlen m ->
  0 <= a -> 0 <= n -> a + n <= zlen m -> (a + n <= o \/ o + zlen bs <= a) ->
  slice (upd m o bs) a n = slice m a n.
Proof.
  intros Ho Hb Ha Hn Hl Hd. apply list_eq_nth.
  - rewrite !zlen_slice; rewrite ?zlen_upd; lia.
  - intros d k Hk. rewrite zlen_slice in Hk; rewrite ?zlen_upd; try lia.
    rewrite !nth_slice by lia. rewrite nth_upd by lia.
    destruct (Z.leb_spec o (a + k)); destruct (Z.ltb_spec (a + k) (o + zlen bs)); cbn [andb]; try reflexivity; lia.
Qed.

Lemma slice_upd_in m o bs a n : 0 <= o -> o + zlen bs <= zlen m ->
  o <= a -> 0 <= n -> a + n <= o + zlen bs ->
  slice (upd m o bs) a n = slice bs (a - o) n.
Proof.
  intros Ho Hb Ha Hn Hl. apply list_eq_nth.
  - rewrite !zlen_slice; rewrite ?zlen_upd; lia.
  - intros d k Hk. rewrite zlen_slice in Hk; rewrite ?zlen_upd; try lia.
    rewrite !nth_slice by lia. rewrite nth_upd by lia.
    destruct (Z.leb_spec o (a + k)); destruct (Z.ltb_spec (a + k) (o + zlen bs)); cbn [andb]; try lia.
    f_equal. lia.
Qed.

Lemma slice_slice m o n a k : 0 <= o -> 0 <= a -> 0 <= k -> a + k <= n ->
  slice (slice m o n) a k = slice m (o + a) k.
Proof.
  intros Ho Ha Hk Hl. unfold slice.
  rewrite skipn_firstn_comm. rewrite firstn_firstn. rewrite skipn_skipn.
  f_equal; [lia|]. f_equal. lia.
Qed.

Lemma slice_split m o a b : 0 <= o -> 0 <= a -> 0 <= b ->
  slice m o (a + b) = slice m o a ++ slice m (o + a) b.
Proof.
  intros Ho Ha Hb. unfold slice.
  replace (Z.to_nat (o + a)) with (Z.to_nat a + Z.to_nat o)%nat by lia.
  rewrite <- skipn_skipn. generalize (skipn (Z.to_nat o) m). intro l.
  replace (Z.to_nat (a + b)) with (Z.to_nat a + Z.to_nat b)%nat by lia.
  generalize (Z.to_nat a) (Z.to_nat b). clear. intros a b. revert l.
  induction a as [|a IH]; intro l; [reflexivity|].
  destruct l as [|x l]; [rewrite skipn_nil, !firstn_nil; reflexivity|].
  cbn [Nat.add firstn skipn app]. f_equal. apply IH.
Qed.

Lemma slice_all m n : n = zlen m -> slice m 0 n = m.
Proof. intros ->. unfold slice, zlen. rewrite Nat2Z.id. cbn. apply firstn_all. Qed.

Lemma slice_0 m o : slice m o 0 = [].
Proof. reflexivity. Qed.

Lemma slice_app_l m1 m2 o n : 0 <= o -> 0 <= n -> o + n <= zlen m1 -> slice (m1 ++ m2) o n = slice m1 o n.
Proof.
  intros Ho Hn Hl. unfold slice, zlen in *. rewrite skipn_app, firstn_app, skipn_length.
  replace (Z.to_nat n - (length m1 - Z.to_nat o))%nat with 0%nat by lia.
  cbn [firstn]. apply app_nil_r.
Qed.

Lemma slice_app_r m1 m2 o n : zlen m1 <= o -> slice (m1 ++ m2) o n = slice m2 (o - zlen m1) n.
Proof.
  intros Ho. unfold slice, zlen in *. rewrite skipn_app.
  rewrite skipn_all2 by lia. cbn [app].
  replace (Z.to_nat (o - Z.of_nat (length m1))) with (Z.to_nat o - length m1)%nat by lia. reflexivity.
Qed.

Lemma slice_ext m1 m2 o n :
  0 <= o -> 0 <= n -> o + n <= zlen m1 -> o + n <= zlen m2 ->
  (forall d k, o <= k < o + n -> nth (Z.to_nat k) m1 d = nth (Z.to_nat k) m2 d) ->
  slice m1 o n = slice m2 o n.
Proof.
  intros Ho Hn H1 H2 H. apply list_eq_nth; rewrite !zlen_slice; try lia.
  intros d k Hk. rewrite !nth_slice by lia. apply H. lia.
Qed.

Lemma slice_repeat (a : A) k o n : 0 <= o -> 0 <= n -> o + n <= Z.of_nat k ->
  slice (repeat a k) o n = repeat a (Z.to_nat n).
Proof.
  intros. apply list_eq_nth; rewrite zlen_slice; try lia; rewrite ?zlen_repeat; try lia.
  intros d j Hj. rewrite nth_slice by lia. rewrite !nth_repeat_lt by lia. reflexivity.
Qed.

Lemma upd_split m o bs : 0 <= o -> o + zlen bs <= zlen m ->
  upd m o bs = slice m 0 o ++ bs ++ slice m (o + zlen bs) (zlen m - (o + zlen bs)).
Proof.
  intros. unfold upd, slice. cbn [Z.to_nat skipn]. f_equal. f_equal.
  rewrite firstn_all2; [reflexivity|]. rewrite skipn_length. unfold zlen in *. lia.
Qed.

Lemma upd_slice_id m o n : 0 <= o -> 0 <= n -> o + n <= zlen m -> upd m o (slice m o n) = m.
Proof.
  intros. apply list_eq_nth.
  - rewrite zlen_upd; rewrite ?zlen_slice; lia.
  - intros d k Hk. rewrite zlen_upd in Hk; rewrite ?zlen_slice; try lia.
    rewrite nth_upd; rewrite ?zlen_slice; try lia.
    destruct (Z.leb_spec o k); destruct (Z.ltb_spec k (o + n)); cbn [andb]; try reflexivity.
    rewrite nth_slice by lia. f_equal. lia.
Qed.

Lemma upd_upd_same m o b1 b2 : 0 <= o -> o + zlen b1 <= zlen m -> zlen b1 = zlen b2 ->
  upd (upd m o b1) o b2 = upd m o b2.
Proof.
  intros. apply list_eq_nth.
  - rewrite !zlen_upd; rewrite ?zlen_upd; lia.
  - intros d k Hk. rewrite !zlen_upd in Hk; rewrite ?zlen_upd; try lia.
    rewrite !nth_upd; rewrite ?zlen_upd; try lia. replace (zlen b1) with (zlen b2) by lia.
    destruct ((o <=? k) && (k <? o + zlen b2)); reflexivity.
Qed.

End Slices.

(** ** loads and stores *)
Lemma rd_ok m o n : 0 <= o -> 0 <= n -> o + n <= zlen m -> rd m o n = Ok (slice m o n).
Proof. intros. unfold rd. replace ((0 <=? o) && (0 <=? n) && (o + n <=? zlen m)) with true by lia. reflexivity. Qed.
Lemma wr_ok m o bs : 0 <= o -> o + zlen bs <= zlen m -> wr m o bs = Ok (upd m o bs).
Proof. intros. unfold wr. replace ((0 <=? o) && (o + zlen bs <=? zlen m)) with true by lia. reflexivity. Qed.
Lemma rd_inv m o n bs : rd m o n = Ok bs -> 0 <= o /\ 0 <= n /\ o + n <= zlen m /\ bs = slice m o n.
Proof.
  unfold rd. destruct ((0 <=? o) && (0 <=? n) && (o + n <=? zlen m)) eqn:E; [|discriminate].
  intro H; inversion H; subst. repeat split; lia.
Qed.
Lemma wr_inv m o bs m' : wr m o bs = Ok m' -> 0 <= o /\ o + zlen bs <= zlen m /\ m' = upd m o bs.
Proof.
  unfold wr. destruct ((0 <=? o) && (o + zlen bs <=? zlen m)) eqn:E; [|discriminate].
  intro H; inversion H; subst. repeat split; lia.
Qed.

Lemma bind_ok {A B} (x : res A) (f : A -> res B) a : x = Ok a -> bind x f = f a.
Proof. intros ->; reflexivity. Qed.
Lemma bind_inv {A B} (x : res A) (f : A -> res B) b :
  bind x f = Ok b -> exists a, x = Ok a /\ f a = Ok b.
Proof. destruct x as [a|]; cbn; [intro H; exists a; auto|discriminate]. Qed.

Lemma memset_ok m o b n : 0 <= o -> 0 <= n -> o + n <= zlen m ->
  memset m o b n = Ok (upd m o (repeat b (Z.to_nat n))).
Proof.
  intros. unfold memset. destruct (Z.leb_spec 0 n); [|lia]. apply wr_ok; rewrite ?zlen_repeat; lia.
Qed.
Lemma memmove_ok m d s n : 0 <= d -> 0 <= s -> 0 <= n -> d + n <= zlen m -> s + n <= zlen m ->
  memmove m d s n = Ok (upd m d (slice m s n)).
Proof. intros. unfold memmove. rewrite rd_ok by lia. cbn [bind]. apply wr_ok; rewrite ?zlen_slice; lia. Qed.
Lemma memcopy_ok m d m2 s n : 0 <= d -> 0 <= s -> 0 <= n -> d + n <= zlen m -> s + n <= zlen m2 ->
  memcopy m d m2 s n = Ok (upd m d (slice m2 s n)).
Proof. intros. unfold memcopy. rewrite rd_ok by lia. cbn [bind]. apply wr_ok; rewrite ?zlen_slice; lia. Qed.

(** ** bits *)
Definition bitat (m : mem) (o i : Z) : bool := Z.testbit (b2z (bat m (o + i / 8))) (i mod 8).

Lemma slice_1 (m : mem) k : 0 <= k -> k + 1 <= zlen m -> slice m k 1 = [bat m k].
Proof.
  intros Hk Hl. apply list_eq_nth; rewrite zlen_slice; try lia.
  - reflexivity.
  - intros d j Hj. rewrite nth_slice by lia. replace j with 0 by lia. cbn [Z.to_nat nth].
    unfold bat. replace (k + 0) with k by lia. apply nth_indep. unfold zlen in *; lia.
Qed.

Lemma get_bit_ok m o i : 0 <= o -> 0 <= i -> o + i / 8 < zlen m -> get_bit m o i = Ok (bitat m o i).
Proof.
  intros. unfold get_bit. rewrite rd_ok by lia. cbn [bind]. rewrite slice_1 by lia.
  unfold bitat. cbn [dec]. do 2 f_equal. lia.
Qed.

Definition put_bit_val (m : mem) (o i : Z) (b : bool) : mem :=
  upd m (o + i / 8)
     [z2b (if b then Z.setbit (b2z (bat m (o + i / 8))) (i mod 8)
           else Z.clearbit (b2z (bat m (o + i / 8))) (i mod 8))].

Lemma put_bit_ok m o i b : 0 <= o -> 0 <= i -> o + i / 8 < zlen m ->
  put_bit m o i b = Ok (put_bit_val m o i b).
Proof.
  intros. unfold put_bit. rewrite rd_ok by lia. cbn [bind]. rewrite slice_1 by lia.
  rewrite wr_ok by (rewrite ?zlen_cons, ?zlen_nil; lia).
  unfold put_bit_val. cbn [dec]. rewrite Z.mul_0_r, Z.add_0_r. reflexivity.
Qed.

Lemma zlen_put_bit m o i b : 0 <= o -> 0 <= i -> o + i / 8 < zlen m -> zlen (put_bit_val m o i b) = zlen m.
Proof. intros. apply zlen_upd; rewrite ?zlen_cons, ?zlen_nil; lia. Qed.

Lemma bat_upd m o bs k : 0 <= o -> o + zlen bs <= zlen m -> 0 <= k ->
  bat (upd m o bs) k = if (o <=? k) && (k <? o + zlen bs) then bat bs (k - o) else bat m k.
Proof. intros. unfold bat. apply nth_upd; assumption. Qed.

Lemma bat_slice m o n k : 0 <= o -> 0 <= k < n -> bat (slice m o n) k = bat m (o + k).
Proof. intros. unfold bat. apply nth_slice; assumption. Qed.

Lemma testbit_small_high z k : 0 <= z < 256 -> 8 <= k -> Z.testbit z k = false.
Proof.
  intros Hz Hk. destruct (Z.eq_dec z 0) as [->|Hn]; [apply Z.bits_0|].
  apply Z.bits_above_log2; [lia|].
  apply Z.lt_le_trans with 8; [|lia]. apply Z.log2_lt_pow2; [lia|]. change (2 ^ 8) with 256. lia.
Qed.

Lemma testbit_high_small z : 0 <= z -> (forall k, 8 <= k -> Z.testbit z k = false) -> z < 256.
Proof.
  intros Hz H. destruct (Z_lt_le_dec z 256) as [?|Hge]; [assumption|].
  assert (8 <= Z.log2 z) by (change 8 with (Z.log2 256); apply Z.log2_le_mono; lia).
  specialize (H (Z.log2 z) ltac:(lia)). rewrite Z.bit_log2 in H by lia. discriminate.
Qed.

Lemma b2z_put v i b : 0 <= v < 256 -> 0 <= i < 8 ->
  0 <= (if b : bool then Z.setbit v i else Z.clearbit v i) < 256.
Proof.
  intros Hv Hi.
  assert (Hnn : 0 <= (if b then Z.setbit v i else Z.clearbit v i)).
  { destruct b.
    - rewrite Z.setbit_spec'. apply Z.lor_nonneg. lia.
    - rewrite Z.clearbit_spec'. apply Z.ldiff_nonneg. lia. }
  split; [exact Hnn|]. apply testbit_high_small; [exact Hnn|].
  intros k Hk. destruct b.
  - rewrite Z.setbit_neq by lia. apply testbit_small_high; lia.
  - rewrite Z.clearbit_neq by lia. apply testbit_small_high; lia.
Qed.

Lemma bitat_put m o i b j : 0 <= o -> 0 <= i -> 0 <= j -> o + i / 8 < zlen m ->
  bitat (put_bit_val m o i b) o j = if j =? i then b else bitat m o j.
Proof.
  intros Ho Hi Hj Hl. unfold bitat, put_bit_val.
  rewrite bat_upd by (rewrite ?zlen_cons, ?zlen_nil; lia).
  rewrite zlen_cons, zlen_nil.
  destruct ((o + i / 8 <=? o + j / 8) && (o + j / 8 <? o + i / 8 + (1 + 0))) eqn:E.
  - assert (E' : j / 8 = i / 8) by lia. rewrite E'. replace (o + i / 8 - (o + i / 8)) with 0 by lia.
    unfold bat at 1. cbn [Z.to_nat nth]. rewrite b2z_z2b.
    set (v := b2z (bat m (o + i / 8))). pose proof (b2z_range (bat m (o + i / 8))) as R. fold v in R.
    pose proof (b2z_put v (i mod 8) b R ltac:(lia)) as P.
    rewrite Z.mod_small by exact P.
    destruct (Z.eqb_spec j i) as [->|Hne].
    + destruct b; [apply Z.setbit_eq; lia|apply Z.clearbit_eq].
    + assert (j mod 8 <> i mod 8) by lia. destruct b; [apply Z.setbit_neq; lia|apply Z.clearbit_neq; lia].
  - destruct (Z.eqb_spec j i) as [->|Hne]; [lia|reflexivity].
Qed.

Lemma bitat_upd_dis m o i a bs : 0 <= o -> 0 <= i -> 0 <= a -> a + zlen bs <= zlen m ->
  (o + i / 8 < a \/ a + zlen bs <= o + i / 8) -> bitat (upd m a bs) o i = bitat m o i.
Proof.
  intros. unfold bitat. rewrite bat_upd by lia.
  replace ((a <=? o + i / 8) && (o + i / 8 <? a + zlen bs)) with false by lia. reflexivity.
Qed.

Lemma slice_put_bit_dis m o i b a n : 0 <= o -> 0 <= i -> o + i / 8 < zlen m ->
  0 <= a -> 0 <= n -> a + n <= zlen m -> (a + n <= o + i / 8 \/ o + i / 8 < a) ->
  slice (put_bit_val m o i b) a n = slice m a n.
Proof. intros. apply slice_upd_dis; rewrite ?zlen_cons, ?zlen_nil; lia. Qed.

Lemma bitmap_bytes_bound n i : 0 <= i < n -> i / 8 < bitmap_size_in_bytes n.
Proof. unfold bitmap_size_in_bytes; lia. Qed.
Lemma zlen_snoc {A} (l : list A) x : zlen (l ++ [x]) = zlen l + 1.
Proof. rewrite zlen_app. reflexivity. Qed.
Lemma zlen_1 {A} (x : A) : zlen [x] = 1.
Proof. reflexivity. Qed.

(** ** value_size *)
Lemma value_size_range ps : 1 <= value_size ps <= 4.
Proof. unfold value_size. destruct (ps <=? 16777216) eqn:?, (ps <=? 65536) eqn:?, (ps <=? 256) eqn:?; lia. Qed.

Lemma value_size_enough ps : ps <= 4294967296 -> ps <= 256 ^ value_size ps.
Proof.
  unfold value_size. intro H.
  destruct (ps <=? 16777216) eqn:?, (ps <=? 65536) eqn:?, (ps <=? 256) eqn:?; cbn; lia.
Qed.
