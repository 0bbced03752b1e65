(** * C45: the hash function that comes with the library *)
From Coq Require Import String.
From Verif Require Import BytesFacts Hash.
From Coq Require Import ZifyBool ZifyNat ZifyN Zify.
Ltac Zify.zify_post_hook ::= idtac.
Open Scope list_scope.
Open Scope Z_scope.

Definition hash64 (h : Z) : Prop := 0 <= h < 2 ^ 64.
(** the prime of the 64 bit FNV hashes, and the offset that FNV_64_TUPLE_HASHER
    (inc/tuplestore/tuple_hasher.h:23) starts with *)
Definition fnv_prime : Z := 2 ^ 40 + 2 ^ 8 + 179.
Definition fnv_offset : Z := 14695981039346656037.

Lemma u64_hash x : hash64 (u64 x).
Proof. unfold hash64, u64. apply Z.mod_pos_bound. reflexivity. Qed.
Lemma lxor_hash a b : hash64 a -> hash64 b -> hash64 (Z.lxor a b).
Proof.
  intros [A1 A2] [B1 B2]. split; [apply Z.lxor_nonneg; split; auto|].
  destruct (Z.eq_dec (Z.lxor a b) 0) as [->|N]; [reflexivity|]. assert (0 <= Z.lxor a b) by (apply Z.lxor_nonneg; split; auto).
  apply Z.log2_lt_pow2; [lia|]. pose proof (Z.log2_lxor a b A1 B1) as L.
  assert (forall x, 0 <= x < 2 ^ 64 -> Z.log2 x < 64) as K. { intros x [X1 X2]. destruct (Z.eq_dec x 0) as [->|]; [reflexivity|]. apply Z.log2_lt_pow2; lia. }
  pose proof (K a (conj A1 A2)). pose proof (K b (conj B1 B2)). lia.
Qed.
Lemma byte_hash b : hash64 (b2z b).
Proof. pose proof (b2z_range b). unfold hash64. assert (256 < 2 ^ 64) by reflexivity. lia. Qed.
(** one byte is hashed as FNV-1 prescribes: the state is multiplied by the prime
    modulo 2^64, then the byte is xored into the lowest eight bits *)
Theorem C45_fnv_is_fnv1 h b : hash64 h -> let u := fnv_64_update h b in let p := (h * fnv_prime) mod 2 ^ 64 in
  hash64 u /\ u / 256 = p / 256 /\ u mod 256 = Z.lxor (p mod 256) (Z.of_N (Byte.to_N b)).
Proof.
  intros H u p. assert (E : u = Z.lxor p (b2z b)) by reflexivity. pose proof (b2z_range b) as B.
  split; [rewrite E; apply lxor_hash; [apply Z.mod_pos_bound; reflexivity|apply byte_hash]|].
  rewrite E. change 256 with (2 ^ 8) in *. split.
  - rewrite <- !Z.shiftr_div_pow2 by lia. rewrite Z.shiftr_lxor. replace (Z.shiftr (b2z b) 8) with 0 by (rewrite Z.shiftr_div_pow2 by lia; symmetry; apply Z.div_small; lia). apply Z.lxor_0_r.
  - rewrite <- !Z.land_ones by lia. apply Z.bits_inj'. intros k K. rewrite !Z.land_spec, !Z.lxor_spec, Z.land_spec. change (Z.of_N (Byte.to_N b)) with (b2z b).
    destruct (Z_lt_le_dec k 8) as [L|L].
    + rewrite Z.ones_spec_low by lia. rewrite !andb_true_r. reflexivity.
    + rewrite Z.ones_spec_high by lia. rewrite !andb_false_r, xorb_false_l. destruct (Z.eq_dec (b2z b) 0) as [->|N]; [rewrite Z.bits_0; reflexivity|].
      symmetry. apply Z.bits_above_log2; [lia|]. apply Z.lt_le_trans with 8; [|exact L]. apply Z.log2_lt_pow2; lia.
Qed.
Print Assumptions C45_fnv_is_fnv1.

Lemma prime_inj h1 h2 : hash64 h1 -> hash64 h2 -> u64 (h1 * 1099511628211) = u64 (h2 * 1099511628211) -> h1 = h2.
Proof.
  intros [A B] [C D] E. unfold u64 in E.
  assert (K : forall h, 0 <= h < 2 ^ 64 -> ((h * 1099511628211) mod 2 ^ 64 * 14886173955864302971) mod 2 ^ 64 = h).
  { intros h H. rewrite Z.mul_mod_idemp_l by discriminate. rewrite <- Z.mul_assoc. replace (1099511628211 * 14886173955864302971) with (1 + 887285111055 * 2 ^ 64) by reflexivity.
    rewrite Z.mul_add_distr_l, Z.mul_1_r, Z.mul_assoc, Z.mod_add by discriminate. apply Z.mod_small, H. }
  pose proof (K h1 (conj A B)) as K1. pose proof (K h2 (conj C D)) as K2. rewrite <- K1, <- K2. f_equal. f_equal. exact E.
Qed.
Lemma lxor_cancel a b c : Z.lxor a c = Z.lxor b c -> a = b.
Proof. intro E. assert (X : Z.lxor (Z.lxor a c) c = Z.lxor (Z.lxor b c) c) by (rewrite E; reflexivity). rewrite !Z.lxor_assoc, Z.lxor_nilpotent, !Z.lxor_0_r in X. exact X. Qed.
Lemma b2z_same b1 b2 : b2z b1 = b2z b2 -> b1 = b2.
Proof. intro E. apply (f_equal z2b) in E. rewrite !z2b_b2z in E. exact E. Qed.
Lemma update_hash h b : hash64 (fnv_64_update h b).
Proof. apply lxor_hash; [apply u64_hash|apply byte_hash]. Qed.
Lemma fold_hash bs h : hash64 h -> hash64 (fold_left fnv_64_update bs h).
Proof. revert h. induction bs as [|b bs IH]; intros h H; [exact H|]. apply IH, update_hash. Qed.
Lemma fold_inj bs h1 h2 : hash64 h1 -> hash64 h2 -> fold_left fnv_64_update bs h1 = fold_left fnv_64_update bs h2 -> h1 = h2.
Proof.
  revert h1 h2. induction bs as [|b bs IH]; intros h1 h2 H1 H2 E; [exact E|]. cbn [fold_left] in E.
  apply IH in E; [|apply update_hash|apply update_hash]. apply lxor_cancel in E. apply (prime_inj h1 h2 H1 H2 E).
Qed.
(** no byte is lost, however many bytes follow: from different states the same
    bytes lead to different states, and strings of bytes that differ in one
    place only have different hashes *)
Theorem C45_fnv_loses_nothing bs h1 h2 : hash64 h1 -> hash64 h2 ->
  (fold_left fnv_64_update bs h1 = fold_left fnv_64_update bs h2 <-> h1 = h2).
Proof. intros H1 H2. split; [apply fold_inj; assumption|intros ->; reflexivity]. Qed.
Print Assumptions C45_fnv_loses_nothing.
Theorem C45_fnv_one_byte bs1 bs2 b1 b2 h : hash64 h ->
  (fold_left fnv_64_update (bs1 ++ b1 :: bs2) h = fold_left fnv_64_update (bs1 ++ b2 :: bs2) h <-> b1 = b2).
Proof.
  intro H. split; [|intros ->; reflexivity]. rewrite !fold_left_app. cbn [fold_left]. intro E.
  apply fold_inj in E; [|apply update_hash|apply update_hash]. unfold fnv_64_update in E. rewrite !(Z.lxor_comm (u64 _)) in E. apply lxor_cancel in E. apply b2z_same, E.
Qed.
Print Assumptions C45_fnv_one_byte.
(** a published test vector of FNV-1: "foobar" from the usual offset *)
Example ex_fnv : hash64 fnv_offset /\ fold_left fnv_64_update (list_byte_of_string "foobar") fnv_offset = 3750802935296928194.
Proof. split; [split; [discriminate|reflexivity]|vm_compute; reflexivity]. Qed.
