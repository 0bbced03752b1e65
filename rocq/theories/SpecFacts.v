(** * Facts about the list operations of Spec.v *)
From Coq Require Import ZifyBool ZifyNat ZifyN Zify Permutation.
From Verif Require Import BytesFacts.
From Verif Require Export Spec.
Ltac Zify.zify_post_hook ::= Z.div_mod_to_equations.

Section L.
Context {A : Type}.
Implicit Types l : list A.

Lemma zlen_insert_at i x l : 0 <= i <= zlen l -> zlen (insert_at i x l) = zlen l + 1.
Proof. unfold insert_at, zlen. intro. rewrite app_length. cbn [length]. rewrite firstn_length, skipn_length. lia. Qed.
Lemma zlen_replace_at i x l : 0 <= i < zlen l -> zlen (replace_at i x l) = zlen l.
Proof. unfold replace_at, zlen. intro. rewrite app_length. cbn [length]. rewrite firstn_length, skipn_length. lia. Qed.
Lemma zlen_remove_at i l : 0 <= i < zlen l -> zlen (remove_at i l) = zlen l - 1.
Proof. unfold remove_at, zlen. intro. rewrite app_length. rewrite firstn_length, skipn_length. lia. Qed.

Lemma nth_firstn_lt l n k d : (k < n)%nat -> nth k (firstn n l) d = nth k l d.
Proof.
  revert l k. induction n as [|n IH]; intros l k H; [lia|].
  destruct l as [|a l]; [destruct k; reflexivity|]. destruct k; [reflexivity|]. cbn. apply IH. lia.
Qed.
Lemma nth_skipn_add l n k d : nth k (skipn n l) d = nth (n + k) l d.
Proof.
  revert l. induction n as [|n IH]; intro l; [reflexivity|]. destruct l; [destruct k; reflexivity|]. apply IH.
Qed.

Lemma nth_insert_at i x l d j : 0 <= i <= zlen l -> 0 <= j ->
  nth (Z.to_nat j) (insert_at i x l) d =
  if j <? i then nth (Z.to_nat j) l d else if j =? i then x else nth (Z.to_nat (j - 1)) l d.
Proof.
  unfold insert_at, zlen. intros Hi Hj. assert (L : length (firstn (Z.to_nat i) l) = Z.to_nat i) by (rewrite firstn_length; lia).
  destruct (Z.ltb_spec j i).
  - rewrite app_nth1 by lia. apply nth_firstn_lt. lia.
  - rewrite app_nth2 by lia. rewrite L. destruct (Z.eqb_spec j i) as [->|].
    + rewrite Nat.sub_diag. reflexivity.
    + replace (Z.to_nat j - Z.to_nat i)%nat with (S (Z.to_nat (j - 1) - Z.to_nat i)) by lia. cbn [nth].
      rewrite nth_skipn_add. f_equal. lia.
Qed.
Lemma nth_replace_at i x l d j : 0 <= i < zlen l -> 0 <= j ->
  nth (Z.to_nat j) (replace_at i x l) d = if j =? i then x else nth (Z.to_nat j) l d.
Proof.
  unfold replace_at, zlen. intros Hi Hj. assert (L : length (firstn (Z.to_nat i) l) = Z.to_nat i) by (rewrite firstn_length; lia).
  destruct (Z.ltb_spec j i).
  - rewrite app_nth1 by lia. destruct (Z.eqb_spec j i); [lia|]. apply nth_firstn_lt. lia.
  - rewrite app_nth2 by lia. rewrite L. destruct (Z.eqb_spec j i) as [->|].
    + rewrite Nat.sub_diag. reflexivity.
    + replace (Z.to_nat j - Z.to_nat i)%nat with (S (Z.to_nat (j - 1) - Z.to_nat i)) by lia. cbn [nth].
      rewrite nth_skipn_add. f_equal. lia.
Qed.
Lemma nth_remove_at i l d j : 0 <= i < zlen l -> 0 <= j ->
  nth (Z.to_nat j) (remove_at i l) d = if j <? i then nth (Z.to_nat j) l d else nth (Z.to_nat (j + 1)) l d.
Proof.
  unfold remove_at, zlen. intros Hi Hj. assert (L : length (firstn (Z.to_nat i) l) = Z.to_nat i) by (rewrite firstn_length; lia).
  destruct (Z.ltb_spec j i).
  - rewrite app_nth1 by lia. apply nth_firstn_lt. lia.
  - rewrite app_nth2 by lia. rewrite L, nth_skipn_add. f_equal. lia.
Qed.

Lemma nth_error_nth_z l i d : 0 <= i < zlen l -> nth_error l (Z.to_nat i) = Some (nth (Z.to_nat i) l d).
Proof. intro. apply nth_error_nth'. unfold zlen in *. lia. Qed.

Lemma swap_at_nth i j l d : 0 <= i < zlen l -> 0 <= j < zlen l ->
  swap_at i j l = replace_at i (nth (Z.to_nat j) l d) (replace_at j (nth (Z.to_nat i) l d) l).
Proof. intros. unfold swap_at. rewrite !(nth_error_nth_z _ _ d) by lia. reflexivity. Qed.
Lemma zlen_swap_at i j l : 0 <= i < zlen l -> 0 <= j < zlen l -> zlen (swap_at i j l) = zlen l.
Proof.
  intros. destruct l as [|d l0] eqn:E; [rewrite zlen_nil in *; lia|]. rewrite (swap_at_nth i j _ d) by lia.
  rewrite !zlen_replace_at; rewrite ?zlen_replace_at; lia.
Qed.
Lemma nth_swap_at i j l d k : 0 <= i < zlen l -> 0 <= j < zlen l -> 0 <= k ->
  nth (Z.to_nat k) (swap_at i j l) d =
  if k =? i then nth (Z.to_nat j) l d else if k =? j then nth (Z.to_nat i) l d else nth (Z.to_nat k) l d.
Proof.
  intros. rewrite (swap_at_nth i j _ d) by lia. rewrite !nth_replace_at; rewrite ?zlen_replace_at; try lia. reflexivity.
Qed.

Lemma list_ext_z l1 l2 d : zlen l1 = zlen l2 ->
  (forall j, 0 <= j < zlen l1 -> nth (Z.to_nat j) l1 d = nth (Z.to_nat j) l2 d) -> l1 = l2.
Proof.
  intros HL H. apply nth_ext with (d := d) (d' := d); [unfold zlen in *; lia|].
  intros n Hn. specialize (H (Z.of_nat n) ltac:(unfold zlen; lia)). rewrite Nat2Z.id in H. exact H.
Qed.
Lemma replace_at_split i l d : 0 <= i < zlen l ->
  l = firstn (Z.to_nat i) l ++ nth (Z.to_nat i) l d :: skipn (S (Z.to_nat i)) l.
Proof.
  unfold zlen. intro H. rewrite <- (firstn_skipn (Z.to_nat i) l) at 1. f_equal.
  assert (H' : (Z.to_nat i < length l)%nat) by lia. clear H. revert H'. generalize (Z.to_nat i). clear.
  intro n. revert l. induction n as [|n IH]; intros l H; destruct l; cbn in *; try lia; [reflexivity|]. apply IH. lia.
Qed.
End L.

(** tomb stones *)
Definition t1 (x : option (list byte)) : Z := if is_tomb_stone x then 1 else 0.
Lemma ts_nil : tomb_stones [] = 0. Proof. reflexivity. Qed.
Lemma ts_cons x c : tomb_stones (x :: c) = t1 x + tomb_stones c.
Proof. unfold tomb_stones, t1. cbn [filter]. destruct (is_tomb_stone x); rewrite ?zlen_cons; lia. Qed.
Lemma ts_app a b : tomb_stones (a ++ b) = tomb_stones a + tomb_stones b.
Proof. induction a as [|x a IH]; cbn [app]; rewrite ?ts_nil, ?ts_cons; lia. Qed.
Lemma ts_range c : 0 <= tomb_stones c <= zlen c.
Proof. induction c as [|x c IH]; rewrite ?ts_nil, ?ts_cons, ?zlen_cons; unfold t1; [unfold zlen; cbn; lia|]. destruct (is_tomb_stone x); lia. Qed.
Lemma ts_insert i x c : tomb_stones (insert_at i x c) = tomb_stones c + t1 x.
Proof.
  unfold insert_at. rewrite ts_app, ts_cons. rewrite <- (firstn_skipn (Z.to_nat i) c) at 3. rewrite ts_app. lia.
Qed.
Lemma ts_replace i x c : 0 <= i < zlen c ->
  tomb_stones (replace_at i x c) = tomb_stones c - t1 (nth (Z.to_nat i) c None) + t1 x.
Proof.
  intro H. rewrite (replace_at_split i c None H) at 2. unfold replace_at. rewrite !ts_app, !ts_cons. lia.
Qed.
Lemma ts_remove i c : 0 <= i < zlen c ->
  tomb_stones (remove_at i c) = tomb_stones c - t1 (nth (Z.to_nat i) c None).
Proof.
  intro H. rewrite (replace_at_split i c None H) at 2. unfold remove_at. rewrite !ts_app, !ts_cons. lia.
Qed.
Lemma ts_swap i j c : 0 <= i < zlen c -> 0 <= j < zlen c -> tomb_stones (swap_at i j c) = tomb_stones c.
Proof.
  intros Hi Hj. rewrite (swap_at_nth i j c None) by lia.
  rewrite !ts_replace by (rewrite ?zlen_replace_at; lia). rewrite nth_replace_at by lia.
  destruct (Z.eqb_spec i j) as [->|]; lia.
Qed.
Lemma ts_pos i c : 0 <= i < zlen c -> nth (Z.to_nat i) c None = None -> 1 <= tomb_stones c.
Proof.
  intros H E. pose proof (ts_remove i c H) as R. rewrite E in R. unfold t1 in R. cbn in R.
  pose proof (ts_range (remove_at i c)). lia.
Qed.
