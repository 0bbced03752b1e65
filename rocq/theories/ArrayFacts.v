(** * Containers with a variable number of elements: bit and list shifting *)
From Verif Require Export ContainerSet.
From Coq Require Import ZifyBool ZifyNat ZifyN Zify.
Ltac Zify.zify_post_hook ::= Z.div_mod_to_equations.

(** rewrite the first operation of a sequence, up to conversion *)
Ltac step E := match type of E with ?l = _ => match goal with |- context[bind ?l' _] => change l' with l end end; rewrite E; cbn [bind].

(** ** lists *)
Definition ins {A} (l : list A) (i k : Z) (x : A) : list A :=
  firstn (Z.to_nat i) l ++ repeat x (Z.to_nat k) ++ skipn (Z.to_nat i) l.
Definition del {A} (l : list A) (i k : Z) : list A :=
  firstn (Z.to_nat i) l ++ skipn (Z.to_nat (i + k)) l.

Lemma zlen_skipn {A} (l : list A) k : 0 <= k <= zlen l -> zlen (skipn (Z.to_nat k) l) = zlen l - k.
Proof. intro. unfold zlen in *. rewrite skipn_length. lia. Qed.
Lemma zlen_ins {A} (l : list A) i k x : 0 <= i <= zlen l -> 0 <= k -> zlen (ins l i k x) = zlen l + k.
Proof. intros. unfold ins. rewrite !zlen_app, zlen_repeat, zlen_skipn by lia. unfold zlen in *. rewrite firstn_length. lia. Qed.
Lemma zlen_del {A} (l : list A) i k : 0 <= i -> 0 <= k -> i + k <= zlen l -> zlen (del l i k) = zlen l - k.
Proof. intros. unfold del. rewrite !zlen_app, zlen_skipn by lia. unfold zlen in *. rewrite firstn_length. lia. Qed.
Lemma nth_error_skipn {A} (l : list A) k i : nth_error (skipn k l) i = nth_error l (k + i).
Proof. revert l. induction k as [|k IH]; intros [|x l]; cbn; auto. - destruct i; reflexivity. Qed.
Lemma nth_error_firstn {A} (l : list A) k i : (i < k)%nat -> nth_error (firstn k l) i = nth_error l i.
Proof. revert l i. induction k as [|k IH]; intros [|x l] [|i] H; cbn; auto; try lia. apply IH. lia. Qed.
Lemma nth_error_repeat {A} (x : A) k i : (i < k)%nat -> nth_error (repeat x k) i = Some x.
Proof. revert i. induction k as [|k IH]; intros [|i] H; cbn; auto; try lia. apply IH. lia. Qed.

Lemma nth_ins {A} (l : list A) i k x j : 0 <= i <= zlen l -> 0 <= k -> 0 <= j ->
  nth_error (ins l i k x) (Z.to_nat j) =
  if j <? i then nth_error l (Z.to_nat j) else if j <? i + k then Some x else nth_error l (Z.to_nat (j - k)).
Proof.
  intros I K J. unfold ins. unfold zlen in I.
  destruct (j <? i) eqn:C1.
  - rewrite nth_error_app1 by (rewrite firstn_length; lia). apply nth_error_firstn. lia.
  - rewrite nth_error_app2 by (rewrite firstn_length; lia). rewrite firstn_length.
    replace (Nat.min (Z.to_nat i) (length l)) with (Z.to_nat i) by lia. destruct (j <? i + k) eqn:C2.
    + rewrite nth_error_app1 by (rewrite repeat_length; lia). apply nth_error_repeat. lia.
    + rewrite nth_error_app2 by (rewrite repeat_length; lia). rewrite repeat_length, nth_error_skipn. f_equal. lia.
Qed.
Lemma nth_del {A} (l : list A) i k j : 0 <= i <= zlen l -> 0 <= k -> 0 <= j ->
  nth_error (del l i k) (Z.to_nat j) = if j <? i then nth_error l (Z.to_nat j) else nth_error l (Z.to_nat (j + k)).
Proof.
  intros I K J. unfold del. unfold zlen in I. destruct (j <? i) eqn:C1.
  - rewrite nth_error_app1 by (rewrite firstn_length; lia). apply nth_error_firstn. lia.
  - rewrite nth_error_app2 by (rewrite firstn_length; lia). rewrite firstn_length, nth_error_skipn. f_equal. lia.
Qed.

(** ** bit groups *)
Definition off_bitmap (b bytes x : Z) : Prop := x < b \/ b + bytes <= x.

Lemma move_bits m b f t k bits : 0 <= b -> 0 <= f -> 0 <= t -> 1 <= k <= 64 -> f + k <= bits -> t + k <= bits -> b + bitmap_size_in_bytes bits <= zlen m ->
  exists m', (let* v := get_bits m b f (f + k - 1) in set_bits m b t (t + k - 1) v) = Ok m'
  /\ keep (off_bitmap b (bitmap_size_in_bytes bits)) m m'
  /\ forall j, 0 <= j -> bitat m' b j = if (t <=? j) && (j <? t + k) then bitat m b (j - t + f) else bitat m b j.
Proof.
  intros B F T K Fb Tb R. unfold bitmap_size_in_bytes in R. rewrite get_bits_ok by lia. cbn [bind].
  destruct (set_bits_ok m b t (t + k - 1) (bits_val m b f (Z.to_nat (f + k - 1 - f + 1))) B T ltac:(lia) ltac:(lia) ltac:(lia)) as (m' & E & KP & BT).
  exists m'. split; [exact E|]. split.
  - eapply keep_weaken; [exact KP|]. unfold off_bitmap, bitmap_size_in_bytes. cbn beta. intros; lia.
  - intros j J. rewrite BT by exact J. replace (j <=? t + k - 1) with (j <? t + k) by lia.
    destruct ((t <=? j) && (j <? t + k)) eqn:C; [|reflexivity]. rewrite bits_val_testbit by lia. f_equal. lia.
Qed.
Lemma clear_bits m b t k bits : 0 <= b -> 0 <= t -> 1 <= k <= 64 -> t + k <= bits -> b + bitmap_size_in_bytes bits <= zlen m ->
  exists m', set_bits m b t (t + k - 1) 0 = Ok m'
  /\ keep (off_bitmap b (bitmap_size_in_bytes bits)) m m'
  /\ forall j, 0 <= j -> bitat m' b j = if (t <=? j) && (j <? t + k) then false else bitat m b j.
Proof.
  intros B T K Tb R. unfold bitmap_size_in_bytes in R.
  destruct (set_bits_ok m b t (t + k - 1) 0 B T ltac:(lia) ltac:(lia) ltac:(lia)) as (m' & E & KP & BT).
  exists m'. split; [exact E|]. split.
  - eapply keep_weaken; [exact KP|]. unfold off_bitmap, bitmap_size_in_bytes. cbn beta. intros; lia.
  - intros j J. rewrite BT by exact J. replace (j <=? t + k - 1) with (j <? t + k) by lia. rewrite Z.bits_0. reflexivity.
Qed.
Lemma clear_bit m b t bits : 0 <= b -> 0 <= t < bits -> b + bitmap_size_in_bytes bits <= zlen m ->
  exists m', reset_bit m b t = Ok m'
  /\ keep (off_bitmap b (bitmap_size_in_bytes bits)) m m'
  /\ forall j, 0 <= j -> bitat m' b j = if (t <=? j) && (j <? t + 1) then false else bitat m b j.
Proof.
  intros B T R. unfold bitmap_size_in_bytes in R. unfold reset_bit. rewrite put_bit_ok by lia. eexists. split; [reflexivity|]. split.
  - eapply keep_weaken; [apply keep_put; lia|]. unfold off_bitmap, bitmap_size_in_bytes. cbn beta. intros; lia.
  - intros j J. rewrite bitat_put by lia. destruct (j =? t) eqn:C; replace ((t <=? j) && (j <? t + 1)) with (j =? t) by lia; rewrite C; reflexivity.
Qed.
Lemma zero_unused_ok m b bits : 0 <= b -> 0 <= bits -> b + bitmap_size_in_bytes bits <= zlen m ->
  exists m', zero_unused_bits m b bits = Ok m'
  /\ keep (off_bitmap b (bitmap_size_in_bytes bits)) m m'
  /\ forall j, 0 <= j < bits -> bitat m' b j = bitat m b j.
Proof.
  intros B T R. unfold zero_unused_bits, bitmap_size_in_bytes in *. destruct (bits <? (bits + 7) / 8 * 8) eqn:C.
  - destruct (set_bits_ok m b bits ((bits + 7) / 8 * 8 - 1) 0 B T ltac:(lia) ltac:(lia) ltac:(lia)) as (m' & E & KP & BT).
    exists m'. split; [exact E|]. split.
    + eapply keep_weaken; [exact KP|]. unfold off_bitmap. cbn beta. intros; lia.
    + intros j J. rewrite BT by lia. replace (bits <=? j) with false by lia. reflexivity.
  - exists m. split; [reflexivity|]. split; [apply keep_refl|reflexivity].
Qed.

Section Loops.
  Variables (b k n new_n index slots : Z).
  Hypothesis Hb : 0 <= b.
  Hypothesis Hk : 1 <= k <= 64.

  (** moving the groups [index .. n-1] up by [slots] *)
  Lemma groups_up (body : Z -> mem -> res mem) m bits : 0 <= index <= n -> 0 <= slots -> new_n = n + slots -> bits = new_n * k ->
    b + bitmap_size_in_bytes bits <= zlen m ->
    (forall j x, 0 <= j < n - index -> body j x =
       let* v := get_bits x b ((n - 1 - j) * k) ((n - 1 - j) * k + k - 1) in set_bits x b ((new_n - 1 - j) * k) ((new_n - 1 - j) * k + k - 1) v) ->
    exists m', for_loop (Z.to_nat (n - index)) 0 body m = Ok m'
      /\ keep (off_bitmap b (bitmap_size_in_bytes bits)) m m'
      /\ forall x, 0 <= x -> bitat m' b x = if ((index + slots) * k <=? x) && (x <? new_n * k) then bitat m b (x - slots * k) else bitat m b x.
  Proof.
    intros I S NN Eb R Body. 
    destruct (for_loop_ok body (fun j x => keep (off_bitmap b (bitmap_size_in_bytes bits)) m x
      /\ forall y, 0 <= y -> bitat x b y = if ((new_n - j) * k <=? y) && (y <? new_n * k) then bitat m b (y - slots * k) else bitat m b y) (Z.to_nat (n - index)) 0 m) as (m' & E & KP & BT).
    - split; [apply keep_refl|]. intros y Y. replace (((new_n - 0) * k <=? y) && (y <? new_n * k)) with false by lia. reflexivity.
    - intros j x J [KX BX]. rewrite Body by lia. pose proof (keep_len _ _ _ KX) as LX.
      assert (A0 : 0 <= slots * k) by (apply Z.mul_nonneg_nonneg; lia).
      assert (A1 : 0 <= (n - 1 - j) * k) by (apply Z.mul_nonneg_nonneg; lia).
      assert (A2 : 0 <= j * k) by (apply Z.mul_nonneg_nonneg; lia). subst new_n.
      destruct (move_bits x b ((n - 1 - j) * k) ((n + slots - 1 - j) * k) k bits) as (x' & E' & K' & B'); try lia.
      exists x'. split; [exact E'|]. split; [eapply keep_trans; [exact KX|exact K']|].
      intros y Y. rewrite B' by exact Y.
      destruct (((n + slots - 1 - j) * k <=? y) && (y <? (n + slots - 1 - j) * k + k)) eqn:C.
      + replace (((n + slots - (j + 1)) * k <=? y) && (y <? (n + slots) * k)) with true by lia.
        rewrite BX by lia.
        replace (y - (n + slots - 1 - j) * k + (n - 1 - j) * k) with (y - slots * k) by lia.
        destruct (((n + slots - j) * k <=? y - slots * k) && (y - slots * k <? (n + slots) * k)) eqn:C2; [|reflexivity]. lia.
      + rewrite BX by exact Y. 
        replace (((n + slots - (j + 1)) * k <=? y) && (y <? (n + slots) * k)) with (((n + slots - j) * k <=? y) && (y <? (n + slots) * k)) by lia. reflexivity.
    - exists m'. split; [exact E|]. split; [exact KP|]. intros x X. rewrite BT by exact X.
      replace (new_n - (0 + Z.of_nat (Z.to_nat (n - index)))) with (index + slots) by lia. reflexivity.
  Qed.

  (** moving the groups from [index + slots] on down by [slots] *)
  Lemma groups_down (body : Z -> mem -> res mem) m bits : 0 <= index -> 0 <= slots -> index + slots <= n -> bits = n * k ->
    b + bitmap_size_in_bytes bits <= zlen m ->
    (forall j x, 0 <= j < n - (index + slots) -> body j x =
       let* v := get_bits x b ((index + slots + j) * k) ((index + slots + j) * k + k - 1) in set_bits x b ((index + j) * k) ((index + j) * k + k - 1) v) ->
    exists m', for_loop (Z.to_nat (n - (index + slots))) 0 body m = Ok m'
      /\ keep (off_bitmap b (bitmap_size_in_bytes bits)) m m'
      /\ forall x, 0 <= x -> bitat m' b x = if (index * k <=? x) && (x <? (n - slots) * k) then bitat m b (x + slots * k) else bitat m b x.
  Proof.
    intros I S NN Eb R Body. 
    destruct (for_loop_ok body (fun j x => keep (off_bitmap b (bitmap_size_in_bytes bits)) m x
      /\ forall y, 0 <= y -> bitat x b y = if (index * k <=? y) && (y <? (index + j) * k) then bitat m b (y + slots * k) else bitat m b y) (Z.to_nat (n - (index + slots))) 0 m) as (m' & E & KP & BT).
    - split; [apply keep_refl|]. intros y Y. replace ((index * k <=? y) && (y <? (index + 0) * k)) with false by lia. reflexivity.
    - intros j x J [KX BX]. rewrite Body by lia. pose proof (keep_len _ _ _ KX) as LX.
      assert (A0 : 0 <= slots * k) by (apply Z.mul_nonneg_nonneg; lia).
      assert (A1 : 0 <= (n - 1 - (index + slots + j)) * k) by (apply Z.mul_nonneg_nonneg; lia).
      assert (A2 : 0 <= j * k) by (apply Z.mul_nonneg_nonneg; lia).
      assert (A3 : 0 <= index * k) by (apply Z.mul_nonneg_nonneg; lia).
      destruct (move_bits x b ((index + slots + j) * k) ((index + j) * k) k bits) as (x' & E' & K' & B'); try lia.
      exists x'. split; [exact E'|]. split; [eapply keep_trans; [exact KX|exact K']|].
      intros y Y. rewrite B' by exact Y.
      destruct (((index + j) * k <=? y) && (y <? (index + j) * k + k)) eqn:C.
      + replace ((index * k <=? y) && (y <? (index + (j + 1)) * k)) with true by lia.
        rewrite BX by lia.
        replace (y - (index + j) * k + (index + slots + j) * k) with (y + slots * k) by lia.
        destruct ((index * k <=? y + slots * k) && (y + slots * k <? (index + j) * k)) eqn:C2; [|reflexivity]. lia.
      + rewrite BX by exact Y. 
        replace ((index * k <=? y) && (y <? (index + (j + 1)) * k)) with ((index * k <=? y) && (y <? (index + j) * k)) by lia. reflexivity.
    - exists m'. split; [exact E|]. split; [exact KP|]. intros x X. rewrite BT by exact X.
      replace (index + (0 + Z.of_nat (Z.to_nat (n - (index + slots))))) with (n - slots) by lia. reflexivity.
  Qed.

  (** clearing the groups [index .. index+slots-1] *)
  Lemma groups_clear (body : Z -> mem -> res mem) m bits : 0 <= index -> 0 <= slots -> (index + slots) * k <= bits ->
    b + bitmap_size_in_bytes bits <= zlen m ->
    (forall j x, 0 <= j < slots -> zlen x = zlen m -> exists x', body j x = Ok x'
       /\ keep (off_bitmap b (bitmap_size_in_bytes bits)) x x'
       /\ forall y, 0 <= y -> bitat x' b y = if ((index + j) * k <=? y) && (y <? (index + j) * k + k) then false else bitat x b y) ->
    exists m', for_loop (Z.to_nat slots) 0 body m = Ok m'
      /\ keep (off_bitmap b (bitmap_size_in_bytes bits)) m m'
      /\ forall x, 0 <= x -> bitat m' b x = if (index * k <=? x) && (x <? (index + slots) * k) then false else bitat m b x.
  Proof.
    intros I S Eb R Body. 
    destruct (for_loop_ok body (fun j x => keep (off_bitmap b (bitmap_size_in_bytes bits)) m x
      /\ forall y, 0 <= y -> bitat x b y = if (index * k <=? y) && (y <? (index + j) * k) then false else bitat m b y) (Z.to_nat slots) 0 m) as (m' & E & KP & BT).
    - split; [apply keep_refl|]. intros y Y. replace ((index * k <=? y) && (y <? (index + 0) * k)) with false by lia. reflexivity.
    - intros j x J [KX BX]. pose proof (keep_len _ _ _ KX) as LX.
      assert (A2 : 0 <= j * k) by (apply Z.mul_nonneg_nonneg; lia).
      destruct (Body j x ltac:(lia) LX) as (x' & E' & K' & B').
      exists x'. split; [exact E'|]. split; [eapply keep_trans; [exact KX|exact K']|].
      intros y Y. rewrite B', BX by exact Y.
      destruct (((index + j) * k <=? y) && (y <? (index + j) * k + k)) eqn:C.
      + replace ((index * k <=? y) && (y <? (index + (j + 1)) * k)) with true by lia. reflexivity.
      + replace ((index * k <=? y) && (y <? (index + (j + 1)) * k)) with ((index * k <=? y) && (y <? (index + j) * k)) by lia. reflexivity.
    - exists m'. split; [exact E|]. split; [exact KP|]. intros x X. rewrite BT by exact X.
      replace (index + (0 + Z.of_nat (Z.to_nat slots))) with (index + slots) by lia. reflexivity.
  Qed.
End Loops.

(** ** arrays *)
Definition vsum (c : dti) (es : list celem) : Z := fold_right (fun e a => clen c e + a) 0 es.
Lemma vsum_app c l r : vsum c (l ++ r) = vsum c l + vsum c r.
Proof. induction l as [|e l IH]; cbn [vsum fold_right app]; [reflexivity|]. fold (vsum c (l ++ r)). fold (vsum c l). rewrite IH. lia. Qed.
Lemma vsum_repeat c x k : clen c x = 0 -> vsum c (repeat x k) = 0.
Proof. intro H. induction k as [|k IH]; cbn [vsum fold_right repeat]; [reflexivity|]. fold (vsum c (repeat x k)). lia. Qed.
Lemma vsum_ins c es i k x : clen c x = 0 -> vsum c (ins es i k x) = vsum c es.
Proof. intro H. unfold ins. rewrite !vsum_app, vsum_repeat by exact H. rewrite <- (firstn_skipn (Z.to_nat i) es) at 3. rewrite vsum_app. lia. Qed.
Lemma vsum_nonneg c es : 0 <= vsum c es.
Proof. induction es as [|e es IH]; cbn; [lia|]. fold (vsum c es). pose proof (clen_nonneg c e). lia. Qed.

Section Array.
  Variables (d : dti).
  Hypothesis CT : container d.
  Hypothesis VC : is_variable_element_count d = true.
  Notation c := (containee d).

  Lemma arr_not_tuple : type d <> TUPLE.
  Proof. intro T. unfold is_variable_element_count in VC. rewrite T in VC. destruct (negb (is_container_type_info d)); [discriminate|]. destruct (negb (is_variable_sized_type_info d)); discriminate. Qed.
  Lemma arr_var : is_variable_sized_ d = true.
  Proof. unfold is_variable_element_count, is_variable_sized_type_info in VC. destruct (negb (is_container_type_info d)); [discriminate|]. destruct (is_variable_sized_ d); [reflexivity|discriminate]. Qed.
  Lemma arr_etype i : etype d i = c.
  Proof. pose proof arr_not_tuple. unfold etype. destruct (type d); congruence. Qed.
  Lemma arr_sb k : sb d k = k * ebits c.
  Proof. pose proof arr_not_tuple. unfold sb. destruct (type d); congruence. Qed.
  Lemma arr_ss k : ss d k = k * eslot (max_size d) c.
  Proof. pose proof arr_not_tuple. unfold ss. destruct (type d); congruence. Qed.
  Lemma arr_wf : wf c.
  Proof. destruct CT as [W C]. apply (wf_containee d W C arr_not_tuple). Qed.
  Lemma arr_count n : 0 <= n < 4294967296 -> count_ok d n.
  Proof. intro. split; [assumption|congruence]. Qed.
  Lemma arr_size_prefix : has_size_in_prefix d = is_variable_sized_ c.
  Proof.
    pose proof arr_not_tuple as NT. pose proof arr_var as Vd. destruct CT as [W C].
    unfold has_size_in_prefix, is_variable_sized_type_info. rewrite C, Vd. cbn [negb].
    destruct (is_container_cases d C) as [T|[_ [T|[T|T]]]]; [congruence| | |rewrite T; reflexivity];
    rewrite (containee_string d W) by auto; rewrite T; reflexivity.
  Qed.
  Lemma arr_vtot es : forall b, vtot d b es = vsum c es.
  Proof. induction es as [|e es IH]; intro b; cbn; [reflexivity|]. fold (vsum c es). rewrite IH, arr_etype. reflexivity. Qed.
  Lemma arr_so n i : so d n i = pbo d + bitmap_size_in_bytes (n * ebits c) + i * eslot (max_size d) c.
  Proof. unfold so. rewrite arr_sb, arr_ss. reflexivity. Qed.
  Lemma arr_FS n : FS d n = pbo d + bitmap_size_in_bytes (n * ebits c) + n * eslot (max_size d) c.
  Proof. apply arr_so. Qed.
  Lemma arr_eslot : is_bit_field c = false -> 1 <= eslot (max_size d) c.
  Proof.
    intro B. unfold eslot. rewrite B. pose proof (size_range_nb c arr_wf B). pose proof (value_size_range (max_size d)).
    destruct (is_variable_sized_ c); lia.
  Qed.

  Lemma cv_arr m o s es : 0 <= o -> o + s <= zlen m -> zlen es < 4294967296 -> narrow d (zlen es) ->
    dec (slice m (o + offset_of_prefix_count d) (vs d)) = zlen es ->
    (is_variable_sized_ c = true -> dec (slice m o (vs d)) = s mod 256 ^ vs d) ->
    s <= max_size d -> s = FS d (zlen es) + vsum c es ->
    (forall i e, 0 <= i -> nth_error es (Z.to_nat i) = Some e -> elem_ok d m o s (zlen es) i e) ->
    (is_variable_sized_ c = true -> forall i j ci cj, 0 <= i -> 0 <= j -> i <> j ->
      nth_error es (Z.to_nat i) = Some (CBytes ci) -> nth_error es (Z.to_nat j) = Some (CBytes cj) ->
      slot d (zlen es) m o i + zlen ci <= slot d (zlen es) m o j \/ slot d (zlen es) m o j + zlen cj <= slot d (zlen es) m o i) ->
    cv d m o s es.
  Proof.
    intros H1 H2 H3 HN H4 H5 H6 H7 H8 H9. apply mk_cv; auto.
    - apply arr_count. pose proof (zlen_nonneg es). lia.
    - rewrite arr_size_prefix. exact H5.
    - rewrite arr_vtot. exact H7.
    - intros i j ci cj I J N Ei Ej Vi _. rewrite arr_etype in Vi. apply H9; auto.
  Qed.

  (** an element of fixed size is determined by its bits and its bytes *)
  Lemma elem_same_fixed m o s n i m' o' s' n' i' e : is_variable_sized_ c = false ->
    elem_ok d m o s n i e ->
    (forall b, 0 <= b < ebits c -> bitat m' (o' + pbo d) (i' * ebits c + b) = bitat m (o + pbo d) (i * ebits c + b)) ->
    slice m' (o' + so d n' i') (eslot (max_size d) c) = slice m (o + so d n i) (eslot (max_size d) c) ->
    elem_ok d m' o' s' n' i' e.
  Proof.
    intros Vc [A1 A2] HB HS. unfold elem_ok in *. rewrite !arr_etype in *. rewrite !arr_sb in *.
    pose proof (ebits_parts _ arr_wf) as (EP1 & EP2 & EP3 & EP4).
    split.
    - intro Nv. specialize (EP4 Nv). specialize (HB 0 ltac:(lia)). rewrite !Z.add_0_r in HB. rewrite HB. auto.
    - destruct e as [|z|cb].
      + destruct A2 as [A2 _]. split; [exact A2|congruence].
      + destruct A2 as (B1 & B2 & B3). split; [exact B1|]. split; [exact B2|]. intros k K. rewrite B1 in EP1.
        rewrite <- Z.add_assoc, HB by lia. rewrite Z.add_assoc. apply B3. exact K.
      + destruct A2 as (B1 & _ & B3). split; [exact B1|]. split; [congruence|]. intros _. rewrite (eslot_fixed _ _ B1 Vc) in HS.
        rewrite HS. apply B3. exact Vc.
  Qed.
End Array.
