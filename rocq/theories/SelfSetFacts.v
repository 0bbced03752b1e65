(** * Proofs about storing a value of a tuple in the same tuple *)
From Verif Require Import CopyProps HashFacts IdentFacts AlikeFacts.
From Verif Require Import SelfSet NestedProps OpFacts.
From Coq Require Import ZifyBool ZifyNat ZifyN Zify.
Ltac Zify.zify_post_hook ::= idtac.
Open Scope list_scope.
Open Scope Z_scope.

(** storing [v] in an element of type [t] reads [v] from [lo] to [hi] of [m] *)
Definition reads_in (t : dti) (v : datum) (m : mem) (lo hi : Z) : Prop :=
  match v with
  | DStr m' so n => m' = m /\ lo <= so /\ 0 <= n /\ so + n <= hi
  | DPtr m' so => m' = m /\ lo <= so /\ exists k, 0 <= k /\ so + k <= hi /\ (is_variable_sized_ t = false -> k = size t)
      /\ forall m1, zlen m1 = zlen m -> slice m1 so k = slice m so k -> get_size t m1 so = Ok k
  | _ => True
  end.
Definition not_pointer (v : datum) : Prop := match v with DStr _ _ _ | DPtr _ _ => False | _ => True end.
(** the same bytes from [lo] to [hi] *)
Definition same_in (m m1 : mem) (lo hi : Z) : Prop := zlen m1 = zlen m /\ forall x n, lo <= x -> x + n <= hi -> rd m1 x n = rd m x n.
Lemma same_in_refl m lo hi : same_in m m lo hi.
Proof. split; auto. Qed.
Lemma same_in_slice m m1 lo hi : zlen m1 = zlen m -> 0 <= lo -> lo <= hi -> hi <= zlen m -> slice m1 lo (hi - lo) = slice m lo (hi - lo) -> same_in m m1 lo hi.
Proof.
  intros L H0 H1 H2 E. split; [exact L|]. intros x n X N. destruct (Z_lt_le_dec n 0) as [n0|n0].
  - unfold rd. replace ((0 <=? x) && (0 <=? n) && (x + n <=? zlen m1)) with false by lia. replace ((0 <=? x) && (0 <=? n) && (x + n <=? zlen m)) with false by lia. reflexivity.
  - rewrite !rd_ok by lia. f_equal. replace x with (lo + (x - lo)) by lia. rewrite <- (slice_slice m1 lo (hi - lo) (x - lo) n) by lia. rewrite E. apply slice_slice; lia.
Qed.
Lemma same_in_keep (P : Z -> Prop) m m1 lo hi : keep P m m1 -> 0 <= lo -> lo <= hi -> hi <= zlen m -> (forall x, lo <= x < hi -> P x) -> same_in m m1 lo hi.
Proof. intros K H0 H1 H2 H. apply same_in_slice; auto; [apply (keep_len _ _ _ K)|]. apply (keep_slice _ _ _ _ _ K); try lia. intros x X. apply H. lia. Qed.
Lemma strnlen_same m m1 lo hi : same_in m m1 lo hi -> forall k x, lo <= x -> x + Z.of_nat k <= hi -> strnlen_from m1 x k = strnlen_from m x k.
Proof.
  intros [_ S]. induction k as [|k IH]; intros x X N; cbn [strnlen_from]; [reflexivity|].
  rewrite S by lia. destruct (rd m x 1); cbn [bind]; [|reflexivity]. rewrite IH by lia. reflexivity.
Qed.

(** what is stored depends on the bytes of the value only *)
Lemma seen_same t v m m1 a valid inc lo hi : reads_in t v m lo hi -> same_in m m1 lo hi -> 0 <= lo -> hi <= zlen m ->
  set_datum t m1 a valid inc (seen_in m1 v) = set_datum t m1 a valid inc v.
Proof.
  intros R S L0 L1. destruct v as [| | | | | | | | |m' so n|m' so]; try reflexivity; cbn [seen_in reads_in] in *.
  - destruct R as (-> & R1 & R2 & R3). unfold set_datum. cbn [is_datum_NULL].
    assert (E : strnlen m1 so n = strnlen m so n) by (apply (strnlen_same m m1 lo hi S); lia).
    assert (C : forall w dst k, k <= n -> memcopy w dst m1 so k = memcopy w dst m so k).
    { intros w dst k K. unfold memcopy. rewrite (proj2 S) by lia. reflexivity. }
    destruct (type t); try reflexivity; (destruct (is_variable_sized_type_info t); cbn [negb]); try reflexivity; cbn [string_value bind].
    + rewrite E. destruct (strnlen m so n) as [q|] eqn:Q; cbn [bind]; [|reflexivity]. unfold strnlen in Q. apply strnlen_range in Q.
      destruct (if valid then get_size t m1 a else Ok 0); cbn [bind]; [|reflexivity]. destruct (negb (size_acceptable t a0 (u32 (vs t + q)) inc)); [reflexivity|].
      destruct (write_value m1 a (max_size t) q); cbn [bind]; [|reflexivity]. rewrite C by lia. reflexivity.
    + rewrite E. destruct (strnlen m so n) as [q|] eqn:Q; cbn [bind]; [|reflexivity]. unfold strnlen in Q. apply strnlen_range in Q. rewrite C by lia. reflexivity.
    + destruct (if valid then get_size t m1 a else Ok 0); cbn [bind]; [|reflexivity]. destruct (negb (size_acceptable t a0 (u32 (vs t + n)) inc)); [reflexivity|].
      destruct (write_value m1 a (max_size t) n); cbn [bind]; [|reflexivity]. rewrite C by lia. reflexivity.
    + rewrite C by lia. reflexivity.
  - destruct R as (-> & R1 & k & R2 & R3 & R4 & R5). unfold set_datum. cbn [is_datum_NULL is_EMPTY_DATUM tuple_value bind].
    assert (G : get_size t m so = Ok k) by (apply R5; reflexivity).
    assert (G1 : get_size t m1 so = Ok k).
    { apply R5; [apply S|]. pose proof (proj2 S so k ltac:(lia) ltac:(lia)) as Q. rewrite !rd_ok in Q by (try rewrite (proj1 S); lia). congruence. }
    assert (C : forall w dst, memcopy w dst m1 so k = memcopy w dst m so k).
    { intros w dst. unfold memcopy. rewrite (proj2 S) by lia. reflexivity. }
    destruct (is_variable_sized_type_info t) eqn:V; cbn [negb].
    + rewrite G, G1. cbn [bind]. destruct (type t); try reflexivity; (destruct (if valid then get_size t m1 a else Ok 0); cbn [bind]; [|reflexivity];
        destruct (negb (size_acceptable t a0 k inc)); [reflexivity|]; rewrite C; reflexivity).
    + rewrite <- (R4 V). rewrite C. reflexivity.
Qed.
Lemma not_pointer_seen v m : not_pointer v -> seen_in m v = v.
Proof. destruct v; cbn; auto; contradiction. Qed.
Lemma reads_seen t v m lo hi : reads_in t v m lo hi -> seen_in m v = v.
Proof. destruct v; cbn; auto; intros (-> & _); reflexivity. Qed.

(** the element count that is written before the bytes are read *)
Lemma own_datum t m a valid inc v lo hi : reads_in t (seen_in m v) m lo hi -> 0 <= lo -> hi <= zlen m -> (is_variable_sized_ t = true -> hi <= a) ->
  set_own_datum t m a valid inc v = set_datum t m a valid inc (seen_in m v).
Proof.
  intros R L0 L1 D. destruct v as [| | | | | | | | |m' so n|m' so]; try reflexivity. cbn [seen_in reads_in set_own_datum] in *. destruct R as (_ & R1 & R2 & R3).
  destruct (is_variable_sized_type_info t) eqn:V; cbn [andb]; [|reflexivity]. specialize (D V).
  assert (C : forall q w, q <= n -> write_value m a (max_size t) q = Ok w -> memmove w (a + vs t) so q = memcopy w (a + vs t) m so q).
  { intros q w Q W. unfold memmove, memcopy. unfold write_value in W. apply wr_inv in W. destruct W as (W1 & W2 & ->).
    assert (K : keep (fun x => x < a) m (upd m a (enc (Z.to_nat (value_size (max_size t))) q))).
    { apply (keep_upd' _ _ _ _ (zlen (enc (Z.to_nat (value_size (max_size t))) q))); auto; intros; lia. }
    destruct (Z_lt_le_dec q 0) as [N|N].
    - unfold rd. replace ((0 <=? so) && (0 <=? q)) with false by lia. reflexivity.
    - pose proof (keep_len _ _ _ K). rewrite !rd_ok by lia. rewrite (keep_slice _ _ _ _ _ K) by lia. reflexivity. }
  destruct (type t) eqn:T; try reflexivity; unfold set_datum; rewrite T, V; cbn [is_datum_NULL negb string_value bind].
  - destruct (strnlen m so n) as [q|] eqn:Q; cbn [bind]; [|reflexivity]. unfold strnlen in Q. apply strnlen_range in Q.
    destruct (if valid then get_size t m a else Ok 0); cbn [bind]; [|reflexivity]. destruct (negb (size_acceptable t a0 (u32 (vs t + q)) inc)); [reflexivity|].
    destruct (write_value m a (max_size t) q) as [w|] eqn:W; cbn [bind]; [|reflexivity]. rewrite (C q w ltac:(lia) W). reflexivity.
  - destruct (if valid then get_size t m a else Ok 0); cbn [bind]; [|reflexivity]. destruct (negb (size_acceptable t a0 (u32 (vs t + n)) inc)); [reflexivity|].
    destruct (write_value m a (max_size t) n) as [w|] eqn:W; cbn [bind]; [|reflexivity]. rewrite (C n w ltac:(lia) W). reflexivity.
Qed.
Lemma own_same t v m m1 a valid inc lo hi : reads_in t v m lo hi -> same_in m m1 lo hi -> 0 <= lo -> hi <= zlen m -> (is_variable_sized_ t = true -> hi <= a) ->
  set_own_datum t m1 a valid inc v = set_datum t m1 a valid inc v.
Proof.
  intros R S L0 L1 D. rewrite <- (seen_same t v m m1 a valid inc lo hi R S L0 L1).
  assert (R' : reads_in t (seen_in m1 v) m1 lo hi).
  { destruct v as [| | | | | | | | |m' so n|m' so]; try exact I; cbn [seen_in reads_in] in *.
    - destruct R as (_ & R). split; [reflexivity|exact R].
    - destruct R as (-> & R1 & k & R2 & R3 & R4 & R5). split; [reflexivity|]. split; [exact R1|]. exists k. split; [exact R2|]. split; [exact R3|]. split; [exact R4|].
      intros m2 L2 E2. apply R5; [rewrite L2; apply S|]. rewrite E2. pose proof (proj2 S so k ltac:(lia) ltac:(lia)) as Q. rewrite !rd_ok in Q by (try rewrite (proj1 S); lia). congruence. }
  apply (own_datum t m1 a valid inc v lo hi); auto. rewrite (proj1 S). exact L1.
Qed.

(** ** values that are no pointers *)
Lemma own_value_datum t m a valid inc v : not_pointer v -> set_own_datum t m a valid inc v = set_datum t m a valid inc v.
Proof. intro N. destruct v; try contradiction; reflexivity. Qed.
Lemma own_value_containee d m o i inc v : not_pointer v -> set_own_containee d m o i inc v = set_containee d m o i inc v.
Proof.
  intro N. unfold set_own_containee, set_containee. destruct (negb (is_container_type_info d)); [reflexivity|].
  destruct (get_element_count d m o); cbn [bind]; [|reflexivity]. destruct (a <=? i); [reflexivity|]. destruct (get_pos d m o i) as [p|]; cbn [bind]; [|reflexivity].
  destruct (is_datum_NULL v); [reflexivity|]. destruct (negb (is_variable_sized_type_info (pi_type p))).
  - destruct (if needs_is_valid_bit (pi_type p) then set_bit m (o + offset_of_prefix_bitmap d) (pi_valid p) else Ok m) as [m1|]; cbn [bind]; [|reflexivity].
    destruct (get_ptr d m1 o p) as [[q|]|]; cbn [bind]; rewrite ?own_value_datum by exact N; reflexivity.
  - destruct (move_to_end d m o i p) as [m1|]; cbn [bind]; [|reflexivity]. destruct (get_size d m1 o); cbn [bind]; [|reflexivity].
    destruct (get_ptr d m1 o p) as [q|]; cbn [bind]; [|reflexivity]. rewrite own_value_datum by exact N. reflexivity.
Qed.
Lemma own_value_internal pa : forall d m o v inc var, not_pointer v -> set_own_internal d pa m o v inc var = set_internal d pa m o v inc var.
Proof.
  induction pa as [|i pa IH]; intros d m o v inc var N; [cbn [set_own_internal set_internal]; rewrite own_value_datum by exact N; reflexivity|].
  destruct pa as [|j pa]; [apply own_value_containee; exact N|]. cbn [set_own_internal set_internal] in *. destruct (negb (is_container_type_info d)); [reflexivity|].
  destruct (get_element_count d m o); cbn [bind]; [|reflexivity]. destruct (a <=? i); [reflexivity|].
  destruct (if is_variable_sized_type_info d then let* sz := get_size d m o in Ok (Z.min inc (u32 (max_size d - sz))) else Ok inc) as [inc'|]; cbn [bind]; [|reflexivity].
  destruct (get_pos d m o i) as [p|]; cbn [bind]; [|reflexivity]. destruct (if var then move_to_end d m o i p else Ok m) as [m1|]; cbn [bind]; [|reflexivity].
  destruct (get_ptr d m1 o p) as [[q|]|]; cbn [bind]; try reflexivity. rewrite IH by exact N. reflexivity.
Qed.
Lemma own_value d pa m o v inc : not_pointer v -> set_own_element d pa m o v inc = set_element d pa m o v inc.
Proof. intro N. unfold set_own_element, set_element. destruct (get_type_info d pa); [apply own_value_internal; exact N|reflexivity]. Qed.

(** ** a target of fixed size: only a bit of a bitmap is written before the value is read *)
Lemma own_fixed_containee d m o s es i inc v lo hi : container d -> cv d m o s es -> 0 <= i ->
  (i < zlen es -> is_variable_sized_ (etype d i) = false /\ reads_in (etype d i) v m lo hi) -> 0 <= lo -> lo <= hi -> hi <= zlen m ->
  (hi <= o + pbo d \/ o + pbo d + bitmap_size_in_bytes (sb d (zlen es)) <= lo) ->
  set_own_containee d m o i inc v = set_containee d m o i inc v.
Proof.
  intros CT V I R L0 L1 L2 D. pose proof CT as [W C]. unfold set_own_containee, set_containee. rewrite C. cbn [negb].
  rewrite (cv_get_count d m o s es CT V). cbn [bind]. destruct (zlen es <=? i) eqn:L; [reflexivity|]. assert (I' : 0 <= i < zlen es) by lia. destruct (R ltac:(lia)) as [F RD].
  rewrite (cv_pos d m o s es i CT V I'). cbn [bind]. destruct (pos_spec d (zlen es) i W C (cv_n _ _ _ _ _ V) I') as (Q1 & Q2 & Q3 & Q4). rewrite Q1.
  destruct (is_datum_NULL v); [reflexivity|]. change (is_variable_sized_type_info (etype d i)) with (is_variable_sized_ (etype d i)). rewrite F. cbn [negb].
  pose proof (cv_etype_wf d m o s es i CT V I') as Wt. pose proof (ebits_parts _ Wt) as (EP1 & EP2 & EP3 & EP4).
  pose proof (cv_bounds d m o s es CT V) as B. pose proof (cv_o _ _ _ _ _ V) as Ho. pose proof (cv_s _ _ _ _ _ V) as Hs.
  assert (S : forall m1, (if needs_is_valid_bit (etype d i) then set_bit m (o + offset_of_prefix_bitmap d) (pi_valid (pos d (zlen es) i)) else Ok m) = Ok m1 -> same_in m m1 lo hi).
  { intros m1 E. destruct (needs_is_valid_bit (etype d i)) eqn:N; [|injection E as <-; apply same_in_refl]. rewrite (Q2 eq_refl) in E. specialize (EP4 eq_refl).
    destruct (bit_in_bitmap d m o s es i 0 CT V I' ltac:(lia)) as [X1 X2]. rewrite Z.add_0_r in *. unfold set_bit in E.
    pose proof (Z.div_pos (sb d i) 8). rewrite put_bit_ok in E by lia. injection E as <-.
    apply (same_in_keep _ _ _ _ _ (keep_put m (o + pbo d) (sb d i) true ltac:(lia) ltac:(lia) ltac:(lia))); cbn beta; intros; lia. }
  match goal with |- (let* m1 := ?e in _) = _ => destruct e as [m1|]; cbn [bind]; [|reflexivity] end. specialize (S m1 eq_refl).
  destruct (get_ptr d m1 o (pos d (zlen es) i)) as [[q|]|]; cbn [bind]; try reflexivity.
  rewrite (own_same (etype d i) v m m1 q true inc lo hi RD S L0 L2) by congruence. reflexivity.
Qed.
(** the value lies outside of the data *)
Lemma own_fixed_outside pa : forall d m o bs t v inc lo hi, holds d m o bs -> path_ok pa -> get_type_info d pa = Some t -> is_variable_sized_ t = false ->
  reads_in t v m lo hi -> 0 <= lo -> lo <= hi -> hi <= zlen m -> hi <= o \/ o + zlen bs <= lo ->
  set_own_internal d pa m o v inc false = set_internal d pa m o v inc false.
Proof.
  induction pa as [|i pa IH]; intros d m o bs t v inc lo hi H PO TI F R L0 L1 L2 D.
  - injection TI as ->. cbn [set_own_internal set_internal]. rewrite (own_same t v m m o true inc lo hi R (same_in_refl _ _ _) L0 L2) by congruence. reflexivity.
  - pose proof (Forall_inv PO) as I. pose proof (Forall_inv_tail PO) as PO'. cbn beta in I.
    destruct (is_container_type_info d) eqn:C; [|destruct pa; cbn [set_own_internal set_internal]; unfold set_own_containee, set_containee; rewrite C; cbn [negb]; reflexivity].
    destruct (holds_cv d m o bs H C) as (es & CT & V & Vb & GE). pose proof (cv_bounds d m o _ es CT V) as B.
    assert (ST : i < zlen es -> get_type_info (etype d i) pa = Some t) by (intro; rewrite <- TI; symmetry; apply (step_type d m o _ es i pa CT V); lia).
    destruct pa as [|j pa].
    + apply (own_fixed_containee d m o _ es i inc v lo hi CT V ltac:(lia)); auto; [|lia]. intro L. specialize (ST L). injection ST as ->. auto.
    + cbn [set_own_internal set_internal]. cbn [set_own_internal set_internal] in IH. rewrite C. cbn [negb]. rewrite (cv_get_count d m o _ es CT V). cbn [bind]. destruct (zlen es <=? i) eqn:L; [reflexivity|].
      destruct (if is_variable_sized_type_info d then let* sz := get_size d m o in Ok (Z.min inc (u32 (max_size d - sz))) else Ok inc) as [inc'|]; cbn [bind]; [|reflexivity].
      assert (I' : 0 <= i < zlen es) by lia. rewrite (cv_pos d m o _ es i CT V I'). cbn [bind]. pose proof CT as [W _]. destruct (pos_spec d (zlen es) i W C (cv_n _ _ _ _ _ V) I') as (Q1 & _). rewrite Q1.
      destruct (znth_lt es i I') as [e En]. rewrite (cv_get_ptr d m o _ es i e CT V ltac:(lia) En). cbn [bind]. destruct e as [|z|c]; cbn [ptr_of]; [reflexivity| |].
      * pose proof (cv_el _ _ _ _ _ V i _ ltac:(lia) En) as (_ & BF & _). apply is_bit_field_spec in BF.
        assert (NC : is_container_type_info (etype d i) = false) by (unfold is_container_type_info; rewrite BF; reflexivity).
        destruct pa; unfold set_own_containee, set_containee; rewrite NC; cbn [negb]; reflexivity.
      * pose proof (child_holds d m o bs es i c CT V ltac:(lia) En (GE i c ltac:(lia) En)) as HC. destruct (cv_chunk d m o _ es i c CT V ltac:(lia) En) as (A1 & A2 & _).
        apply (IH (etype d i) m _ c t v inc' lo hi HC PO' (ST ltac:(lia)) F R L0 L1 L2). lia.
Qed.
Lemma chunks_apart d m o s es i j ci cj : container d -> cv d m o s es -> 0 <= i -> 0 <= j -> i <> j ->
  nth_error es (Z.to_nat i) = Some (CBytes ci) -> nth_error es (Z.to_nat j) = Some (CBytes cj) ->
  addr d (zlen es) m o i + zlen ci <= addr d (zlen es) m o j \/ addr d (zlen es) m o j + zlen cj <= addr d (zlen es) m o i.
Proof.
  intros CT V I J N Ei Ej. pose proof (znth_some _ _ _ Ei). pose proof (znth_some _ _ _ Ej). assert (I' : 0 <= i < zlen es) by lia. assert (J' : 0 <= j < zlen es) by lia.
  pose proof (cv_el _ _ _ _ _ V i _ I Ei) as (_ & Bi & Vi & Fi). pose proof (cv_el _ _ _ _ _ V j _ J Ej) as (_ & Bj & Vj & Fj).
  pose proof (slot_in d m o s es i CT V I') as SI. pose proof (slot_in d m o s es j CT V J') as SJ. pose proof (slots_apart d m o s es i j CT V I' J' N) as SA.
  unfold addr. destruct (is_variable_sized_ (etype d i)) eqn:Ti, (is_variable_sized_ (etype d j)) eqn:Tj.
  - pose proof (cv_dis _ _ _ _ _ V i j ci cj I J N Ei Ej Ti Tj). lia.
  - destruct (Vi eq_refl) as (X1 & _). destruct (Fj eq_refl) as [X2 _]. rewrite (eslot_fixed _ _ Bj Tj) in SJ. lia.
  - destruct (Vj eq_refl) as (X1 & _). destruct (Fi eq_refl) as [X2 _]. rewrite (eslot_fixed _ _ Bi Ti) in SI. lia.
  - destruct (Fi eq_refl) as [X1 _]. destruct (Fj eq_refl) as [X2 _]. rewrite (eslot_fixed _ _ Bi Ti), (eslot_fixed _ _ Bj Tj) in SA. lia.
Qed.

(** where a value is read from *)
Lemma value_in pa : forall d m o bs v t_in t, holds d m o bs -> path_ok pa -> get_type_info d pa = Some t_in -> get_value d pa m o = Ok (Some v) ->
  (string_type t_in \/ alike t t_in) -> exists lo hi, o <= lo /\ lo <= hi /\ hi <= o + zlen bs /\ reads_in t v m lo hi.
Proof.
  induction pa as [|i pa IH]; intros d m o bs v t_in t H PO TI E K.
  - injection TI as <-. cbn [get_value] in E. exists o, (o + zlen bs). pose proof (zlen_nonneg bs). split; [lia|]. split; [lia|]. split; [lia|].
    destruct (datum_typed d m o bs H) as (w & E' & T). rewrite E in E'. injection E' as <-. destruct T as [(N & IV & NN & _)|[(S & a & n & c & -> & R)|(T & ->)]].
    + destruct v; try exact I; exfalso; cbn in IV; unfold is_container_type_info in N; intuition; match goal with X : type d = _ |- _ => rewrite X in N; discriminate end.
    + destruct (string_datum d m o bs _ H S E) as (k & q & b & N1 & N2 & N3 & N4). injection N2 as -> ->.
      destruct (string_bytes d m o bs H S) as (n' & X1 & X2 & X3 & X4 & _). rewrite X1 in N1. injection N1 as ->. cbn [reads_in]. split; [reflexivity|]. lia.
    + cbn [reads_in]. split; [reflexivity|]. split; [lia|]. exists (zlen bs). split; [lia|]. split; [lia|].
      assert (A : alike t d) by (destruct K as [[S|S]|A]; [destruct T; congruence|destruct T; congruence|exact A]). pose proof (h_o _ _ _ _ H) as Ho. pose proof (h_in _ _ _ _ H) as Hl. pose proof (h_slice _ _ _ _ H) as Hs.
      assert (G : forall m1, zlen m1 = zlen m -> slice m1 o (zlen bs) = slice m o (zlen bs) -> get_size t m1 o = Ok (zlen bs)).
      { intros m1 L1 E1. rewrite (alike_size t d m1 o A). apply (get_size_local d bs); auto; [lia|congruence|]. pose proof (h_good _ _ _ _ H) as G. apply good_size in G. apply G. }
      split; [|exact G]. intro F. specialize (G m eq_refl eq_refl). unfold get_size, is_variable_sized_type_info in G. rewrite F in G. cbn [negb] in G. destruct (alike_shares _ _ A) as (TY & _). rewrite TY in G. destruct T as [T|T]; rewrite T in G; congruence.
  - pose proof (Forall_inv PO) as I. pose proof (Forall_inv_tail PO) as PO'. cbn beta in I.
    destruct (is_container_type_info d) eqn:C; [|rewrite not_container_value in E by (try discriminate; assumption); discriminate].
    destruct (holds_cv d m o bs H C) as (es & CT & V & Vb & GE). pose proof (cv_bounds d m o _ es CT V) as B. pose proof (zlen_nonneg bs) as Zb.
    destruct (Z_lt_le_dec i (zlen es)) as [L|L].
    2: { exfalso. destruct pa as [|j pa]; cbn [get_value] in E.
         - unfold get_containee_datum in E. rewrite C in E. cbn [negb] in E. rewrite (cv_get_count d m o _ es CT V) in E. cbn [bind] in E. replace (zlen es <=? i) with true in E by lia. discriminate.
         - rewrite (child_none d m o _ es i CT V L) in E. discriminate. }
    destruct (znth_lt es i ltac:(lia)) as [e En]. rewrite (value_step d m o _ es i e pa CT V ltac:(lia) En) in E. rewrite (step_type d m o _ es i pa CT V ltac:(lia)) in TI.
    destruct e as [|z|c].
    + injection E as <-. exists o, o. cbn [reads_in]. repeat split; lia.
    + destruct pa; [|discriminate]. injection E as <-. exists o, o. cbn [reads_in]. repeat split; lia.
    + pose proof (child_holds d m o bs es i c CT V ltac:(lia) En (GE i c ltac:(lia) En)) as HC. destruct (cv_chunk d m o _ es i c CT V ltac:(lia) En) as (A1 & A2 & _).
      destruct (IH _ _ _ _ _ _ t HC PO' TI E K) as (lo & hi & X1 & X2 & X3 & X4). exists lo, hi. repeat split; auto; lia.
Qed.
Lemma value_chunk d m o bs es j pb v t_in t : holds d m o bs -> container d -> cv d m o (zlen bs) es ->
  (forall i c, 0 <= i -> nth_error es (Z.to_nat i) = Some (CBytes c) -> good (etype d i) c) -> path_ok (j :: pb) ->
  get_type_info d (j :: pb) = Some t_in -> get_value d (j :: pb) m o = Ok (Some v) -> (string_type t_in \/ alike t t_in) ->
  0 <= j /\ (not_pointer v \/ exists c lo hi, nth_error es (Z.to_nat j) = Some (CBytes c) /\ addr d (zlen es) m o j <= lo /\ lo <= hi /\ hi <= addr d (zlen es) m o j + zlen c /\ reads_in t v m lo hi).
Proof.
  intros H CT V GE PO TI E K. pose proof (Forall_inv PO) as I. pose proof (Forall_inv_tail PO) as PO'. cbn beta in I. split; [lia|]. pose proof CT as [W C].
  destruct (Z_lt_le_dec j (zlen es)) as [L|L].
  2: { exfalso. destruct pb as [|k pb]; cbn [get_value] in E.
       - unfold get_containee_datum in E. rewrite C in E. cbn [negb] in E. rewrite (cv_get_count d m o _ es CT V) in E. cbn [bind] in E. replace (zlen es <=? j) with true in E by lia. discriminate.
       - rewrite (child_none d m o _ es j CT V L) in E. discriminate. }
  destruct (znth_lt es j ltac:(lia)) as [e En]. rewrite (value_step d m o _ es j e pb CT V ltac:(lia) En) in E. rewrite (step_type d m o _ es j pb CT V ltac:(lia)) in TI.
  destruct e as [|z|c].
  - left. injection E as <-. exact Logic.I.
  - left. destruct pb; [|discriminate]. injection E as <-. exact Logic.I.
  - right. pose proof (child_holds d m o bs es j c CT V ltac:(lia) En (GE j c ltac:(lia) En)) as HC.
    destruct (value_in pb _ m _ c v t_in t HC PO' TI E K) as (lo & hi & X1 & X2 & X3 & X4). exists c, lo, hi. auto.
Qed.
(** no type has an element of its own description *)
Lemma type_below d i c : wf d -> 0 <= i -> containee_type_without_data d i = Some c -> (containee_ d = Some c \/ exists p, In (p, c) (containees d)) \/ is_container_type_info c = false.
Proof.
  intros W I E. pose proof (wf_node d W) as N. destruct N as (_ & _ & _ & _ & _ & _ & N). unfold containee_type_without_data in E. destruct (is_container_type_info d) eqn:C; [|discriminate]. cbn [negb] in E.
  destruct (negb (is_variable_element_count d) && (element_count d <=? i)); [discriminate|]. unfold is_container_type_info in C. destruct (type d) eqn:T; try discriminate.
  - right. injection E as <-. reflexivity.
  - right. injection E as <-. reflexivity.
  - left. right. destruct (nth_error (containees d) (Z.to_nat i)) as [[p c']|] eqn:En; [|discriminate]. injection E as <-. exists p. eapply nth_error_In; eauto.
  - left. left. injection E as <-. destruct N as (x & Ex & _). unfold containee. rewrite Ex. reflexivity.
Qed.
Lemma none_inside d : forall pa t, wf d -> path_ok pa -> pa <> [] -> get_type_info d pa = Some t -> alike t d -> False.
Proof.
  induction d as [d IHc IHs] using dti_induction. intros pa t W PO NN TI A. destruct pa as [|i pa]; [congruence|]. pose proof (Forall_inv PO) as I. pose proof (Forall_inv_tail PO) as PO'. cbn beta in I.
  pose proof (alike_step t d i A) as ST. cbn [get_type_info] in TI. destruct (containee_type_without_data d i) as [c|] eqn:E; [|discriminate].
  destruct (containee_type_without_data t i) as [c'|] eqn:E'; [|contradiction]. cbn [opt_rel] in ST.
  assert (TI' : get_type_info c (pa ++ [i]) = Some c') by (rewrite (cat_type c pa t i TI); cbn [get_type_info]; rewrite E'; reflexivity).
  assert (PO2 : path_ok (pa ++ [i])) by (apply Forall_app; split; [exact PO'|constructor; [exact I|constructor]]).
  assert (N2 : pa ++ [i] <> []) by (destruct pa; discriminate).
  assert (Wc : wf c) by (apply ST).
  destruct (type_below d i c W ltac:(lia) E) as [[Q|[p Q]]|Q].
  - exact (IHc c Q (pa ++ [i]) c' Wc PO2 N2 TI' ST).
  - exact (IHs p c Q (pa ++ [i]) c' Wc PO2 N2 TI' ST).
  - destruct (alike_flags _ _ A) as (CA & _). destruct pa as [|k pa]; cbn [app get_type_info] in TI'; unfold containee_type_without_data in TI'; rewrite Q in TI'; discriminate.
Qed.
Lemma none_in_string d pa t : string_type d -> pa <> [] -> get_type_info d pa = Some t -> string_type t -> False.
Proof.
  intros S NN TI S'. destruct pa as [|i pa]; [congruence|]. cbn [get_type_info] in TI. unfold containee_type_without_data in TI. destruct (negb (is_container_type_info d)); [discriminate|].
  destruct (_ && _); [discriminate|]. assert (TI' : get_type_info uint8_type pa = Some t) by (destruct S as [S|S]; rewrite S in TI; exact TI).
  destruct pa; [injection TI' as <-; destruct S'; discriminate|]. discriminate.
Qed.
(** the types of a value that is stored as it is *)
Definition stored_as_is (t t_in : dti) : Prop := (string_type t /\ string_type t_in) \/ alike t t_in.
Lemma stored_reads t t_in : stored_as_is t t_in -> string_type t_in \/ alike t t_in.
Proof. intros [[_ S]|A]; auto. Qed.

Lemma own_fixed pa : forall pa_in d m o bs t t_in v inc, holds d m o bs -> path_ok pa -> path_ok pa_in -> get_type_info d pa = Some t -> get_type_info d pa_in = Some t_in ->
  get_value d pa_in m o = Ok (Some v) -> stored_as_is t t_in -> is_variable_sized_ t = false ->
  set_own_internal d pa m o v inc false = set_internal d pa m o v inc false.
Proof.
  induction pa as [|i pa IH]; intros pa_in d m o bs t t_in v inc H PO PI TI TJ E K F.
  { injection TI as ->. cbn [set_own_internal set_internal]. destruct (value_in pa_in t m o bs v t_in t H PI TJ E (stored_reads _ _ K)) as (lo & hi & X1 & X2 & X3 & X4). pose proof (h_o _ _ _ _ H) as Ho. pose proof (h_in _ _ _ _ H) as Hl.
    rewrite (own_same t v m m o true inc lo hi X4 (same_in_refl _ _ _)) by (try congruence; lia). reflexivity. }
  destruct pa_in as [|j pb].
  { exfalso. injection TJ as <-. destruct (good_size _ _ (h_good _ _ _ _ H)) as (W & _). destruct K as [[S1 S2]|A]; [eapply (none_in_string d (i :: pa) t); eauto; discriminate|eapply (none_inside d (i :: pa) t); eauto; discriminate]. }
  pose proof (Forall_inv PO) as I. pose proof (Forall_inv_tail PO) as PO'. cbn beta in I.
  destruct (is_container_type_info d) eqn:C; [|destruct pa; cbn [set_own_internal set_internal]; unfold set_own_containee, set_containee; rewrite C; cbn [negb]; reflexivity].
  destruct (holds_cv d m o bs H C) as (es & CT & V & Vb & GE). pose proof (cv_bounds d m o _ es CT V) as B. pose proof (h_o _ _ _ _ H) as Ho. pose proof (h_in _ _ _ _ H) as Hl.
  destruct (value_chunk d m o bs es j pb v t_in t H CT V GE PI TJ E (stored_reads _ _ K)) as [J [N|(c & lo & hi & Ej & X1 & X2 & X3 & X4)]]; [apply own_value_internal; exact N|].
  destruct (cv_chunk d m o _ es j c CT V J Ej) as (A1 & A2 & _).
  assert (ST : i < zlen es -> get_type_info (etype d i) pa = Some t) by (intro; rewrite <- TI; symmetry; apply (step_type d m o _ es i pa CT V); lia).
  destruct pa as [|i2 pa].
  - apply (own_fixed_containee d m o _ es i inc v lo hi CT V ltac:(lia)); try lia. intro L. specialize (ST L). injection ST as ->. auto.
  - cbn [set_own_internal set_internal]. cbn [set_own_internal set_internal] in IH. pose proof (own_fixed_outside (i2 :: pa)) as OUT. cbn [set_own_internal set_internal] in OUT.
    rewrite C. cbn [negb]. rewrite (cv_get_count d m o _ es CT V). cbn [bind]. destruct (zlen es <=? i) eqn:L; [reflexivity|].
    destruct (if is_variable_sized_type_info d then let* sz := get_size d m o in Ok (Z.min inc (u32 (max_size d - sz))) else Ok inc) as [inc'|]; cbn [bind]; [|reflexivity].
    assert (I' : 0 <= i < zlen es) by lia. rewrite (cv_pos d m o _ es i CT V I'). cbn [bind]. pose proof CT as [W _]. destruct (pos_spec d (zlen es) i W C (cv_n _ _ _ _ _ V) I') as (Q1 & _). rewrite Q1.
    destruct (znth_lt es i I') as [e En]. rewrite (cv_get_ptr d m o _ es i e CT V ltac:(lia) En). cbn [bind]. destruct e as [|z|ci]; cbn [ptr_of]; [reflexivity| |].
    + pose proof (cv_el _ _ _ _ _ V i _ ltac:(lia) En) as (_ & BF & _). apply is_bit_field_spec in BF.
      assert (NC : is_container_type_info (etype d i) = false) by (unfold is_container_type_info; rewrite BF; reflexivity).
      destruct pa; unfold set_own_containee, set_containee; rewrite NC; cbn [negb]; reflexivity.
    + pose proof (child_holds d m o bs es i ci CT V ltac:(lia) En (GE i ci ltac:(lia) En)) as HC. destruct (Z.eq_dec i j) as [<-|NE].
      * rewrite Ej in En. injection En as <-. rewrite (step_type d m o _ es i pb CT V ltac:(lia)) in TJ. rewrite (value_step d m o _ es i _ pb CT V ltac:(lia) Ej) in E.
        apply (IH pb (etype d i) m _ c t t_in v inc' HC PO' (Forall_inv_tail PI) (ST ltac:(lia)) TJ E K F).
      * pose proof (chunks_apart d m o _ es i j ci c CT V ltac:(lia) J NE En Ej) as D. destruct (cv_chunk d m o _ es i ci CT V ltac:(lia) En) as (D1 & D2 & _).
        apply (OUT (etype d i) m _ ci t v inc' lo hi HC PO' (ST ltac:(lia)) F X4); lia.
Qed.

(** ** a target of variable size in the tuple itself *)
(** moving an element leaves alone what is stored before it *)
Lemma move_keeps d m o s es i c m' : container d -> cv d m o s es -> 0 <= i -> nth_error es (Z.to_nat i) = Some (CBytes c) -> is_variable_sized_ (etype d i) = true ->
  move_to_end d m o i (pos d (zlen es) i) = Ok m' -> keep (fun x => o + FS d (zlen es) <= x < addr d (zlen es) m o i) m m'.
Proof.
  intros CT V I En Vi E. pose proof (znth_some _ _ _ En) as IL. assert (I' : 0 <= i < zlen es) by lia.
  pose proof (cv_bounds d m o s es CT V) as B. pose proof CT as [W C].
  pose proof (cv_o _ _ _ _ _ V) as Ho. pose proof (cv_s _ _ _ _ _ V) as Hs. pose proof (pbo_range d) as (P1 & P2 & P3 & P4 & P5 & P6). pose proof (vs_range d) as VS.
  pose proof (cv_el _ _ _ _ _ V i _ I En) as (_ & _ & A & _). destruct (A Vi) as (A1 & A2 & A3 & A4 & A5). clear A.
  destruct (pos_spec d (zlen es) i W C (cv_n _ _ _ _ _ V) I') as (Q1 & _ & _ & Q4).
  pose proof (cv_etype_wf d m o s es i CT V I') as Wi. destruct (eslot_var (max_size d) _ Wi Vi) as (Bi & Ei & Nvi & Nli).
  pose proof (slot_in d m o s es i CT V I') as SIi. rewrite Ei in SIi. unfold max_bytes in *.
  unfold move_to_end in E. rewrite Q1 in E. change (is_variable_sized_type_info (etype d i)) with (is_variable_sized_ (etype d i)) in E. rewrite Vi in E. cbn [negb] in E.
  rewrite (cv_get_ptr d m o s es i _ CT V I En) in E. cbn [bind ptr_of] in E. unfold addr in *. rewrite Vi in *.
  rewrite (get_size_local (etype d i) c m (o + slot d (zlen es) m o i)) in E by (auto; lia). cbn [bind] in E.
  rewrite (cv_get_size d m o s es CT V) in E. cbn [bind] in E.
  replace (o + slot d (zlen es) m o i - o) with (slot d (zlen es) m o i) in E by lia. rewrite (u32_id (slot d (zlen es) m o i)) in E by lia. rewrite (u32_id (slot d (zlen es) m o i + zlen c)) in E by lia.
  destruct (Z.eqb_spec (slot d (zlen es) m o i + zlen c) s) as [AE|AE]; [injection E as <-; apply keep_refl|].
  rewrite (u32_id (s - slot d (zlen es) m o i)) in E by lia.
  destruct (left_rotate m (o + slot d (zlen es) m o i) (s - slot d (zlen es) m o i) (zlen c) ltac:(lia) ltac:(lia) ltac:(lia)) as (m1 & E1 & K1 & _).
  rewrite E1 in E. cbn [bind] in E. pose proof (keep_len _ _ _ K1) as L1.
  assert (K1' : keep (fun x => x < o + FS d (zlen es)) m m1) by (eapply keep_weaken; [exact K1|]; cbn beta; intros; lia).
  assert (GC : get_element_count d m1 o = Ok (zlen es)).
  { rewrite <- (cv_get_count d m o s es CT V). unfold get_element_count. rewrite C.
    destruct (is_variable_element_count d) eqn:VC; cbn [negb]; [|reflexivity]. specialize (P3 eq_refl).
    rewrite !read_value_ok by lia. do 2 f_equal. apply (keep_slice _ _ _ _ _ K1'); lia. }
  rewrite GC in E. cbn [bind] in E.
  destruct (patch_loop d m o s es i c CT V I En Vi m1 K1') as (m2 & E2 & K2 & S2). rewrite E2 in E. cbn [bind] in E. pose proof (keep_len _ _ _ K2) as L2.
  rewrite (Q4 Bi), u32_id in E by lia. rewrite write_value_ok in E by lia. injection E as <-.
  assert (K3 : keep (fun x => x < o + so d (zlen es) i \/ o + so d (zlen es) i + vs d <= x) m2 (upd m2 (o + so d (zlen es) i) (enc (Z.to_nat (vs d)) (s - zlen c)))) by (apply (keep_upd' _ _ _ _ (vs d)); auto using zlen_enc_vs; lia).
  eapply keep_trans'; [exact K1| |cbn beta; intros x X; split; [lia|exact X]].
  eapply keep_trans'; [exact K2|exact K3|]. cbn beta. intros x X. lia.
Qed.
(** moving an element does not change what is stored before it, and it ends up
    behind that *)
Lemma move_apart d m o (bs : list byte) es i j c e : container d -> cv d m o (zlen bs) es -> 0 <= i -> 0 <= j -> i <> j ->
  nth_error es (Z.to_nat j) = Some (CBytes c) -> nth_error es (Z.to_nat i) = Some e -> is_variable_sized_ (etype d i) = true ->
  (forall ci, e = CBytes ci -> addr d (zlen es) m o j + zlen c <= addr d (zlen es) m o i) ->
  exists m1, move_to_end d m o i (pos d (zlen es) i) = Ok m1 /\ cv d m1 o (zlen bs) es /\ zlen m1 = zlen m
  /\ same_in m m1 (addr d (zlen es) m o j) (addr d (zlen es) m o j + zlen c)
  /\ (addr d (zlen es) m o j + zlen c <= match e with CBytes _ => addr d (zlen es) m1 o i | _ => o + zlen bs end).
Proof.
  intros CT V I J NE Ej En F BF. pose proof CT as [W C]. pose proof (znth_some _ _ _ En) as IL. assert (I' : 0 <= i < zlen es) by lia.
  destruct (pos_spec d (zlen es) i W C (cv_n _ _ _ _ _ V) I') as (Q1 & Q2 & Q3 & Q4).
  destruct (cv_chunk d m o _ es j c CT V J Ej) as (A1 & A2 & A3 & A4 & _). pose proof (cv_bounds d m o _ es CT V) as B. pose proof (cv_o _ _ _ _ _ V) as Ho. pose proof (cv_s _ _ _ _ _ V) as Hs.
  destruct (move_ok d m o _ es i e CT V I En) as (m1 & E1 & V1 & AE & _ & K1). specialize (AE F). pose proof (keep_len _ _ _ K1) as L1.
  pose proof (pbo_range d) as (P1 & _). pose proof (zlen_nonneg c) as Zc.
  exists m1. split; [exact E1|]. split; [exact V1|]. split; [exact L1|]. destruct e as [|z|ci].
  - unfold move_to_end in E1. rewrite Q1 in E1. change (is_variable_sized_type_info (etype d i)) with (is_variable_sized_ (etype d i)) in E1. rewrite F in E1. cbn [negb] in E1.
    rewrite (cv_get_ptr d m o _ es i _ CT V I En) in E1. cbn [bind ptr_of] in E1. injection E1 as <-. split; [apply same_in_refl|]. lia.
  - pose proof (cv_el _ _ _ _ _ V i _ I En) as (_ & BI & _). pose proof (cv_etype_wf d m o _ es i CT V I') as Wi. destruct (eslot_var (max_size d) _ Wi F) as (X & _). congruence.
  - specialize (BF ci eq_refl). destruct (cv_chunk d m o _ es i ci CT V I En) as (D1 & D2 & _). split.
    + pose proof (move_keeps d m o _ es i ci m1 CT V I En F E1) as KP. destruct (is_variable_sized_ (etype d j)) eqn:Tj.
      * pose proof (cv_el _ _ _ _ _ V j _ J Ej) as (_ & _ & Vj & _). destruct (Vj Tj) as (Y1 & _).
        apply (same_in_keep _ _ _ _ _ KP); try lia. cbn beta. intros x X. unfold addr at 1 in X. rewrite Tj in X. lia.
      * destruct (cv_chunk d m1 o _ es j c CT V1 J Ej) as (_ & _ & A3' & _). assert (AE' : addr d (zlen es) m1 o j = addr d (zlen es) m o j) by (unfold addr; rewrite Tj; reflexivity).
        rewrite AE' in A3'. apply same_in_slice; try lia. rewrite Z.add_simpl_l. congruence.
    + unfold addr at 2. rewrite F. unfold at_end in AE. rewrite AE. lia.
Qed.
Lemma same_in_less m m1 lo hi lo' hi' : same_in m m1 lo hi -> lo <= lo' -> hi' <= hi -> same_in m m1 lo' hi'.
Proof. intros [L S] X Y. split; [exact L|]. intros. apply S; lia. Qed.
Lemma same_in_trans m m1 m2 lo hi : same_in m m1 lo hi -> same_in m1 m2 lo hi -> same_in m m2 lo hi.
Proof. intros [L S] [L' S']. split; [congruence|]. intros. rewrite S' by assumption. apply S; assumption. Qed.

(** an element of variable size is set from what is stored before the container *)
Lemma own_var_containee d m0 m o (bs : list byte) es i v inc lo hi : container d -> cv d m o (zlen bs) es -> 0 <= i -> is_variable_sized_ (etype d i) = true ->
  (i < zlen es -> reads_in (etype d i) v m0 lo hi) -> same_in m0 m lo hi -> 0 <= lo -> lo <= hi -> hi <= o ->
  set_own_containee d m o i inc v = set_containee d m o i inc v.
Proof.
  intros CT V I F R S L0 L1 L2. pose proof CT as [W C]. unfold set_own_containee, set_containee. rewrite C. cbn [negb].
  rewrite (cv_get_count d m o _ es CT V). cbn [bind]. destruct (zlen es <=? i) eqn:L; [reflexivity|]. assert (I' : 0 <= i < zlen es) by lia. specialize (R ltac:(lia)).
  rewrite (cv_pos d m o _ es i CT V I'). cbn [bind]. destruct (pos_spec d (zlen es) i W C (cv_n _ _ _ _ _ V) I') as (Q1 & Q2 & Q3 & Q4). rewrite Q1.
  destruct (is_datum_NULL v); [reflexivity|]. change (is_variable_sized_type_info (etype d i)) with (is_variable_sized_ (etype d i)). rewrite F. cbn [negb].
  pose proof (cv_bounds d m o _ es CT V) as B. pose proof (cv_o _ _ _ _ _ V) as Ho. pose proof (cv_s _ _ _ _ _ V) as Hs. pose proof S as [L3 _]. pose proof (zlen_nonneg bs) as Zb.
  destruct (znth_lt es i I') as [e En]. destruct (move_ok d m o _ es i e CT V I En) as (m1 & E1 & V1 & AE & _ & K1). specialize (AE F). rewrite E1. cbn [bind].
  rewrite (cv_get_size d m1 o _ es CT V1). cbn [bind]. rewrite (cv_get_ptr d m1 o _ es i e CT V1 I En). cbn [bind]. pose proof (keep_len _ _ _ K1) as L4.
  assert (S1 : same_in m m1 lo hi) by (apply (same_in_keep _ _ _ _ _ K1); try lia; cbn beta; intros; lia).
  rewrite (own_same (etype d i) v m0 m1 _ _ _ lo hi R (same_in_trans _ _ _ _ _ S S1)); try lia; [reflexivity|]. intros _.
  destruct e as [|z|ci]; cbn [ptr_of]; try lia.
  destruct (cv_chunk d m1 o _ es i ci CT V1 I En) as (D1 & _). pose proof (pbo_range d) as (P1 & _). lia.
Qed.
Lemma own_var_outside pa : forall d m0 m o bs t v inc lo hi, holds d m o bs -> path_ok pa -> get_type_info d pa = Some t -> is_variable_sized_ t = true ->
  reads_in t v m0 lo hi -> same_in m0 m lo hi -> 0 <= lo -> lo <= hi -> hi <= o ->
  set_own_internal d pa m o v inc true = set_internal d pa m o v inc true.
Proof.
  induction pa as [|i pa IH]; intros d m0 m o bs t v inc lo hi H PO TI F R S L0 L1 L2; pose proof (h_o _ _ _ _ H) as Ho; pose proof (h_in _ _ _ _ H) as Hl; pose proof S as [L3 _]; pose proof (zlen_nonneg bs) as Zb.
  - injection TI as ->. cbn [set_own_internal set_internal]. rewrite (own_same t v m0 m o true inc lo hi R S L0) by (intros; lia). reflexivity.
  - pose proof (Forall_inv PO) as I. pose proof (Forall_inv_tail PO) as PO'. cbn beta in I.
    destruct (is_container_type_info d) eqn:C; [|destruct pa; cbn [set_own_internal set_internal]; unfold set_own_containee, set_containee; rewrite C; cbn [negb]; reflexivity].
    destruct (holds_cv d m o bs H C) as (es & CT & V & Vb & GE). pose proof CT as [W _].
    destruct (Z_lt_le_dec i (zlen es)) as [L|L].
    2: { destruct pa; cbn [set_own_internal set_internal]; unfold set_own_containee, set_containee; rewrite C; cbn [negb]; rewrite (cv_get_count d m o _ es CT V); cbn [bind]; replace (zlen es <=? i) with true by lia; reflexivity. }
    assert (I' : 0 <= i < zlen es) by lia. rewrite (step_type d m o _ es i pa CT V ltac:(lia)) in TI. pose proof (cv_etype_wf d m o _ es i CT V I') as Wi.
    destruct (type_info_wf pa _ t PO' Wi TI) as [Wt VT]. specialize (VT F).
    destruct pa as [|i2 pa].
    + injection TI as <-. cbn [set_own_internal set_internal]. apply (own_var_containee d m0 m o bs es i v inc lo hi CT V ltac:(lia) VT (fun _ => R) S L0 L1 L2).
    + cbn [set_own_internal set_internal]. cbn [set_own_internal set_internal] in IH.
      rewrite C. cbn [negb]. rewrite (cv_get_count d m o _ es CT V). cbn [bind]. replace (zlen es <=? i) with false by lia.
      destruct (if is_variable_sized_type_info d then let* sz := get_size d m o in Ok (Z.min inc (u32 (max_size d - sz))) else Ok inc) as [inc'|]; cbn [bind]; [|reflexivity].
      rewrite (cv_pos d m o _ es i CT V I'). cbn [bind]. destruct (pos_spec d (zlen es) i W C (cv_n _ _ _ _ _ V) I') as (Q1 & _). rewrite Q1.
      destruct (znth_lt es i I') as [e En]. destruct (move_ok d m o _ es i e CT V ltac:(lia) En) as (m1 & E1 & V1 & AE & _ & K1). specialize (AE VT). rewrite E1. cbn [bind]. pose proof (keep_len _ _ _ K1) as L4.
      rewrite (cv_get_ptr d m1 o _ es i e CT V1 ltac:(lia) En). cbn [bind].
      assert (S1 : same_in m m1 lo hi) by (apply (same_in_keep _ _ _ _ _ K1); try lia; cbn beta; intros; lia).
      destruct e as [|z|ci]; cbn [ptr_of]; [reflexivity| |].
      * pose proof (cv_el _ _ _ _ _ V i _ ltac:(lia) En) as (_ & BF & _). destruct (eslot_var (max_size d) _ Wi VT) as (X & _). congruence.
      * pose proof (child_holds d m1 o bs es i ci CT V1 ltac:(lia) En (GE i ci ltac:(lia) En)) as HC. destruct (cv_chunk d m1 o _ es i ci CT V1 ltac:(lia) En) as (D1 & _). pose proof (pbo_range d) as (P1 & _). pose proof (cv_bounds d m o _ es CT V) as B.
        rewrite (IH (etype d i) m0 m1 _ ci t v inc' lo hi HC PO' TI F R (same_in_trans _ _ _ _ _ S S1) L0 L1) by lia. reflexivity.
Qed.
(** an element of variable size is set from what is stored before it, or before
    the element of the tuple that it is in *)
Lemma own_var pa d m o bs es i j c t v inc lo hi : holds d m o bs -> container d -> cv d m o (zlen bs) es ->
  (forall i c, 0 <= i -> nth_error es (Z.to_nat i) = Some (CBytes c) -> good (etype d i) c) -> path_ok (i :: pa) -> 0 <= j -> i <> j ->
  nth_error es (Z.to_nat j) = Some (CBytes c) -> addr d (zlen es) m o j <= lo -> lo <= hi -> hi <= addr d (zlen es) m o j + zlen c ->
  get_type_info d (i :: pa) = Some t -> reads_in t v m lo hi -> is_variable_sized_ t = true ->
  (forall ci, nth_error es (Z.to_nat i) = Some (CBytes ci) -> addr d (zlen es) m o j + zlen c <= addr d (zlen es) m o i) ->
  set_own_internal d (i :: pa) m o v inc true = set_internal d (i :: pa) m o v inc true.
Proof.
  intros H CT V GE PO J NE Ej X1 X2 X3 TI R F BF. pose proof (Forall_inv PO) as I. pose proof (Forall_inv_tail PO) as PO'. cbn beta in I. pose proof CT as [W C].
  destruct (Z_lt_le_dec i (zlen es)) as [L|L].
  2: { destruct pa; cbn [set_own_internal set_internal]; unfold set_own_containee, set_containee; rewrite C; cbn [negb]; rewrite (cv_get_count d m o _ es CT V); cbn [bind]; replace (zlen es <=? i) with true by lia; reflexivity. }
  assert (I' : 0 <= i < zlen es) by lia. rewrite (step_type d m o _ es i pa CT V ltac:(lia)) in TI. pose proof (cv_etype_wf d m o _ es i CT V I') as Wi.
  destruct (type_info_wf pa _ t PO' Wi TI) as [Wt VT]. specialize (VT F). destruct (znth_lt es i I') as [e En].
  destruct (move_apart d m o bs es i j c e CT V ltac:(lia) J NE Ej En VT) as (m1 & E1 & V1 & L1 & S & AP); [intros ci ->; apply (BF ci En)|].
  destruct (pos_spec d (zlen es) i W C (cv_n _ _ _ _ _ V) I') as (Q1 & _). pose proof (same_in_less _ _ _ _ lo hi S ltac:(lia) ltac:(lia)) as S1.
  destruct (cv_chunk d m o _ es j c CT V J Ej) as (A1 & A2 & _). pose proof (cv_bounds d m o _ es CT V) as B. pose proof (h_o _ _ _ _ H) as Ho. pose proof (h_in _ _ _ _ H) as Hl. pose proof (pbo_range d) as (P1 & _). pose proof (zlen_nonneg c) as Zc.
  assert (NB : forall z, e <> CBits z).
  { intros z ->. pose proof (cv_el _ _ _ _ _ V i _ ltac:(lia) En) as (_ & BI & _). destruct (eslot_var (max_size d) _ Wi VT) as (X & _). congruence. }
  destruct pa as [|i2 pa].
  - injection TI as <-. cbn [set_own_internal set_internal]. unfold set_own_containee, set_containee. rewrite C. cbn [negb]. rewrite (cv_get_count d m o _ es CT V). cbn [bind]. replace (zlen es <=? i) with false by lia.
    rewrite (cv_pos d m o _ es i CT V I'). cbn [bind]. rewrite Q1. destruct (is_datum_NULL v); [reflexivity|]. change (is_variable_sized_type_info (etype d i)) with (is_variable_sized_ (etype d i)). rewrite F. cbn [negb]. rewrite E1. cbn [bind].
    rewrite (cv_get_size d m1 o _ es CT V1). cbn [bind]. rewrite (cv_get_ptr d m1 o _ es i e CT V1 ltac:(lia) En). cbn [bind].
    rewrite (own_same (etype d i) v m m1 _ _ _ lo hi R S1); try lia; [reflexivity|]. intros _. destruct e as [|z|ci]; cbn [ptr_of]; [lia|exfalso; apply (NB z); reflexivity|lia].
  - pose proof (own_var_outside (i2 :: pa)) as OUT. cbn [set_own_internal set_internal]. cbn [set_own_internal set_internal] in OUT.
    rewrite C. cbn [negb]. rewrite (cv_get_count d m o _ es CT V). cbn [bind]. replace (zlen es <=? i) with false by lia.
    destruct (if is_variable_sized_type_info d then let* sz := get_size d m o in Ok (Z.min inc (u32 (max_size d - sz))) else Ok inc) as [inc'|]; cbn [bind]; [|reflexivity].
    rewrite (cv_pos d m o _ es i CT V I'). cbn [bind]. rewrite Q1, E1. cbn [bind]. rewrite (cv_get_ptr d m1 o _ es i e CT V1 ltac:(lia) En). cbn [bind].
    destruct e as [|z|ci]; cbn [ptr_of]; [reflexivity|exfalso; apply (NB z); reflexivity|].
    pose proof (child_holds d m1 o bs es i ci CT V1 ltac:(lia) En (GE i ci ltac:(lia) En)) as HC.
    rewrite (OUT (etype d i) m m1 _ ci t v inc' lo hi HC PO' TI F R S1) by lia. reflexivity.
Qed.
