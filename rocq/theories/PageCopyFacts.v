(** * Proofs about storing a value that lies beside the tuple in the same buffer *)
From Verif Require Import CopyProps HashFacts IdentFacts AlikeFacts.
From Verif Require Import SelfSet NestedProps OpFacts SelfSetFacts.
From Coq Require Import ZifyBool ZifyNat ZifyN Zify.
Ltac Zify.zify_post_hook ::= idtac.
Open Scope list_scope.
Open Scope Z_scope.

(** where an element of size [old] at [a] may grow to *)
Definition clear_of (a : Z) (old : res Z) (inc lo hi : Z) : Prop := hi <= a \/ forall n, old = Ok n -> 0 <= n /\ a + n + inc <= lo.
Lemma own_datum_apart t m a (valid : bool) inc v lo hi : reads_in t (seen_in m v) m lo hi -> 0 <= lo -> hi <= zlen m -> hi - lo <= max_bytes -> 0 <= inc ->
  (is_variable_sized_ t = true -> clear_of a (if valid then get_size t m a else Ok 0) inc lo hi) ->
  set_own_datum t m a valid inc v = set_datum t m a valid inc (seen_in m v).
Proof.
  intros R L0 L1 LS Hi D. destruct v as [| | | | | | | | |m' so n|m' so]; try reflexivity. cbn [seen_in reads_in set_own_datum] in *. destruct R as (_ & R1 & R2 & R3).
  destruct (is_variable_sized_type_info t) eqn:V; cbn [andb]; [|reflexivity]. specialize (D V). pose proof (vs_range t) as VS. unfold max_bytes in LS.
  assert (C : forall q w old, 0 <= q <= n -> (if valid then get_size t m a else Ok 0) = Ok old -> size_acceptable t old (u32 (vs t + q)) inc = true ->
    write_value m a (max_size t) q = Ok w -> memmove w (a + vs t) so q = memcopy w (a + vs t) m so q).
  { intros q w old Q O A W. assert (AP : hi <= a \/ a + vs t <= lo).
    { destruct D as [D|D]; [left; exact D|]. right. destruct (D old O) as [D1 D2]. unfold size_acceptable in A. rewrite u32_id in A by lia.
      destruct (Z.ltb_spec old (vs t + q)); [|lia]. rewrite u32_id in A by lia. lia. }
    unfold memmove, memcopy. unfold write_value in W. apply wr_inv in W. destruct W as (W1 & W2 & ->). rewrite zlen_enc_vs in W2.
    assert (K : keep (fun x => x < a \/ a + vs t <= x) m (upd m a (enc (Z.to_nat (value_size (max_size t))) q))).
    { apply (keep_upd' _ _ _ _ (vs t)); auto using zlen_enc_vs; intros; lia. }
    pose proof (keep_len _ _ _ K). rewrite !rd_ok by lia. rewrite (keep_slice _ _ _ _ _ K) by (try lia; cbn beta; intros; lia). reflexivity. }
  destruct (type t) eqn:T; try reflexivity; unfold set_datum; rewrite T, V; cbn [is_datum_NULL negb string_value bind].
  - destruct (strnlen m so n) as [q|] eqn:Q; cbn [bind]; [|reflexivity]. unfold strnlen in Q. apply strnlen_range in Q.
    destruct (if valid then get_size t m a else Ok 0) as [old|] eqn:O; cbn [bind]; [|reflexivity]. destruct (size_acceptable t old (u32 (vs t + q)) inc) eqn:A; [|reflexivity]. cbn [negb].
    destruct (write_value m a (max_size t) q) as [w|] eqn:W; cbn [bind]; [|reflexivity]. rewrite (C q w old ltac:(lia) eq_refl A W). reflexivity.
  - destruct (if valid then get_size t m a else Ok 0) as [old|] eqn:O; cbn [bind]; [|reflexivity]. destruct (size_acceptable t old (u32 (vs t + n)) inc) eqn:A; [|reflexivity]. cbn [negb].
    destruct (write_value m a (max_size t) n) as [w|] eqn:W; cbn [bind]; [|reflexivity]. rewrite (C n w old ltac:(lia) eq_refl A W). reflexivity.
Qed.
Lemma own_same_apart t v m m1 a (valid : bool) inc lo hi : reads_in t v m lo hi -> same_in m m1 lo hi -> 0 <= lo -> hi <= zlen m -> hi - lo <= max_bytes -> 0 <= inc ->
  (is_variable_sized_ t = true -> clear_of a (if valid then get_size t m1 a else Ok 0) inc lo hi) ->
  set_own_datum t m1 a valid inc v = set_datum t m1 a valid inc v.
Proof.
  intros R S L0 L1 LS Hi D. rewrite <- (seen_same t v m m1 a valid inc lo hi R S L0 L1).
  assert (R' : reads_in t (seen_in m1 v) m1 lo hi).
  { destruct v as [| | | | | | | | |m' so n|m' so]; try exact I; cbn [seen_in reads_in] in *.
    - destruct R as (_ & R). split; [reflexivity|exact R].
    - destruct R as (-> & R1 & k & R2 & R3 & R4 & R5). split; [reflexivity|]. split; [exact R1|]. exists k. split; [exact R2|]. split; [exact R3|]. split; [exact R4|].
      intros m2 L2 E2. apply R5; [rewrite L2; apply S|]. rewrite E2. pose proof (proj2 S so k ltac:(lia) ltac:(lia)) as Q. rewrite !rd_ok in Q by (try rewrite (proj1 S); lia). congruence. }
  apply (own_datum_apart t m1 a valid inc v lo hi); auto. rewrite (proj1 S). exact L1.
Qed.

(** the value lies outside of the data and of what they may grow to *)
Definition beside (o s inc lo hi : Z) : Prop := hi <= o \/ o + s + inc <= lo.
Lemma own_var_containee_beside d m0 m o (bs : list byte) es i v inc lo hi : container d -> cv d m o (zlen bs) es -> 0 <= i -> is_variable_sized_ (etype d i) = true ->
  (i < zlen es -> reads_in (etype d i) v m0 lo hi) -> same_in m0 m lo hi -> 0 <= lo -> lo <= hi -> hi <= zlen m -> hi - lo <= max_bytes -> 0 <= inc -> beside o (zlen bs) inc lo hi ->
  set_own_containee d m o i inc v = set_containee d m o i inc v.
Proof.
  intros CT V I F R S L0 L1 L2 LS Hi BS. unfold beside in BS. pose proof CT as [W C]. unfold set_own_containee, set_containee. rewrite C. cbn [negb].
  rewrite (cv_get_count d m o _ es CT V). cbn [bind]. destruct (zlen es <=? i) eqn:L; [reflexivity|]. assert (I' : 0 <= i < zlen es) by lia. specialize (R ltac:(lia)).
  rewrite (cv_pos d m o _ es i CT V I'). cbn [bind]. destruct (pos_spec d (zlen es) i W C (cv_n _ _ _ _ _ V) I') as (Q1 & Q2 & Q3 & Q4). rewrite Q1.
  destruct (is_datum_NULL v); [reflexivity|]. change (is_variable_sized_type_info (etype d i)) with (is_variable_sized_ (etype d i)). rewrite F. cbn [negb].
  pose proof (cv_bounds d m o _ es CT V) as B. pose proof (cv_o _ _ _ _ _ V) as Ho. pose proof (cv_s _ _ _ _ _ V) as Hs. pose proof S as [L3 _]. pose proof (zlen_nonneg bs) as Zb.
  destruct (znth_lt es i I') as [e En]. destruct (move_ok d m o _ es i e CT V I En) as (m1 & E1 & V1 & AE & _ & K1). specialize (AE F). rewrite E1. cbn [bind].
  rewrite (cv_get_size d m1 o _ es CT V1). cbn [bind]. rewrite (cv_get_ptr d m1 o _ es i e CT V1 I En). cbn [bind]. pose proof (keep_len _ _ _ K1) as L4.
  assert (S1 : same_in m m1 lo hi) by (apply (same_in_keep _ _ _ _ _ K1); try lia; cbn beta; intros; lia).
  assert (UN : 0 <= u32 (max_size d - zlen bs)) by (unfold u32; pose proof (Z.mod_pos_bound (max_size d - zlen bs) 4294967296); lia).
  rewrite (own_same_apart (etype d i) v m0 m1 _ _ _ lo hi R (same_in_trans _ _ _ _ _ S S1)); try lia; [reflexivity|]. intros _.
  unfold clear_of. destruct e as [|z|ci]; cbn [ptr_of].
  - destruct BS as [BS|BS]; [left; lia|right; intros k E; injection E as <-; lia].
  - pose proof (cv_el _ _ _ _ _ V i _ I En) as (_ & BI & _). pose proof (cv_etype_wf d m o _ es i CT V I') as Wi. destruct (eslot_var (max_size d) _ Wi F) as (X & _). congruence.
  - destruct (cv_chunk d m1 o _ es i ci CT V1 I En) as (D1 & D2 & D3 & D4 & _). pose proof (pbo_range d) as (P1 & _). pose proof (zlen_nonneg ci) as Zc.
    destruct BS as [BS|BS]; [left; lia|]. right. intros k E. unfold at_end in AE. unfold addr in *. rewrite F in *.
    pose proof (cv_el _ _ _ _ _ V1 i _ I En) as (_ & _ & A & _). destruct (A F) as (A1 & A2 & A3 & A4 & A5).
    rewrite (get_size_local (etype d i) ci m1 (o + slot d (zlen es) m1 o i)) in E by (auto; lia). injection E as <-. lia.
Qed.
Lemma own_var_beside pa : forall d m0 m o bs t v inc lo hi, holds d m o bs -> path_ok pa -> get_type_info d pa = Some t -> is_variable_sized_ t = true ->
  reads_in t v m0 lo hi -> same_in m0 m lo hi -> 0 <= lo -> lo <= hi -> hi <= zlen m -> hi - lo <= max_bytes -> 0 <= inc -> beside o (zlen bs) inc lo hi ->
  set_own_internal d pa m o v inc true = set_internal d pa m o v inc true.
Proof.
  induction pa as [|i pa IH]; intros d m0 m o bs t v inc lo hi H PO TI F R S L0 L1 L2 LS Hi BS; pose proof (h_o _ _ _ _ H) as Ho; pose proof (h_in _ _ _ _ H) as Hl; pose proof S as [L3 _]; pose proof (zlen_nonneg bs) as Zb.
  - injection TI as ->. cbn [set_own_internal set_internal]. rewrite (own_same_apart t v m0 m o true inc lo hi R S L0); try lia; [reflexivity|].
    intros _. unfold clear_of. rewrite (holds_size _ _ _ _ H). destruct BS as [BS|BS]; [left; lia|right; intros k E; injection E as <-; lia].
  - pose proof (Forall_inv PO) as I. pose proof (Forall_inv_tail PO) as PO'. cbn beta in I.
    destruct (is_container_type_info d) eqn:C; [|destruct pa; cbn [set_own_internal set_internal]; unfold set_own_containee, set_containee; rewrite C; cbn [negb]; reflexivity].
    destruct (holds_cv d m o bs H C) as (es & CT & V & Vb & GE). pose proof CT as [W _].
    destruct (Z_lt_le_dec i (zlen es)) as [L|L].
    2: { destruct pa; cbn [set_own_internal set_internal]; unfold set_own_containee, set_containee; rewrite C; cbn [negb]; rewrite (cv_get_count d m o _ es CT V); cbn [bind]; replace (zlen es <=? i) with true by lia; reflexivity. }
    assert (I' : 0 <= i < zlen es) by lia. rewrite (step_type d m o _ es i pa CT V ltac:(lia)) in TI. pose proof (cv_etype_wf d m o _ es i CT V I') as Wi.
    destruct (type_info_wf pa _ t PO' Wi TI) as [Wt VT]. specialize (VT F).
    destruct pa as [|i2 pa].
    + injection TI as <-. cbn [set_own_internal set_internal]. apply (own_var_containee_beside d m0 m o bs es i v inc lo hi CT V ltac:(lia) VT (fun _ => R) S L0 L1 L2 LS Hi BS).
    + cbn [set_own_internal set_internal]. cbn [set_own_internal set_internal] in IH.
      rewrite C. cbn [negb]. rewrite (cv_get_count d m o _ es CT V). cbn [bind]. replace (zlen es <=? i) with false by lia.
      assert (IC : forall inc', (if is_variable_sized_type_info d then let* sz := get_size d m o in Ok (Z.min inc (u32 (max_size d - sz))) else Ok inc) = Ok inc' -> 0 <= inc' <= inc).
      { intros inc' E. destruct (is_variable_sized_type_info d); [|injection E as <-; lia]. destruct (get_size d m o) as [sz|]; [|discriminate]. cbn [bind] in E. injection E as <-.
        unfold u32. pose proof (Z.mod_pos_bound (max_size d - sz) 4294967296). lia. }
      destruct (if is_variable_sized_type_info d then let* sz := get_size d m o in Ok (Z.min inc (u32 (max_size d - sz))) else Ok inc) as [inc'|]; cbn [bind]; [|reflexivity]. specialize (IC inc' eq_refl).
      rewrite (cv_pos d m o _ es i CT V I'). cbn [bind]. destruct (pos_spec d (zlen es) i W C (cv_n _ _ _ _ _ V) I') as (Q1 & _). rewrite Q1.
      destruct (znth_lt es i I') as [e En]. destruct (move_ok d m o _ es i e CT V ltac:(lia) En) as (m1 & E1 & V1 & AE & _ & K1). specialize (AE VT). rewrite E1. cbn [bind]. pose proof (keep_len _ _ _ K1) as L4.
      rewrite (cv_get_ptr d m1 o _ es i e CT V1 ltac:(lia) En). cbn [bind]. pose proof (cv_bounds d m o _ es CT V) as B.
      assert (S1 : same_in m m1 lo hi) by (apply (same_in_keep _ _ _ _ _ K1); try lia; cbn beta; unfold beside in BS; intros; lia).
      destruct e as [|z|ci]; cbn [ptr_of]; [reflexivity| |].
      * pose proof (cv_el _ _ _ _ _ V i _ ltac:(lia) En) as (_ & BF & _). destruct (eslot_var (max_size d) _ Wi VT) as (X & _). congruence.
      * pose proof (child_holds d m1 o bs es i ci CT V1 ltac:(lia) En (GE i ci ltac:(lia) En)) as HC. destruct (cv_chunk d m1 o _ es i ci CT V1 ltac:(lia) En) as (D1 & D2 & _). pose proof (pbo_range d) as (P1 & _).
        rewrite (IH (etype d i) m0 m1 _ ci t v inc' lo hi HC PO' TI F R (same_in_trans _ _ _ _ _ S S1) L0 L1) by (unfold beside in *; lia). reflexivity.
Qed.
Lemma own_beside d pa m o bs t v inc lo hi : holds d m o bs -> path_ok pa -> get_type_info d pa = Some t -> reads_in t v m lo hi -> 0 <= lo -> lo <= hi -> hi <= zlen m -> hi - lo <= max_bytes ->
  0 <= inc -> beside o (zlen bs) inc lo hi -> set_own_element d pa m o v inc = set_element d pa m o v inc.
Proof.
  intros H PO TI R L0 L1 L2 LS Hi BS. unfold set_own_element, set_element. rewrite TI. change (is_variable_sized_type_info t) with (is_variable_sized_ t). destruct (is_variable_sized_ t) eqn:F.
  - exact (own_var_beside pa d m m o bs t v inc lo hi H PO TI F R (same_in_refl _ _ _) L0 L1 L2 LS Hi BS).
  - apply (own_fixed_outside pa d m o bs t v inc lo hi H PO TI F R L0 L1 L2). unfold beside in BS. lia.
Qed.
