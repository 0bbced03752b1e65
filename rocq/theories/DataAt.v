(** * Everything that the library produces is well formed *)
From Verif Require Export ObsFacts PosCacheFacts AlikeFacts.
From Coq Require Import ZifyBool ZifyNat ZifyN Zify.
Ltac Zify.zify_post_hook ::= Z.div_mod_to_equations.

Lemma cut0_idem l : cut0 (cut0 l) = cut0 l.
Proof. induction l as [|b l IH]; [reflexivity|]. cbn [cut0]. destruct (b2z b =? 0) eqn:E; [reflexivity|]. cbn [cut0]. rewrite E, IH. reflexivity. Qed.
Lemma cut0_firstn n : forall l, cut0 (firstn n (cut0 l)) = firstn n (cut0 l).
Proof.
  induction n as [|n IH]; intro l; [reflexivity|]. destruct l as [|b l]; [reflexivity|]. cbn [cut0]. destruct (b2z b =? 0) eqn:E; [reflexivity|].
  cbn [firstn cut0]. rewrite E, IH. reflexivity.
Qed.
Lemma cut0_zeros k : cut0 (zeros k) = [].
Proof. unfold zeros. destruct (Z.to_nat k); reflexivity. Qed.
Lemma cut0_app_zeros l k : cut0 l = l -> cut0 (l ++ zeros k) = l.
Proof.
  induction l as [|b l IH]; intro E; [apply cut0_zeros|]. cbn [cut0 app] in *. destruct (b2z b =? 0); [discriminate|]. injection E as E. rewrite IH by exact E. reflexivity.
Qed.
Lemma upd_whole (m b : mem) : zlen b = zlen m -> upd m 0 b = b.
Proof.
  intro E. pose proof (zlen_nonneg b). rewrite upd_split by lia. rewrite slice_0. replace (zlen m - (0 + zlen b)) with 0 by lia. rewrite slice_0. apply app_nil_r.
Qed.
Lemma sdec_enc n z : 0 < n -> sdec (enc (Z.to_nat n) z) = wrap_s n z.
Proof. intro H. unfold sdec, wrap_s. rewrite dec_enc, zlen_enc, !Z2Nat.id by lia. reflexivity. Qed.

Lemma stored_reads t v e : wf t -> fits t v -> points_good t v -> stored_elem t v e -> exists r, oel t [] e = Ok (Some r) /\ reads_back t v r.
Proof.
  intros W FT PG SE. pose proof (wf_spec t W) as [TV _].
  destruct (match v with DNull => true | _ => false end) eqn:NV.
  { destruct v; try discriminate. cbn in SE. subst e. exists ONull. split; reflexivity. }
  assert (SE' : if is_bit_field t then e = CBits (num_of v mod 2 ^ size t) else exists old, e = CBytes (sbytes t v old) /\ good t (sbytes t v old)).
  { destruct v; try discriminate NV; exact SE. }
  assert (RB : forall r, (match type t with
    | BIT_FIELD => r = OBits (num_of v mod 2 ^ size t)
    | UINT => r = OUint (wrap_u (size t) (num_of v))
    | INT => r = OInt (wrap_s (size t) (num_of v))
    | FLOAT => r = if size t =? 4 then OFloat (num_of v mod 2 ^ 32) else ODouble (num_of v mod 2 ^ 64)
    | LARGE_UINT => r = OLargeUint (wrap_u (size t) (num_of v))
    | LARGE_INT => r = OLargeInt (wrap_s (size t) (num_of v))
    | STRING => if t_variable t then r = OStr (cut0 (str_of v))
                else r = OStr (firstn (Z.to_nat (size t)) (cut0 (str_of v)))
    | BINARY => if t_variable t then r = OStr (str_of v)
                else exists tail, r = OStr (firstn (Z.to_nat (size t)) (str_of v) ++ tail)
                     /\ zlen (firstn (Z.to_nat (size t)) (str_of v) ++ tail) = size t
    | TUPLE | ARRAY =>
        match v with
        | DPtr vm vo => exists s bs, get_size t vm vo = Ok s /\ rd vm vo s = Ok bs /\ r = OData bs
        | _ => exists bs, init_minimal t (repeat Byte.x00 (Z.to_nat (size t))) 0 = Ok (size t, bs) /\ r = OData bs
        end
    end) -> reads_back t v r).
  { intros r R. destruct v; try discriminate NV; exact R. }
  clear SE. destruct (is_bit_field t) eqn:B.
  { subst e. exists (OBits (num_of v mod 2 ^ size t)). split; [reflexivity|]. apply RB. apply is_bit_field_spec in B. rewrite B. reflexivity. }
  destruct SE' as (old & -> & G). pose proof (holds_self _ _ G) as H. exists (obs_self t (sbytes t v old)). split; [apply (observe_self _ _ _ _ H)|]. apply RB. clear RB.
  pose proof (wf_node t W) as (_ & _ & _ & _ & SZ & _ & N). specialize (SZ B).
  pose proof (good_size _ _ G) as (_ & _ & _ & _ & _ & G6).
  unfold obs_self. pose proof (zlen_nonneg (sbytes t v old)) as ZN. revert G6 ZN. unfold sbytes. intros G6 ZN. destruct (type t) eqn:T; rewrite ?T in *.
  - apply is_bit_field_spec in T. congruence.
  - rewrite dec_enc, Z2Nat.id by lia. reflexivity.
  - rewrite sdec_enc by lia. reflexivity.
  - destruct N as [_ [N|N]]; rewrite N; cbn [Z.eqb Pos.eqb]; rewrite dec_enc; reflexivity.
  - rewrite dec_enc, Z2Nat.id by lia. reflexivity.
  - rewrite sdec_enc by lia. reflexivity.
  - destruct (string_layout t W (or_introl T)) as (_ & _ & _ & LV & LF & _). rewrite TV. destruct (is_variable_sized_ t).
    + destruct (LV eq_refl) as [-> _]. rewrite zlen_app, zlen_enc_vs. rewrite slice_app_r by (rewrite zlen_enc_vs; lia). rewrite zlen_enc_vs, Z.sub_diag.
      rewrite slice_all by lia. rewrite cut0_idem. reflexivity.
    + destruct (LF eq_refl) as [-> _]. rewrite slice_all by lia. rewrite cut0_app_zeros by apply cut0_firstn. reflexivity.
  - destruct (string_layout t W (or_intror T)) as (_ & _ & _ & LV & LF & _). rewrite TV. destruct (is_variable_sized_ t).
    + destruct (LV eq_refl) as [-> _]. rewrite zlen_app, zlen_enc_vs. rewrite slice_app_r by (rewrite zlen_enc_vs; lia). rewrite zlen_enc_vs, Z.sub_diag.
      rewrite slice_all by lia. reflexivity.
    + destruct (LF eq_refl) as [-> _]. rewrite slice_all by lia. eexists. split; [reflexivity|]. apply G6. reflexivity.
  - destruct v; try discriminate NV; cbn in FT; try (exfalso; intuition congruence).
    + exists (min_data t). split; [|reflexivity]. rewrite init_minimal_ok by (auto; unfold zlen; rewrite ?repeat_length; lia).
      rewrite upd_whole by (rewrite zlen_min_data by auto; unfold zlen; rewrite repeat_length; lia). reflexivity.
    + destruct PG as (s & P1 & P2 & P3 & P4 & P5). rewrite P3 in *. rewrite P5 in *. exists s, (slice m o s). split; [reflexivity|]. split; [apply rd_ok; lia|reflexivity].
  - destruct v; try discriminate NV; cbn in FT; try (exfalso; intuition congruence).
    + exists (min_data t). split; [|reflexivity]. rewrite init_minimal_ok by (auto; unfold zlen; rewrite ?repeat_length; lia).
      rewrite upd_whole by (rewrite zlen_min_data by auto; unfold zlen; rewrite repeat_length; lia). reflexivity.
    + destruct PG as (s & P1 & P2 & P3 & P4 & P5). rewrite P3 in *. rewrite P5 in *. exists s, (slice m o s). split; [reflexivity|]. split; [apply rd_ok; lia|reflexivity].
Qed.

Lemma init_minimal_inv d m o s m' : wf d -> is_bit_field d = false -> init_minimal d m o = Ok (s, m') ->
  0 <= o /\ o + size d <= zlen m /\ s = size d /\ m' = upd m o (min_data d).
Proof.
  intros W B E. pose proof (size_range_nb d W B) as SR.
  assert (M : exists m1, memset m o Byte.x00 (size d) = Ok m1).
  { unfold init_minimal in E. destruct (type d) eqn:T; try (apply is_bit_field_spec in T; congruence);
    (destruct (negb (is_variable_sized_type_info d)); apply bind_inv in E; destruct E as (m1 & E1 & E2); eauto). }
  destruct M as [m1 M]. unfold memset in M. replace (0 <=? size d) with true in M by lia. apply wr_inv in M. rewrite zlen_repeat in M.
  destruct M as (M1 & M2 & _). rewrite Z2Nat.id in M2 by lia. rewrite init_minimal_ok in E by (auto; lia). injection E as <- <-. auto.
Qed.
Lemma holds_min d m o : wf d -> is_bit_field d = false -> 0 <= o -> o + size d <= zlen m -> holds d (upd m o (min_data d)) o (min_data d).
Proof.
  intros W B Ho Hl. pose proof (zlen_min_data d W B) as Z. pose proof (size_range_nb d W B) as SR. constructor; [exact Ho| | |apply good_min; auto].
  - rewrite zlen_upd by lia. lia.
  - apply slice_upd_same; lia.
Qed.
Lemma holds_copy d m o bs m' o' : holds d m o bs -> 0 <= o' -> o' + zlen bs <= zlen m' -> slice m' o' (zlen bs) = slice m o (zlen bs) -> holds d m' o' bs.
Proof. intros H Ho Hl E. constructor; auto; [|apply (h_good _ _ _ _ H)]. rewrite E. apply (h_slice _ _ _ _ H). Qed.

Lemma get_datum_ptr d m o bs vm vo : holds d m o bs -> get_datum d m o = Ok (Some (DPtr vm vo)) -> vm = m /\ vo = o.
Proof.
  intros H E. unfold get_datum in E. destruct (type d); try discriminate;
  try (apply bind_inv in E; destruct E as (? & _ & E); try (apply bind_inv in E; destruct E as (? & _ & E)); try destruct (size d =? 4); discriminate).
  - injection E as <- <-. auto.
  - injection E as <- <-. auto.
Qed.
Lemma value_ptr pa : forall d m o bs t vm vo, path_ok pa -> holds d m o bs -> get_type_info d pa = Some t -> get_value d pa m o = Ok (Some (DPtr vm vo)) ->
  exists c, vm = m /\ holds t vm vo c /\ reach d pa (CBytes bs) t (CBytes c) /\ element_at d pa m o t vo.
Proof.
  induction pa as [|i pa IH]; intros d m o bs t vm vo PO H TI E.
  - cbn [get_type_info] in TI. injection TI as <-. cbn [get_value] in E. destruct (get_datum_ptr d m o bs vm vo H E) as [-> ->]. exists bs.
    split; [reflexivity|]. split; [exact H|]. split; constructor.
  - pose proof (Forall_inv PO) as I. pose proof (Forall_inv_tail PO) as PO'. cbn beta in I.
    destruct (is_container_type_info d) eqn:C; [|rewrite not_container_value in E by (auto; discriminate); discriminate].
    destruct (holds_cv d m o bs H C) as (es & CT & V & Vb & GE).
    destruct (Z_lt_le_dec i (zlen es)) as [L|L].
    2: { exfalso. destruct pa as [|j pa]; cbn [get_value] in E.
         - unfold get_containee_datum in E. rewrite C in E. cbn [negb] in E. rewrite (cv_get_count d m o _ es CT V) in E. cbn [bind] in E. replace (zlen es <=? i) with true in E by lia. discriminate.
         - rewrite (child_none d m o _ es i CT V L) in E. discriminate. }
    destruct (znth_lt es i ltac:(lia)) as [e En]. rewrite (value_step d m o _ es i e pa CT V ltac:(lia) En) in E. rewrite (step_type d m o _ es i pa CT V ltac:(lia)) in TI.
    destruct e as [|z|c]; [discriminate|destruct pa; discriminate|].
    destruct (IH (etype d i) m _ c t vm vo PO' (child_holds d m o bs es i c CT V ltac:(lia) En (GE i c ltac:(lia) En)) TI E) as (c' & -> & H' & R & EA).
    exists c'. split; [reflexivity|]. split; [exact H'|]. split.
    + econstructor; eauto. lia.
    + econstructor; [|exact EA]. rewrite (child_ok d m o _ es i (CBytes c) CT V ltac:(lia) En). reflexivity.
Qed.

Lemma holds_points t v : (forall vm vo, v = DPtr vm vo -> exists bs, holds t vm vo bs) -> points_good t v.
Proof.
  intro H. destruct v; try exact I. destruct (H _ _ eq_refl) as [bs Hb]. exists (zlen bs).
  pose proof (h_slice _ _ _ _ Hb) as E. split; [apply (h_o _ _ _ _ Hb)|]. split; [apply (h_in _ _ _ _ Hb)|]. split; [apply (holds_size _ _ _ _ Hb)|].
  rewrite E. split; [apply (h_good _ _ _ _ Hb)|reflexivity].
Qed.
Lemma room_bytes d m o inc bs : room d m o inc -> holds d m o bs -> 0 <= inc < 4294967296 /\ (is_variable_sized_ d = true -> o + Z.min (zlen bs + inc) (max_size d) <= zlen m).
Proof. intros [R1 R2] H. split; [exact R1|]. intro V. apply R2; [exact V|]. apply (holds_size _ _ _ _ H). Qed.
Lemma limits_bytes d pa m o bs t slots : path_ok pa -> holds d m o bs -> get_type_info d pa = Some t -> is_variable_element_count t = true ->
  (forall t a s n, element_at d pa m o t a -> get_size t m a = Ok s -> get_element_count t m a = Ok n -> expand_limits t s n slots) ->
  forall t' c es, reach d pa (CBytes bs) t' (CBytes c) -> cv t' c 0 (zlen c) es -> expand_limits t' (zlen c) (zlen es) slots.
Proof.
  intros PO H TI VC L t' c es R V. pose proof (reach_type pa d _ t' _ PO R) as TI'. rewrite TI in TI'. injection TI' as <-.
  destruct (vcount_container t VC) as [C _].
  destruct (reach_element pa d m o bs t c H R) as (a & EA & Ha). apply (L t a); auto.
  - apply (holds_size _ _ _ _ Ha).
  - destruct (holds_cv t m a c Ha C) as (es' & CT & V1 & V2 & _). rewrite (cv_same0 t c es es' CT V V2). apply (cv_get_count _ _ _ _ _ CT V1).
Qed.
Theorem data_holds d m o : data_at d m o -> exists bs, holds d m o bs.
Proof.
  intro D. induction D as [t d m o s m' TB F B Ho E | d m o pa v inc r m' D [bs H] PO RM FT DP IHP E | d m o pa index slots inc r m' D [bs H] PO RM HI LIM E
    | d m o pa index slots r m' D [bs H] PO HI HS E | d m o i r m' c D [bs H] HI E | d m o s m' o' D [bs H] GS Ho' Hl SL | d m o pa t vm vo D [bs H] PO TI E
    | t d0 pa d d' m o TB F PO TI SN ID D [bs H]].
  - destruct (built_finalized t d TB F) as [W _]. destruct (init_minimal_inv d m o s m' W B E) as (_ & Hl & -> & ->). eexists. apply holds_min; auto.
  - unfold set_element in E. destruct (get_type_info d pa) as [t|] eqn:TI; [|injection E as _ <-; eauto].
    destruct (room_bytes d m o inc bs RM H) as [RI RR].
    destruct (nested_set pa d m o bs inc v t PO H TI (FT t eq_refl) (holds_points t v (fun vm vo EV => IHP t vm vo eq_refl EV)) RI RR) as (r1 & m1 & E1 & (bs' & H' & _) & _).
    change (is_variable_sized_type_info t) with (is_variable_sized_ t) in E. rewrite E1 in E. injection E as _ <-. eauto.
  - unfold expand_element, is_expandable in E. destruct (get_type_info d pa) as [t|] eqn:TI; [|injection E as _ <-; eauto].
    destruct (is_variable_element_count t) eqn:VC; [|injection E as _ <-; eauto]. cbn [negb] in E.
    destruct (room_bytes d m o inc bs RM H) as [RI RR].
    destruct (good_size _ _ (h_good _ _ _ _ H)) as (W & _). destruct (vcount_container t VC) as [_ Vt]. destruct (type_info_wf pa d t PO W TI) as [_ VU].
    destruct (nested_expand pa d m o bs index slots inc t PO H TI VC ltac:(lia) RI (limits_bytes d pa m o bs t slots PO H TI VC LIM) (RR (VU Vt))) as (r1 & m1 & E1 & (bs' & H' & _) & _).
    rewrite E1 in E. injection E as _ <-. eauto.
  - unfold discard_elements, is_expandable in E. destruct (get_type_info d pa) as [t|] eqn:TI; [|injection E as _ <-; eauto].
    destruct (is_variable_element_count t) eqn:VC; [|injection E as _ <-; eauto]. cbn [negb] in E.
    destruct (nested_discard pa d m o bs index slots t PO H TI VC HI HS) as (r1 & m1 & E1 & (bs' & H' & _) & _).
    rewrite E1 in E. injection E as _ <-. eauto.
  - destruct (is_container_type_info d) eqn:C; [|unfold move_element_to_end in E; rewrite on_leaf in E by exact C; injection E as _ <- _; eauto].
    destruct (holds_cv d m o bs H C) as (es & CT & V & _ & GE).
    destruct (move_one d m o bs es i None H CT V GE ltac:(lia) I) as (b & m1 & bs' & E1 & H' & _). rewrite E1 in E. injection E as _ <- _. eauto.
  - exists bs. rewrite (holds_size _ _ _ _ H) in GS. injection GS as <-. apply (holds_copy d m o); auto.
  - destruct (value_ptr pa d m o bs t vm vo PO H TI E) as (c & _ & Hc & _). eauto.
  - exists bs. destruct (built_finalized t d0 TB F) as [W0 _]. destruct (type_info_wf pa d0 d' PO W0 TI) as [W' _]. destruct (good_size _ _ (h_good _ _ _ _ H)) as (W & _).
    apply (alike_holds d); [|exact H]. split; [exact W|]. split; [exact W'|]. apply identical_true; auto.
Qed.

(** a zero element *)
Lemma zeros_min t : is_variable_sized_ t = false -> min_data t = zeros (size t).
Proof. intro V. unfold min_data. rewrite V. reflexivity. Qed.

(** ** data that has not been set *)
Lemma nullable_spec t : wf t -> nullable t = is_nullable_type_info t.
Proof. intro W. pose proof (wf_spec t W) as [TV _]. unfold nullable, is_nullable_type_info. change (is_variable_sized_type_info t) with (is_variable_sized_ t). rewrite TV. apply orb_comm. Qed.
Lemma min_elements_spec d : wf d -> is_container_type_info d = true -> min_elements d = min_count d.
Proof.
  intros W C. pose proof (wf_node d W) as (_ & _ & _ & _ & _ & _ & N). unfold min_elements, min_count, is_variable_element_count, element_count.
  change (is_variable_sized_type_info d) with (is_variable_sized_ d). rewrite C. cbn [negb]. unfold is_container_type_info in C.
  destruct (type d) eqn:T; try discriminate.
  - destruct N as (-> & _). destruct (has_variable_element_count d); reflexivity.
  - destruct N as (-> & _). destruct (has_variable_element_count d); reflexivity.
  - destruct (negb (is_variable_sized_ d)); reflexivity.
  - destruct N as (c & _ & N & _). rewrite N. destruct (has_variable_element_count d); [reflexivity|]. destruct (is_variable_sized_ c); reflexivity.
Qed.
Lemma dec_zeros n : dec (zeros n) = 0.
Proof. unfold zeros. induction (Z.to_nat n) as [|k IH]; [reflexivity|]. cbn [repeat dec]. rewrite IH. reflexivity. Qed.
Lemma sdec_zeros n : 0 < n -> sdec (zeros n) = 0.
Proof.
  intro H. unfold sdec. rewrite dec_zeros. unfold zeros. rewrite zlen_repeat, Z2Nat.id by lia. 
  assert (0 < 256 ^ n / 2). { apply Z.div_str_pos. replace n with (Z.succ (n - 1)) by lia. rewrite Z.pow_succ_r by lia. assert (0 < 256 ^ (n - 1)) by (apply Z.pow_pos_nonneg; lia). lia. }
  replace (0 <? 256 ^ n / 2) with true by lia. reflexivity.
Qed.
Lemma zlen_zeros n : 0 <= n -> zlen (zeros n) = n.
Proof. intro. unfold zeros. rewrite zlen_repeat. lia. Qed.

Lemma unset_self d : wf d -> is_bit_field d = false -> (type d = TUPLE \/ type d = ARRAY -> is_variable_sized_ d = false) -> obs_self d (min_data d) = zero_value d.
Proof.
  intros W B X. pose proof (wf_node d W) as (_ & _ & _ & _ & SZ & _ & N). specialize (SZ B). pose proof (wf_spec d W) as [TV TS].
  unfold obs_self, zero_value. destruct (type d) eqn:T;
    try (destruct N as [N _]; rewrite (zeros_min d N), ?dec_zeros, ?sdec_zeros by lia; reflexivity).
  - apply is_bit_field_spec in T. congruence.
  - destruct (string_layout d W (or_introl T)) as (HS & _ & _ & LV & LF & _). unfold min_data. rewrite HS, Bool.andb_false_r.
    f_equal. rewrite zlen_zeros by lia. unfold zeros at 1. destruct (is_variable_sized_ d).
    + destruct (LV eq_refl) as [-> ->]. rewrite Z.sub_diag, slice_0. reflexivity.
    + destruct (LF eq_refl) as [-> _]. rewrite slice_all by (rewrite zlen_repeat; lia). apply cut0_zeros.
  - destruct (string_layout d W (or_intror T)) as (HS & _ & _ & LV & LF & _). unfold min_data. rewrite HS, Bool.andb_false_r.
    f_equal. rewrite zlen_zeros by lia. destruct N as (N1 & _ & _ & N2 & _). destruct (is_variable_sized_ d); rewrite <- N1 in *.
    + destruct (LV eq_refl) as [-> ->]. rewrite Z.sub_diag, slice_0. reflexivity.
    + destruct (LF eq_refl) as [-> _]. rewrite slice_all by (rewrite zlen_zeros; lia). unfold zeros. rewrite N2. reflexivity.
  - rewrite zeros_min by auto. rewrite TS. reflexivity.
  - rewrite zeros_min by auto. rewrite TS. reflexivity.
Qed.
Lemma leaf_elements d : is_container_type_info d = false -> min_elements d = 0.
Proof. unfold is_container_type_info, min_elements. destruct (type d); try discriminate; reflexivity. Qed.
Lemma nullable_false t : wf t -> nullable t = false -> is_variable_sized_ t = false /\ is_nullable_type_info t = false.
Proof.
  intros W N. rewrite nullable_spec in N by exact W. split; [|exact N]. unfold is_nullable_type_info in N. change (is_variable_sized_type_info t) with (is_variable_sized_ t) in N.
  destruct (is_variable_sized_ t); [discriminate|reflexivity].
Qed.
Theorem unset_reads pa : forall d, path_ok pa -> wf d -> is_bit_field d = false -> (pa = [] -> type d = TUPLE \/ type d = ARRAY -> is_variable_sized_ d = false) ->
  observe d pa (min_data d) 0 = Ok (unset_reading d pa).
Proof.
  induction pa as [|i pa IH]; intros d PO W B X.
  - rewrite (observe_self d (min_data d) 0 _ (holds_self _ _ (good_min d W B))). cbn [unset_reading]. rewrite unset_self by auto. reflexivity.
  - pose proof (Forall_inv PO) as I. pose proof (Forall_inv_tail PO) as PO'. cbn beta in I. cbn [unset_reading].
    destruct (is_container_type_info d) eqn:C; [|rewrite observe_leaf by exact C; rewrite leaf_elements by exact C; replace (i <? 0) with false by lia; reflexivity].
    assert (CT : container d) by (split; auto). pose proof (cv_min d CT) as V. pose proof (good_min d W B) as G.
    assert (V' : cv d (min_data d) 0 (zlen (min_data d)) (zes d (min_count d))) by (rewrite zlen_min_data by auto; exact V).
    pose proof (min_count_ok d W C) as MC. pose proof MC as [MC0 _]. rewrite min_elements_spec by auto.
    destruct (i <? min_count d) eqn:L.
    2: { apply (observe_out d _ 0 _ _ i pa CT V'). rewrite zlen_zes; lia. }
    assert (En : nth_error (zes d (min_count d)) (Z.to_nat i) = Some (zelem (etype d i))).
    { unfold zes. rewrite nth_seq_map by lia. rewrite Z2Nat.id by lia. reflexivity. }
    rewrite (observe_step d _ _ i _ pa CT G V' ltac:(lia) En PO').
    cbn [get_type_info]. rewrite (ctype_some d (min_count d) i CT MC) by lia.
    pose proof (etype_wf d _ i W C MC ltac:(lia)) as Wt. rewrite (nullable_spec _ Wt).
    unfold zelem. destruct (is_nullable_type_info (etype d i)) eqn:NT; [reflexivity|].
    destruct (nullable_false _ Wt ltac:(rewrite nullable_spec; auto)) as [VF _].
    destruct (is_bit_field (etype d i)) eqn:Bt.
    + cbn [oel]. destruct pa as [|j pa]; cbn [unset_reading].
      * unfold zero_value. apply is_bit_field_spec in Bt. rewrite Bt. reflexivity.
      * pose proof (Forall_inv PO') as J. cbn beta in J. apply is_bit_field_spec in Bt. rewrite leaf_elements by (unfold is_container_type_info; rewrite Bt; reflexivity).
        replace (j <? 0) with false by lia. reflexivity.
    + cbn [oel]. rewrite <- zeros_min by exact VF. apply IH; auto.
Qed.
Lemma unset_element_reads t pa : wf t -> path_ok pa -> oel t pa (zelem t) = Ok (unset_element t pa).
Proof.
  intros W PO. unfold unset_element, zelem. rewrite (nullable_spec t W). destruct (is_nullable_type_info t) eqn:NT; [reflexivity|].
  destruct (nullable_false _ W ltac:(rewrite nullable_spec; auto)) as [VF _]. destruct (is_bit_field t) eqn:B.
  - cbn [oel]. destruct pa as [|j pa]; cbn [unset_reading].
    + unfold zero_value. apply is_bit_field_spec in B. rewrite B. reflexivity.
    + pose proof (Forall_inv PO) as J. cbn beta in J. apply is_bit_field_spec in B. rewrite leaf_elements by (unfold is_container_type_info; rewrite B; reflexivity).
      replace (j <? 0) with false by lia. reflexivity.
  - cbn [oel]. rewrite <- zeros_min by exact VF. apply unset_reads; auto.
Qed.
