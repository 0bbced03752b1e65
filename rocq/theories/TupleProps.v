(** * Properties of tuples and their elements: C30 to C37 *)
From Verif Require Import OpFacts SizeProps.
From Coq Require Import ZifyBool ZifyNat ZifyN Zify.
Ltac Zify.zify_post_hook ::= Z.div_mod_to_equations.

(** ** C30 *)
(** the bytes that [init_tuple] writes depend on the type only, as many as the
    smallest tuple has; the size definition alone gives the same bytes; every
    element reads as unset *)
Theorem C30_minimal_tuple d0 t d sd : type_built t -> finalize t = (true, d) -> initialize_size_def d0 t = Some sd ->
  exists b, zlen b = t_size d /\ min_tuple_size sd = t_size d
  /\ forall m o, 0 <= o -> o + t_size d <= zlen m ->
     let m' := upd m o b in
     init_tuple d m o = Ok m' /\ init_minimal_tuple_sd sd m o = Ok (t_size d, m')
     /\ data_at d m' o /\ get_size d m' o = Ok (t_size d) /\ tuple_size sd m' o = Ok (t_size d)
     /\ element_count_of d [] m' o = Ok (min_elements d)
     /\ forall pa, path_ok pa -> (pa = [] -> type d = TUPLE \/ type d = ARRAY -> t_variable d = false) ->
          observe d pa m' o = Ok (unset_reading d pa).
Proof.
  intros TB F E. destruct (size_def_of_type d0 t d sd TB F E) as (W & NB & V & S0 & M & _). destruct (wf_spec d W) as [TV TS].
  assert (B : is_bit_field d = false) by (unfold is_bit_field; destruct (type d); congruence || reflexivity).
  exists (min_data d). rewrite TS. split; [apply zlen_min_data; auto|]. split; [unfold min_tuple_size; rewrite S0; reflexivity|].
  intros m o Ho Hl m'. pose proof (init_minimal_ok d m o W B Ho Hl) as IM. assert (H : holds d m' o (min_data d)) by apply (holds_min d m o W B Ho Hl).
  pose proof (size_range_nb d W B) as SR. pose proof (zlen_min_data d W B) as ZM.
  split. { unfold init_tuple. rewrite IM. reflexivity. }
  split.
  { unfold init_minimal_tuple_sd. rewrite V. unfold init_minimal in IM. change (is_variable_sized_type_info d) with (is_variable_sized_ d) in IM.
    assert (IM' : (if negb (is_variable_sized_ d) then let* m1 := memset m o Byte.x00 (size d) in Ok (size d, m1)
      else let* m1 := memset m o Byte.x00 (size d) in
           let* m2 := if has_size_in_prefix d then write_value m1 (o + 0) (max_size d) (size d) else Ok m1 in Ok (size d, m2)) = Ok (size d, m'))
      by (destruct (type d); congruence || exact IM).
    rewrite S0. destruct (is_variable_sized_ d); cbn [negb] in *; [|exact IM'].
    destruct (M eq_refl) as (-> & -> & _). rewrite Z.add_0_r in IM'. exact IM'. }
  split; [exact (da_init t d m o _ m' TB F B Ho IM)|].
  assert (GS : get_size d m' o = Ok (size d)) by (rewrite (holds_size _ _ _ _ H), ZM; reflexivity).
  split; [exact GS|]. split; [rewrite (C29_same_size d0 t d sd TB F E); exact GS|]. split.
  { destruct (is_container_type_info d) eqn:C; [|rewrite count_leaf, leaf_elements by exact C; reflexivity].
    rewrite (count_local [] d m' o _ (Forall_nil _) H). cbn [element_count_of].
    assert (CT : container d) by (split; auto). pose proof (cv_min d CT) as Vm. rewrite <- ZM in Vm.
    rewrite (cv_get_count d _ 0 _ _ CT Vm), zlen_zes, min_elements_spec by (auto; apply (min_count_ok d W C)). reflexivity. }
  intros pa PO X. rewrite (observe_local pa d m' o _ PO H). apply unset_reads; auto. intros -> K. rewrite <- TV. auto.
Qed.
Print Assumptions C30_minimal_tuple.

(** ** C31 *)
Lemma prefix_spec d : container d -> starts_with_size d = has_size_in_prefix d /\ stores_count d = is_variable_element_count d /\ prefix_bytes d = pbo d.
Proof.
  intros [W C]. pose proof (wf_node d W) as (_ & _ & _ & _ & _ & _ & N). destruct (wf_spec d W) as [TV _].
  assert (A : starts_with_size d = has_size_in_prefix d /\ stores_count d = is_variable_element_count d).
  { unfold starts_with_size, stores_count, has_size_in_prefix, is_variable_element_count. rewrite C. cbn [negb].
    change (is_variable_sized_type_info d) with (is_variable_sized_ d). unfold is_container_type_info in C. destruct (type d) eqn:T; try discriminate.
    - destruct N as (-> & _). destruct (has_variable_element_count d); auto.
    - destruct N as (-> & _). destruct (has_variable_element_count d); auto.
    - rewrite TV. destruct (is_variable_sized_ d); auto.
    - destruct N as (c & E & Vd & _). pose proof W as W'. apply wf_unfold in W'. rewrite T, E in W'. destruct W' as [_ Wc]. specialize (Wc c eq_refl). rewrite E, Vd, (proj1 (wf_spec c Wc)).
      unfold containee. rewrite E. change (is_variable_sized_type_info c) with (is_variable_sized_ c).
      destruct (has_variable_element_count d), (is_variable_sized_ c); auto. }
  destruct A as [A1 A2]. split; [exact A1|]. split; [exact A2|].
  unfold prefix_bytes, offset_of_prefix_bitmap, offset_of_prefix_count, bytes_for_prefix_size, bytes_for_prefix_count, has_element_count_in_prefix. rewrite A1, A2.
  destruct (has_size_in_prefix d), (is_variable_element_count d); cbn [b2n]; lia.
Qed.
Lemma parts_spec d n i : container d -> count_ok d n -> 0 <= i < n ->
  let c := etype d i in
  element_parts d (pos d n i) =
    (if needs_is_valid_bit c then [(8 * pbo d + sb d i, 1)] else [])
    ++ [if is_bit_field c then (8 * pbo d + sb d i + b2n (needs_is_valid_bit c), size c) else (8 * so d n i, 8 * eslot (max_size d) c)].
Proof.
  intros [W C] CN I c. destruct (pos_spec d n i W C CN I) as (Q1 & Q2 & Q3 & Q4). unfold element_parts. rewrite Q1. fold c in Q2, Q3, Q4 |- *.
  destruct (prefix_spec d (conj W C)) as (_ & _ & ->). pose proof (etype_wf d n i W C CN I) as Wt. fold c in Wt. destruct (wf_spec c Wt) as [TV TS].
  f_equal.
  - unfold validity_bits. rewrite TV. unfold needs_is_valid_bit in *. change (is_variable_sized_type_info c) with (is_variable_sized_ c) in *.
    destruct (negb (is_variable_sized_ c) && is_nullable c) eqn:E; cbn [Z.eqb Pos.eqb]; [|reflexivity]. rewrite (Q2 eq_refl). reflexivity.
  - destruct (is_bit_field c) eqn:B; [rewrite (Q3 eq_refl); do 2 f_equal; lia|]. rewrite (Q4 eq_refl). unfold slot_bytes, eslot. rewrite B, TV, TS. reflexivity.
Qed.
(** the parts of an element lie in its bits of the bitmap or its slot *)
Lemma part_in d n i x : container d -> count_ok d n -> 0 <= i < n -> In x (element_parts d (pos d n i)) ->
  0 <= snd x /\ ((8 * pbo d + sb d i <= fst x /\ fst x + snd x <= 8 * pbo d + sb d i + ebits (etype d i) /\ 0 < snd x)
     \/ (is_bit_field (etype d i) = false /\ x = (8 * so d n i, 8 * eslot (max_size d) (etype d i)))).
Proof.
  intros CT CN I. rewrite (parts_spec d n i CT CN I). cbv zeta. pose proof CT as [W C]. pose proof (etype_wf d n i W C CN I) as Wt.
  pose proof (ebits_parts _ Wt) as (EP1 & EP2 & EP3 & EP4).
  assert (ES : 0 <= eslot (max_size d) (etype d i)).
  { unfold eslot. pose proof (value_size_range (max_size d)). pose proof (wf_node _ Wt) as (_ & Sz & _). destruct (is_bit_field (etype d i)), (is_variable_sized_ (etype d i)); lia. }
  intro X. apply in_app_or in X. destruct X as [X|X].
  - destruct (needs_is_valid_bit (etype d i)); [|contradiction]. destruct X as [<-|[]]. cbn [fst snd b2n] in *. split; [lia|]. left.
    destruct (is_bit_field (etype d i)); lia.
  - destruct X as [<-|[]]. destruct (is_bit_field (etype d i)) eqn:B; cbn [fst snd].
    + specialize (EP3 eq_refl). split; [lia|]. left. lia.
    + split; [lia|]. right. auto.
Qed.

(** for data of any container type with any number of elements: prefix, bitmap
    and slots of the elements lie inside the data, for a fixed number of
    elements inside the smallest size, and no two of them overlap *)
Theorem C31_element_layout d m o : data_at d m o -> is_container_type_info d = true ->
  exists s n, get_size d m o = Ok s /\ element_count_of d [] m o = Ok n /\ t_size d <= s
  /\ (t_variable d = true -> s <= max_size d) /\ (t_variable d = false -> s = t_size d)
  /\ let bits := 8 * (if stores_count d then s else t_size d) in
  (forall i, 0 <= i < n -> exists p, get_pos d m o i = Ok p /\ get_type_info d [i] = Some (pi_type p)
     /\ ForallOrdPairs apart (prefix_parts d ++ element_parts d p) /\ Forall (part_within bits) (prefix_parts d ++ element_parts d p))
  /\ (forall i j p q, 0 <= i < n -> 0 <= j < n -> i <> j -> get_pos d m o i = Ok p -> get_pos d m o j = Ok q ->
        Forall (fun a => Forall (apart a) (element_parts d q)) (element_parts d p)).
Proof.
  intros D C. destruct (data_holds d m o D) as [bs H]. destruct (holds_cv d m o bs H C) as (es & CT & V & Vb & _). pose proof CT as [W _].
  destruct (good_size _ _ (h_good _ _ _ _ H)) as (_ & _ & G3 & G4 & G5 & G6). destruct (wf_spec d W) as [TV TS].
  exists (zlen bs), (zlen es). split; [apply (holds_size _ _ _ _ H)|]. split; [apply (cv_get_count d m o _ es CT V)|]. rewrite TS, TV.
  pose proof (cv_n _ _ _ _ _ V) as CN. destruct (prefix_spec d CT) as (PS1 & PS2 & PS3).
  pose proof (cv_tot _ _ _ _ _ V) as TT. pose proof (vtot_nonneg d es 0) as VN.
  assert (FB : FS d (zlen es) <= (if stores_count d then zlen bs else size d) /\ size d <= zlen bs).
  { pose proof (min_size_FS d W C) as MF. rewrite PS2. destruct (is_variable_element_count d) eqn:VC.
    - split; [lia|]. unfold min_count in MF. rewrite VC in MF.
      assert (FS d 0 <= FS d (zlen es)).
      { pose proof (zlen_nonneg es). unfold FS, so. rewrite sb_0, ss_0. pose proof (sb_nonneg d _ (zlen es) W C CN ltac:(lia)). pose proof (ss_nonneg d _ (zlen es) W C CN ltac:(lia)). unfold bitmap_size_in_bytes. lia. }
      lia.
    - unfold min_count in MF. rewrite VC in MF. rewrite <- (proj2 CN VC) in MF. lia. }
  destruct FB as [FB SB]. split; [exact SB|]. split; [exact G5|]. split; [exact G6|]. cbv zeta. set (lim := if stores_count d then zlen bs else size d) in *. clearbody lim.
  pose proof (pbo_range d) as (P1 & P2 & P3 & P4 & P5 & P6).
  assert (PB : 8 * pbo d + sb d (zlen es) <= 8 * (pbo d + bitmap_size_in_bytes (sb d (zlen es)))) by (unfold bitmap_size_in_bytes; lia).
  assert (RANGE : forall i, 0 <= i < zlen es -> 0 <= sb d i /\ sb d i + ebits (etype d i) <= sb d (zlen es) /\ 0 <= ss d i /\ ss d i + eslot (max_size d) (etype d i) <= ss d (zlen es)).
  { intros i I. pose proof (sb_before d _ i (zlen es) W C CN ltac:(lia) ltac:(lia) ltac:(lia)). pose proof (ss_before d _ i (zlen es) W C CN ltac:(lia) ltac:(lia) ltac:(lia)). lia. }
  assert (BIG : forall i x, 0 <= i < zlen es -> In x (element_parts d (pos d (zlen es) i)) -> 8 * pbo d <= fst x /\ 0 <= snd x /\ fst x + snd x <= 8 * lim).
  { intros i x I X. destruct (part_in d _ i x CT CN I X) as [X0 [X1|[_ ->]]]; specialize (RANGE i I); unfold FS, so in FB.
    - pose proof (ss_nonneg d _ (zlen es) W C CN ltac:(lia)). lia.
    - cbn [fst snd] in *. unfold so. pose proof (sb_nonneg d _ (zlen es) W C CN ltac:(lia)). unfold bitmap_size_in_bytes in *. lia. }
  assert (PRE : forall x, In x (prefix_parts d) -> 0 <= fst x /\ 0 <= snd x /\ fst x + snd x <= 8 * pbo d).
  { intros x X. unfold prefix_parts in X. rewrite PS1, PS2 in X. rewrite <- PS3. unfold prefix_bytes. rewrite PS1, PS2. pose proof (value_size_range (max_size d)).
    destruct (has_size_in_prefix d), (is_variable_element_count d); cbn -[value_size Z.mul] in X; intuition (subst; cbn -[value_size Z.mul]; lia). }
  split.
  - intros i I. exists (pos d (zlen es) i). split; [apply (cv_pos d m o _ es i CT V I)|].
    split. { cbn [get_type_info]. rewrite (ctype_some d _ i CT CN I). destruct (pos_spec d _ i W C CN I) as (-> & _). reflexivity. }
    split.
    + assert (E1 : ForallOrdPairs apart (prefix_parts d)).
      { unfold prefix_parts. rewrite PS1, PS2. destruct (has_size_in_prefix d), (is_variable_element_count d); cbn -[value_size Z.mul]; repeat constructor; unfold apart; cbn -[value_size Z.mul]; lia. }
      assert (E2 : ForallOrdPairs apart (element_parts d (pos d (zlen es) i))).
      { rewrite (parts_spec d _ i CT CN I). cbv zeta. specialize (RANGE i I). unfold so.
        pose proof (sb_nonneg d _ (zlen es) W C CN ltac:(lia)). unfold bitmap_size_in_bytes in *.
        pose proof (etype_wf d _ i W C CN I) as Wt. pose proof (ebits_parts _ Wt) as (EP1 & _).
        destruct (needs_is_valid_bit (etype d i)), (is_bit_field (etype d i)); cbn -[Z.mul Z.div]; repeat constructor; unfold apart; cbn -[Z.mul Z.div]; cbn [b2n] in *; lia. }
      assert (E3 : forall x y, In x (prefix_parts d) -> In y (element_parts d (pos d (zlen es) i)) -> apart x y).
      { intros x y X Y. specialize (PRE x X). specialize (BIG i y I Y). unfold apart. lia. }
      revert E1 E3. generalize (prefix_parts d). induction l as [|x l IH]; intros E1 E3; [exact E2|]. cbn [app]. inversion E1; subst. constructor.
      * apply Forall_app. split; [assumption|]. apply Forall_forall. intros y Y. apply E3; [left; reflexivity|exact Y].
      * apply IH; [assumption|]. intros a b A Bb. apply E3; [right; exact A|exact Bb].
    + apply Forall_app. split; apply Forall_forall; intros x X.
      * specialize (PRE x X). unfold part_within. pose proof (sb_nonneg d _ (zlen es) W C CN ltac:(lia)). pose proof (ss_nonneg d _ (zlen es) W C CN ltac:(lia)).
        unfold FS, so, bitmap_size_in_bytes in FB. lia.
      * specialize (BIG i x I X). unfold part_within. lia.
  - intros i j p q I J NE Ep Eq. rewrite (cv_pos d m o _ es i CT V I) in Ep. rewrite (cv_pos d m o _ es j CT V J) in Eq. injection Ep as <-. injection Eq as <-.
    assert (ORD : forall i j, 0 <= i < zlen es -> 0 <= j < zlen es -> i < j -> forall x y, In x (element_parts d (pos d (zlen es) i)) -> In y (element_parts d (pos d (zlen es) j)) -> apart x y).
    { clear i j I J NE. intros i j I J LT x y X Y. destruct (part_in d _ i x CT CN I X) as [X0 X1]. destruct (part_in d _ j y CT CN J Y) as [Y0 Y1].
      pose proof (sb_before d _ i j W C CN ltac:(lia) ltac:(lia) ltac:(lia)). pose proof (ss_before d _ i j W C CN ltac:(lia) ltac:(lia) ltac:(lia)).
      pose proof (RANGE i I). pose proof (RANGE j J). unfold apart, so in *. pose proof (sb_nonneg d _ (zlen es) W C CN ltac:(lia)). unfold bitmap_size_in_bytes in *.
      destruct X1 as [X1|[_ ->]], Y1 as [Y1|[_ ->]]; cbn [fst snd] in *; lia. }
    apply Forall_forall. intros x X. apply Forall_forall. intros y Y. destruct (Z.lt_total i j) as [L|[L|L]]; [apply (ORD i j); auto|lia|].
    destruct (ORD j i J I L y x Y X); [right|left]; assumption.
Qed.
Print Assumptions C31_element_layout.

(** the positions that [finalize_type_info] gives to the elements of a TUPLE *)
Theorem C31_finalized_layout t d : type_built t -> finalize t = (true, d) -> is_bit_field d = false ->
  1 <= t_size d /\ (t_variable d = true -> t_size d <= max_size d)
  /\ (type d = TUPLE -> forall i p c, nth_error (containees d) i = Some (p, c) ->
        let parts := element_parts d (mk_pinfo (p_off p) (p_valid p) c) in
        ForallOrdPairs apart (prefix_parts d ++ parts) /\ Forall (part_within (8 * t_size d)) (prefix_parts d ++ parts)
        /\ forall j q c', nth_error (containees d) j = Some (q, c') -> i <> j ->
             Forall (fun a => Forall (apart a) (element_parts d (mk_pinfo (p_off q) (p_valid q) c'))) parts).
Proof.
  intros TB F B. destruct (built_finalized t d TB F) as [W _]. destruct (wf_spec d W) as [TV TS]. pose proof (size_range_nb d W B) as SR.
  pose proof (wf_node d W) as (_ & _ & _ & _ & _ & SM & _). rewrite TV, TS. split; [lia|]. split; [exact SM|].
  intros T i p c Ei. set (m := zeros (size d)). assert (Zm : zlen m = size d) by (apply zlen_zeros; lia).
  pose proof (init_minimal_ok d m 0 W B ltac:(lia) ltac:(lia)) as IM.
  assert (D : data_at d (upd m 0 (min_data d)) 0) by (apply (da_init t d m 0 (size d) _ TB F B); [lia|exact IM]).
  assert (C : is_container_type_info d = true) by (unfold is_container_type_info; rewrite T; reflexivity).
  destruct (C31_element_layout d _ 0 D C) as (s & n & _ & EC & _ & _ & _ & L1 & L2).
  assert (SC : stores_count d = false) by (unfold stores_count; rewrite T; reflexivity). rewrite SC, TS in L1.
  assert (En : n = zlen (containees d)).
  { assert (VC : is_variable_element_count d = false) by (unfold is_variable_element_count; rewrite T; destruct (negb (is_container_type_info d)), (negb (is_variable_sized_type_info d)); reflexivity).
    cbn [element_count_of] in EC. unfold get_element_count in EC. rewrite C, VC in EC. cbn [negb] in EC. unfold element_count in EC. rewrite T in EC. congruence. }
  assert (P : forall k q u, nth_error (containees d) k = Some (q, u) -> 0 <= Z.of_nat k < n /\ get_pos d (upd m 0 (min_data d)) 0 (Z.of_nat k) = Ok (mk_pinfo (p_off q) (p_valid q) u)).
  { intros k q u K. pose proof (znth_some _ _ _ K). split; [lia|]. unfold get_pos. rewrite T, Nat2Z.id, K. reflexivity. }
  destruct (P _ _ _ Ei) as [I Ep]. destruct (L1 _ I) as (p' & Ep' & _ & A1 & A2). rewrite Ep in Ep'. injection Ep' as <-.
  cbv zeta. split; [exact A1|]. split; [exact A2|]. intros j q c' Ej NE. destruct (P _ _ _ Ej) as [J Eq]. apply (L2 _ _ _ _ I J ltac:(lia) Ep Eq).
Qed.
Print Assumptions C31_finalized_layout.

(** ** C32 to C35: setting an element *)
(** [set_element_in_tuple] on well formed data, for a value that belongs to the
    type of the element, never fails but by returning 0; the result is well
    formed; after a return of 1 the value is read back, at the element and, for
    a TUPLE or ARRAY, at every path inside *)
Theorem C32_get_after_set d pa t m o v inc : data_at d m o -> path_ok pa -> room d m o inc -> get_type_info d pa = Some t -> fits t v ->
  (forall vm vo, v = DPtr vm vo -> data_at t vm vo) ->
  exists r m', set_element d pa m o v inc = Ok (r, m') /\ data_at d m' o
    /\ (r = true -> exists x, observe d pa m' o = Ok (Some x) /\ reads_back t v x
         /\ forall vm vo, v = DPtr vm vo -> forall pb, path_ok pb ->
              observe d (pa ++ pb) m' o = observe t pb vm vo /\ element_count_of d (pa ++ pb) m' o = element_count_of t pb vm vo).
Proof.
  intros D PO RM TI FT DP.
  destruct (set_element_ok d pa m o v inc D PO RM) as (r & m' & E & _ & D' & _ & _ & RB); [intros t0 T0; assert (t0 = t) by congruence; subst; exact FT|intros t0 vm vo T0; assert (t0 = t) by congruence; subst; auto|].
  exists r, m'. split; [exact E|]. split; [exact D'|]. intro R. destruct (RB R) as (t' & x & T' & E1 & E2 & E3). rewrite TI in T'. injection T' as <-. eauto.
Qed.
Print Assumptions C32_get_after_set.

(** whatever it returns, nothing else changes *)
Theorem C33_set_changes_nothing_else d pa m o v inc r m' : data_at d m o -> path_ok pa -> room d m o inc ->
  (forall t, get_type_info d pa = Some t -> fits t v) ->
  (forall t vm vo, get_type_info d pa = Some t -> v = DPtr vm vo -> data_at t vm vo) ->
  set_element d pa m o v inc = Ok (r, m') -> leaves_others d pa m o r m'.
Proof.
  intros D PO RM FT DP E. destruct (set_element_ok d pa m o v inc D PO RM FT DP) as (r1 & m1 & E1 & _ & _ & F & _). rewrite E in E1. injection E1 as <- <-. exact F.
Qed.
Print Assumptions C33_set_changes_nothing_else.

Theorem C34_set_respects_size d pa m o v inc r m' : data_at d m o -> path_ok pa -> room d m o inc ->
  (forall t, get_type_info d pa = Some t -> fits t v) ->
  (forall t vm vo, get_type_info d pa = Some t -> v = DPtr vm vo -> data_at t vm vo) ->
  set_element d pa m o v inc = Ok (r, m') -> respects_size d m o inc r m'.
Proof.
  intros D PO RM FT DP E. destruct (set_element_ok d pa m o v inc D PO RM FT DP) as (r1 & m1 & E1 & _ & _ & _ & F & _). rewrite E in E1. injection E1 as <- <-. exact F.
Qed.
Print Assumptions C34_set_respects_size.

(** the two functions agree, also where there is no element *)
Theorem C35_can_set_predicts_set d pa m o v inc : data_at d m o -> path_ok pa -> room d m o inc ->
  (forall t, get_type_info d pa = Some t -> fits t v) ->
  (forall t vm vo, get_type_info d pa = Some t -> v = DPtr vm vo -> data_at t vm vo) ->
  exists r m', can_set_element d pa m o v inc = Ok r /\ set_element d pa m o v inc = Ok (r, m').
Proof.
  intros D PO RM FT DP. destruct (set_element_ok d pa m o v inc D PO RM FT DP) as (r & m' & E & CS & _). eauto.
Qed.
Print Assumptions C35_can_set_predicts_set.

(** ** C36 and C37: expanding and discarding *)
(** partial: under [expand_limits]; see the refutations below *)
Theorem C36_expand_partial d pa m o index slots inc : data_at d m o -> path_ok pa -> room d m o inc -> 0 <= index < 4294967296 ->
  (forall t a s n, element_at d pa m o t a -> get_size t m a = Ok s -> get_element_count t m a = Ok n -> expand_limits t s n slots) ->
  exists r m', expand_element d pa m o index slots inc = Ok (r, m') /\ can_expand_element d pa m o index slots inc = Ok r /\ data_at d m' o
    /\ leaves_others d pa m o r m' /\ respects_size d m o inc r m'
    /\ (r = true -> exists n c, element_count_of d pa m o = Ok n /\ index <= n /\ element_count_of d pa m' o = Ok (n + slots)
         /\ get_type_info d (pa ++ [index]) = Some c
         /\ forall i pb, 0 <= i -> path_ok pb -> i + slots < 4294967296 ->
              (i < index -> observe d (pa ++ i :: pb) m' o = observe d (pa ++ i :: pb) m o)
              /\ (index <= i < index + slots -> observe d (pa ++ i :: pb) m' o = Ok (unset_element c pb))
              /\ (index <= i -> observe d (pa ++ (i + slots) :: pb) m' o = observe d (pa ++ i :: pb) m o)).
Proof. apply expand_element_ok. Qed.
Print Assumptions C36_expand_partial.

Theorem C37_discard d pa m o index slots : data_at d m o -> path_ok pa -> 0 <= index < 4294967296 -> 0 <= slots < 4294967296 ->
  exists r m', discard_elements d pa m o index slots = Ok (r, m') /\ can_discard_elements d pa m o index slots = Ok r /\ data_at d m' o
    /\ leaves_others d pa m o r m' /\ respects_size d m o 0 r m'
    /\ (r = true -> exists n, element_count_of d pa m o = Ok n /\ index + slots <= n /\ element_count_of d pa m' o = Ok (n - slots)
         /\ forall i pb, 0 <= i -> path_ok pb -> i + slots < 4294967296 ->
              (i < index -> observe d (pa ++ i :: pb) m' o = observe d (pa ++ i :: pb) m o)
              /\ (index <= i -> observe d (pa ++ i :: pb) m' o = observe d (pa ++ (i + slots) :: pb) m o)).
Proof. apply discard_elements_ok. Qed.
Print Assumptions C37_discard.

(** ** C36: what the limits exclude *)
Definition zmem (n : Z) : mem := repeat Byte.x00 (Z.to_nat n).
Definition final (t : dti) : dti := snd (finalize t).
Definition get {A} (d : A) (r : res (bool * A)) : A := match r with Ok (_, x) => x | UB => d end.
Definition init0 (d : dti) (m : mem) : mem := match init_tuple d m 0 with Ok m' => m' | UB => m end.

Lemma init0_data t (n : Z) : type_built t -> fst (finalize t) = true -> is_bit_field (final t) = false -> 0 <= size (final t) -> size (final t) <= n ->
  data_at (final t) (init0 (final t) (zmem n)) 0.
Proof.
  intros TB F B Hs Hn. assert (F' : finalize t = (true, final t)) by (unfold final; destruct (finalize t); cbn in *; congruence).
  destruct (built_finalized t _ TB F') as [W _]. assert (Z : zlen (zmem n) = n) by (unfold zmem; rewrite zlen_repeat; lia).
  pose proof (init_minimal_ok (final t) (zmem n) 0 W B ltac:(lia) ltac:(lia)) as IM. unfold init0, init_tuple. rewrite IM. cbn [bind].
  apply (da_init t _ (zmem n) 0 (size (final t)) _ TB F' B); [lia|exact IM].
Qed.

(** an ARRAY of at most 256 bytes of single bits: 300 elements fit, but their
    number does not fit the prefix of one byte; expansion returns 1 and leaves
    44 elements *)
Definition bits1 : dti := var_array 256 (num BIT_FIELD false 1).
Theorem C36_refuted_count : exists d m inc m',
  data_at d m 0 /\ room d m 0 inc /\ expand_element d [] m 0 0 300 inc = Ok (true, m')
  /\ element_count_of d [] m 0 = Ok 0 /\ element_count_of d [] m' 0 = Ok 44.
Proof.
  set (d := final bits1). set (m := init0 d (zmem 300)). exists d, m, 255, (get m (expand_element d [] m 0 0 300 255)).
  split; [apply init0_data; [unfold bits1, var_array, num; build; congruence|reflexivity|reflexivity|vm_compute; discriminate|vm_compute; discriminate]|].
  split; [split; [lia|]; intros _ s E; vm_compute in E; injection E as <-; vm_compute; discriminate|].
  vm_compute. auto.
Qed.
Print Assumptions C36_refuted_count.

(** nullable 64 bit bit fields take 65 bits in the bitmap, more than the
    [uint64_t] that expansion moves them with *)
Definition bits65 : dti := var_array 1000 (num BIT_FIELD true 64).
Theorem C36_refuted_wide : exists d m, data_at d m 0 /\ room d m 0 100 /\ expand_element d [] m 0 0 1 100 = UB.
Proof.
  set (d := final bits65). set (m := init0 d (zmem 1000)). exists d, m.
  split; [apply init0_data; [unfold bits65, var_array, num; build; congruence|reflexivity|reflexivity|vm_compute; discriminate|vm_compute; discriminate]|].
  split; [split; [lia|]; intros _ s E; vm_compute in E; injection E as <-; vm_compute; discriminate|].
  vm_compute. reflexivity.
Qed.
Print Assumptions C36_refuted_wide.
