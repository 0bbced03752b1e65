(** * C75: a page that was compacted and cleared shows nothing but its entries

    [clean], [lies], [same_order], [in_use], [in_tomb_stone] are in
    ImageSpec.v. *)
From Coq Require Import ZifyBool ZifyNat ZifyN Zify Permutation Sorted.
From Verif Require Import BytesFacts SpecFacts PageReach PageExamples.
From Verif Require Import ImageSpec ImageFacts PageFacts.
Ltac Zify.zify_post_hook ::= Z.div_mod_to_equations.

Local Ltac open_page L R Hc V :=
  destruct L as (Hps & Hh & Hdef);
  destruct (reach_contents _ _ Hps Hdef _ _ _ Hh R Hc) as (hb & f & V & Hz).
Local Ltac open_page0 L R V :=
  destruct L as (Hps & Hh & Hdef);
  destruct (reach_view _ _ Hps Hdef _ _ Hh R) as (hb & c & f & V & Hz).

Lemma lies_in ps h d p c i o : limits ps h d -> reachable ps h d p -> contents ps d p = Ok c -> 0 <= i -> lies ps d p i o -> i < zlen c.
Proof.
  intros L R Hc Hi H. open_page L R Hc V. destruct (v_get_nth ps d Hps Hdef _ _ _ _ i V Hi) as (x & E & M).
  unfold lies in H. rewrite E in H. injection H as ->. exact (proj1 M).
Qed.

(** compaction does the same whatever sorting function is used *)
Theorem C75_any_sort : forall ps h d p s1 s2, limits ps h d -> reachable ps h d p -> sorts s1 -> sorts s2 ->
  run_page_compaction s1 true p ps d = run_page_compaction s2 true p ps d.
Proof.
  intros ps h d p s1 s2 L R H1 H2. open_page0 L R V. unfold view in V. unfold run_page_compaction, get_page_layout_type, is_variable_sized.
  destruct (sd_variable d); [|reflexivity]. destruct V as (es & S & _). exact (sl_compact_any ps d Hps s1 s2 p hb es H1 H2 S).
Qed.
Print Assumptions C75_any_sort.
Example C75_any_sort_ex : reachable 128 10 vd vp /\ exists p1, run_page_compaction isort true vp 128 vd = Ok (true, false, p1) /\ p1 <> vp.
Proof. split; [apply v_reachable|]. eexists. split; [vm_compute; reflexivity|]. vm_compute. discriminate. Qed.

(** once done, compacting or cleaning again changes no byte *)
Theorem C75_again : forall ps h d p s1 s2 p1, limits ps h d -> reachable ps h d p -> sorts s1 -> sorts s2 ->
  (forall r, run_page_compaction s1 true p ps d = Ok (r, p1) -> run_page_compaction s2 true p1 ps d = Ok (false, false, p1))
  /\ (clean s1 ps d p = Ok p1 -> clean s2 ps d p1 = Ok p1).
Proof.
  intros ps h d p s1 s2 p1 L R H1 H2. open_page0 L R V. unfold clean, view in *.
  unfold run_page_compaction, zero_out_free_space_on_page, get_page_layout_type, is_variable_sized in *. destruct (sd_variable d) eqn:Ev.
  - destruct V as (es & S & _). destruct (sl_compact_places ps d Hps s1 p hb es H1 S) as (q & es' & E & S' & C & F & _). rewrite E. split.
    + intros r Q. injection Q as _ <-. exact (sl_compact_again ps d Hps s2 q hb es' H2 S' F).
    + cbn [bind]. destruct (sl_zero_out_spec ps d Hps q hb es' S') as (q2 & E2 & S2 & _ & Cl). rewrite E2. cbn [bind]. intro Q. injection Q as <-.
      rewrite (sl_compact_again ps d Hps s2 q2 hb es' H2 S2 F). cbn [bind]. rewrite (sl_zero_again ps d Hps q2 hb es' S2 Cl). reflexivity.
  - destruct V as [F _]. unfold fa_compact. split.
    + intros r Q. injection Q as _ <-. reflexivity.
    + cbn [bind]. destruct (fa_zero_out_spec ps d Hps Hdef Ev p hb c F) as (q & E & F' & _ & Z). rewrite E. cbn [bind]. intro Q. injection Q as <-.
      rewrite (fa_zero_again ps d Hps q hb c Hdef Ev F' Z). reflexivity.
Qed.
Print Assumptions C75_again.
Example C75_again_ex : exists p1, clean isort 128 vd vp = Ok p1 /\ p1 <> vp /\ clean isort 128 vd p1 = Ok p1.
Proof.
  destruct (clean isort 128 vd vp) as [p1|] eqn:E; [|vm_compute in E; discriminate]. exists p1. split; [reflexivity|]. split.
  - intros ->. vm_compute in E. discriminate.
  - exact (proj2 (C75_again _ _ _ _ _ _ _ v_limits (proj1 v_reachable) isort_sorts isort_sorts) E).
Qed.

(** the entries are still there, and every byte that is not there for them is 0;
    only tomb stones of a fixed array keep what was there *)
Theorem C75_nothing_left : forall ps h d p c srt, limits ps h d -> reachable ps h d p -> contents ps d p = Ok c -> sorts srt ->
  exists p' a, clean srt ps d p = Ok p' /\ zlen p' = ps /\ contents ps d p' = Ok c /\ header ps p' = header ps p
  /\ get_space_allotted_to_all_tuples_on_page p' ps d = Ok a
  /\ forall o, 0 <= o < ps -> in_use ps d p' c a o \/ in_tomb_stone ps d c a o \/ nth (Z.to_nat o) p' Byte.xff = Byte.x00.
Proof.
  intros ps h d p c srt L R Hc Hs. open_page L R Hc V.
  destruct (v_compact ps d Hps _ _ _ _ srt V Hs) as (p1 & E1 & V1).
  destruct (v_zero_out ps d Hps Hdef _ _ _ _ V1) as (p2 & a & E2 & V2 & _).
  exists p2, (allot ps d (zlen hb)). unfold clean at 1. rewrite E1. cbn [bind]. rewrite E2. cbn [bind].
  split; [reflexivity|]. split; [eapply view_len; eassumption|]. split; [eapply v_contents; eassumption|].
  split. { rewrite (v_header ps d Hps Hdef _ _ _ _ V2), (v_header ps d Hps Hdef _ _ _ _ V). reflexivity. }
  split; [eapply v_allotted; eassumption|].
  intros o O. unfold in_use, in_tomb_stone, lies, entry, get_additional_space_overhead_per_tuple_on_page, get_nth_tuple_on_page, allot, view in *.
  unfold run_page_compaction, zero_out_free_space_on_page, get_page_layout_type, is_variable_sized in *.
  pose proof (value_size_range ps). pose proof (zlen_nonneg hb). clear V1 V2. destruct (sd_variable d) eqn:Ev.
  - destruct V as (es & S & Ec & _). destruct (sl_compact_places ps d Hps srt p hb es Hs S) as (q & es1 & Q1 & S1 & C1 & F1 & _).
    rewrite Q1 in E1. injection E1 as _ <-. destruct (sl_zero_out_spec ps d Hps q hb es1 S1) as (q2 & Q2 & S2 & _ & Cl). rewrite Q2 in E2. injection E2 as _ <-.
    assert (Zc : zlen c = zlen es1). { rewrite <- Ec, <- C1. apply content_len. }
    destruct (sl_bytes ps d Hps q2 hb es1 o S2 F1 Cl O) as [J|[J|[J|J]]].
    + left. left. lia.
    + left. right. left. unfold sl_overhead. rewrite Zc. lia.
    + left. right. right. destruct J as (i & o' & t & Hi & N & B). exists i, t, o'. split; [lia|]. split; [|split; [|exact B]].
      * rewrite <- Ec, <- C1. unfold content_of. rewrite nth_error_map. rewrite (nth_error_nth' es1 None) by (unfold zlen in Hi; lia). rewrite N. reflexivity.
      * rewrite (s_get_nth Hps S2) by lia. rewrite N. destruct (Z.ltb_spec i (zlen es1)); [reflexivity|lia].
    + right. right. exact J.
  - destruct V as [F _]. unfold fa_compact in E1. injection E1 as _ <-.
    destruct (fa_zero_out_spec ps d Hps Hdef Ev p hb c F) as (q & Q & F' & _ & Z). rewrite Q in E2. injection E2 as _ <-.
    set (T := ftup ps (zlen hb) (sd_size d)) in *. set (s := sd_size d) in *.
    pose proof (fr_free ps d Hps Hdef Ev _ _ _ F') as Fr. fold T s in Fr. replace (ps - (ps - T)) with T by lia.
    destruct (Z_lt_ge_dec o T) as [J|J]; [left; left; lia|]. destruct (Z_lt_ge_dec o (T + zlen c * s)) as [K|K].
    2: { right. right. apply (zeros_slice q (T + zlen c * s) (ps - (T + zlen c * s))); [lia|lia|exact Z]. }
    assert (Hs1 : 1 <= s) by (pose proof (s_r d Hdef); fold s in H1; lia).
    set (i := (o - T) / s). assert (I : 0 <= i /\ i * s <= o - T < (i + 1) * s).
    { unfold i. split; [apply Z.div_pos; lia|]. pose proof (Z.mul_div_le (o - T) s ltac:(lia)). pose proof (Z.mul_succ_div_gt (o - T) s ltac:(lia)). lia. }
    assert (I2 : i < zlen c) by nia.
    destruct (fr_get_nth ps d Hps Hdef Ev q hb c i F' ltac:(lia)) as [G1 G2].
    destruct (nth (Z.to_nat i) c None) as [t|] eqn:N.
    + left. right. right. exists i, t, (T + i * s). destruct (G2 t I2 eq_refl) as (_ & Zt & _). fold s in Zt. split; [lia|]. split; [|split; [|lia]].
      * rewrite <- N. apply nth_error_nth'. unfold zlen in I2. lia.
      * rewrite G1. destruct (Z.ltb_spec i (zlen c)); [reflexivity|lia].
    + right. left. split; [reflexivity|]. exists i. split; [lia|]. split; [|lia]. rewrite <- N. apply nth_error_nth'. unfold zlen in I2. lia.
Qed.
Print Assumptions C75_nothing_left.
(* of the tuples of [0x61] and [0x62] that were removed or replaced on this
   page traces were left before, none are left afterwards *)
Example C75_nothing_left_ex : In Byte.x61 vp /\ In Byte.x62 vp /\ exists p', clean isort 128 vd vp = Ok p' /\ ~ In Byte.x61 p' /\ ~ In Byte.x62 p'.
Proof.
  split; [repeat ((left; reflexivity) || right)|]. split; [repeat ((left; reflexivity) || right)|]. destruct (clean isort 128 vd vp) as [p'|] eqn:E; [|vm_compute in E; discriminate]. exists p'. split; [reflexivity|].
  vm_compute in E. injection E as <-. repeat split; intro H; repeat (destruct H as [H|H]; [discriminate|]); exact H.
Qed.
(* a tomb stone of a fixed array keeps the bytes of the tuple *)
Example C75_nothing_left_fixed : entry fc 3 = Some None /\ exists p', clean isort 128 fd fp = Ok p' /\ In Byte.x62 p'.
Proof.
  split; [reflexivity|]. destruct (clean isort 128 fd fp) as [p'|] eqn:E; [|vm_compute in E; discriminate]. exists p'. split; [reflexivity|].
  vm_compute in E. injection E as <-. repeat ((left; reflexivity) || right).
Qed.

(** for tuples of variable size the bytes are a function of the header, the
    entries and the order in which the tuples lie *)
Theorem C75_image : forall ps h d p q c s1 s2, limits ps h d -> sd_variable d = true -> reachable ps h d p -> reachable ps h d q ->
  contents ps d p = Ok c -> contents ps d q = Ok c -> header ps p = header ps q -> same_order ps d p q -> sorts s1 -> sorts s2 ->
  exists m, clean s1 ps d p = Ok m /\ clean s2 ps d q = Ok m.
Proof.
  intros ps h d p q c s1 s2 L Ev R1 R2 C1 C2 Eh O H1 H2. destruct L as (Hps & Hh & Hdef).
  destruct (reach_contents _ _ Hps Hdef _ _ _ Hh R1 C1) as (hb & f & V & Hz). destruct (reach_contents _ _ Hps Hdef _ _ _ Hh R2 C2) as (hb2 & f2 & V2 & Hz2).
  rewrite (v_header ps d Hps Hdef _ _ _ _ V), (v_header ps d Hps Hdef _ _ _ _ V2) in Eh. injection Eh as <-.
  unfold clean, same_order, lies, view in *. unfold run_page_compaction, zero_out_free_space_on_page, get_nth_tuple_on_page, get_page_layout_type, is_variable_sized in *.
  rewrite Ev in *. destruct V as (es1 & S1 & E1 & _). destruct V2 as (es2 & S2 & E2 & _).
  destruct (sl_compact_places ps d Hps s1 p hb es1 H1 S1) as (p1 & es1' & Q1 & T1 & K1 & F1 & P1). destruct (sl_compact_places ps d Hps s2 q hb es2 H2 S2) as (q1 & es2' & Q2 & T2 & K2 & F2 & P2).
  assert (Ee : es1' = es2').
  { rewrite P1, P2. apply (same_order_same_places ps d Hps s1 s2 p q hb hb es1 es2); try assumption; [congruence|].
    intros i j o1 t1 o2 t2 o3 t3 o4 t4 Hi Hj N1 N2 N3 N4 Lt. apply (O i j o1 o2 o3 o4 Hi Hj); [| | | |exact Lt].
    - rewrite (s_get_nth Hps S1) by lia. rewrite N1. destruct (Z.ltb_spec i (zlen es1)) as [|G]; [reflexivity|]. rewrite nth_overflow in N1 by (unfold zlen in G; lia). discriminate.
    - rewrite (s_get_nth Hps S1) by lia. rewrite N2. destruct (Z.ltb_spec j (zlen es1)) as [|G]; [reflexivity|]. rewrite nth_overflow in N2 by (unfold zlen in G; lia). discriminate.
    - rewrite (s_get_nth Hps S2) by lia. rewrite N3. destruct (Z.ltb_spec i (zlen es2)) as [|G]; [reflexivity|]. rewrite nth_overflow in N3 by (unfold zlen in G; lia). discriminate.
    - rewrite (s_get_nth Hps S2) by lia. rewrite N4. destruct (Z.ltb_spec j (zlen es2)) as [|G]; [reflexivity|]. rewrite nth_overflow in N4 by (unfold zlen in G; lia). discriminate. }
  rewrite Q1, Q2. cbn [bind]. clear P2. subst es2'. destruct (sl_zero_out_spec ps d Hps p1 hb es1' T1) as (p2 & Z1 & U1 & _ & X1). destruct (sl_zero_out_spec ps d Hps q1 hb es1' T2) as (q2 & Z2 & U2 & _ & X2).
  rewrite Z1, Z2. cbn [bind]. exists p2. split; [reflexivity|]. f_equal. symmetry. exact (same_entries_same_page ps d Hps p2 q2 hb es1' U1 U2 F1 X1 X2).
Qed.
Print Assumptions C75_image.
(* the same entries, reached by another history *)
Definition vq_ops : list page_op :=
  [WriteHeader 2 [Byte.x41; Byte.x42]; Append None; Append (Some (vt 12 Byte.x64)); Insert 1 (Some (vt 31 Byte.x65));
   Append (Some (vt 3 Byte.x66)); Append None].
Definition vq : mem := Eval vm_compute in value_of (run_ops 128 vd vq_ops (fresh 128 10 vd)).
Lemma vq_reachable : reachable 128 10 vd vq /\ contents 128 vd vq = Ok vc.
Proof.
  split; [|reflexivity]. apply run_ops_reachable with (ops := vq_ops) (p := fresh 128 10 vd).
  - eapply reachable_init with (p0 := repeat Byte.xff 128); reflexivity.
  - repeat constructor; cbn [op_ok]; try exact I; try (apply vt_ok; lia); unfold is_u32; try lia; cbn; try lia; apply vt_ok; lia.
  - vm_compute. reflexivity.
Qed.
Example C75_image_ex : vp <> vq /\ header 128 vp = header 128 vq /\ same_order 128 vd vp vq
  /\ exists m, clean isort 128 vd vp = Ok m /\ clean isort 128 vd vq = Ok m.
Proof.
  assert (A : header 128 vp = header 128 vq) by (vm_compute; reflexivity).
  assert (B : same_order 128 vd vp vq).
  { intros i j a b a' b' Hi Hj H1 H2 H3 H4. destruct v_reachable as [R C].
    pose proof (lies_in _ _ _ _ _ _ _ v_limits R C Hi H1) as G1. pose proof (lies_in _ _ _ _ _ _ _ v_limits R C Hj H2) as G2.
    change (zlen vc) with 5 in G1, G2. unfold lies in *.
    assert (i = 0 \/ i = 1 \/ i = 2 \/ i = 3 \/ i = 4) as [->|[->|[->|[->| ->]]]] by lia; vm_compute in H1, H3; try discriminate;
    (assert (j = 0 \/ j = 1 \/ j = 2 \/ j = 3 \/ j = 4) as [->|[->|[->|[->| ->]]]] by lia; vm_compute in H2, H4; try discriminate);
    injection H1 as <-; injection H2 as <-; injection H3 as <-; injection H4 as <-; lia. }
  split; [discriminate|]. split; [exact A|]. split; [exact B|].
  destruct v_reachable as [R C]. destruct vq_reachable as [R' C'].
  exact (C75_image _ _ _ _ _ _ _ _ v_limits eq_refl R R' C C' A B isort_sorts isort_sorts).
Qed.

(** in a fixed array this is false: two pages with the same header and the same
    entries can differ after cleaning, because the bits of removed entries stay *)
Theorem C75_refuted_fixed : exists ps h d p q c, limits ps h d /\ sd_variable d = false /\ reachable ps h d p /\ reachable ps h d q
  /\ contents ps d p = Ok c /\ contents ps d q = Ok c /\ header ps p = header ps q /\ same_order ps d p q
  /\ forall s1 s2, clean s1 ps d p <> clean s2 ps d q.
Proof.
  pose (P := value_of (run_ops 128 fd [Append (Some (ft Byte.x61)); DiscardAll] (fresh 128 20 fd))).
  exists 128, 20, fd, P, (fresh 128 20 fd), [].
  assert (R0 : reachable 128 20 fd (fresh 128 20 fd)) by (eapply reachable_init with (p0 := repeat Byte.xff 128); reflexivity).
  assert (C1 : contents 128 fd P = Ok []) by (vm_compute; reflexivity). assert (C2 : contents 128 fd (fresh 128 20 fd) = Ok []) by (vm_compute; reflexivity).
  assert (R1 : reachable 128 20 fd P).
  { apply run_ops_reachable with (ops := [Append (Some (ft Byte.x61)); DiscardAll]) (p := fresh 128 20 fd); [exact R0| |vm_compute; reflexivity].
    repeat constructor; cbn [op_ok]; try exact I; apply ft_ok. }
  split; [exact f_limits|]. split; [reflexivity|]. split; [exact R1|]. split; [exact R0|]. split; [exact C1|]. split; [exact C2|]. split; [vm_compute; reflexivity|].
  split.
  - intros i j a b a' b' Hi Hj H1. pose proof (lies_in _ _ _ _ _ _ _ f_limits R1 C1 Hi H1) as G. change (zlen (@nil (option tuple))) with 0 in G. lia.
  - intros s1 s2. unfold clean, run_page_compaction, get_page_layout_type, is_variable_sized. cbn [sd_variable fd]. vm_compute. discriminate.
Qed.
Print Assumptions C75_refuted_fixed.
