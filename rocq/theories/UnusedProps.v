(** * C76: bytes of a page that are not in use never matter

    [same_used], [same_places] and [indistinguishable] are in UnusedSpec.v. *)
From Coq Require Import ZifyBool ZifyNat ZifyN Zify.
From Verif Require Import BytesFacts SpecFacts PageReach PageExamples.
From Verif Require Import UnusedSpec UnusedFacts PageFacts ImageProps.
Ltac Zify.zify_post_hook ::= Z.div_mod_to_equations.

(** a page with other bytes where none is in use *)
Theorem C76_unused : forall ps h d p q, limits ps h d -> reachable ps h d p -> same_used ps d p q -> indistinguishable ps h d p q.
Proof.
  intros ps h d p q (Hps & Hh & Hdef) R U. destruct (reach_view _ _ Hps Hdef _ _ Hh R) as (hb & c & f & V & <-).
  apply (twins_forever ps d Hps Hdef). exact (used_twins ps d Hps Hdef p q hb c f V U).
Qed.
Print Assumptions C76_unused.

Theorem C76_overwrite : forall ps h d p c a o bs, limits ps h d -> reachable ps h d p -> contents ps d p = Ok c ->
  get_space_allotted_to_all_tuples_on_page p ps d = Ok a -> 0 <= o -> o + zlen bs <= ps ->
  (forall k, o <= k < o + zlen bs -> ~ in_use ps d p c a k) -> indistinguishable ps h d p (upd p o bs).
Proof.
  intros ps h d p c a o bs L R Hc Ha Ho Hb N. pose proof (zlen_nonneg bs).
  assert (Lp : zlen p = ps). { destruct L as (Hps & Hh & Hdef). destruct (reach_view _ _ Hps Hdef _ _ Hh R) as (hb & c' & f & V & _). eapply view_len; eassumption. }
  apply (C76_unused ps h d p _ L R). split; [rewrite zlen_upd; lia|]. exists c, a. split; [exact Hc|]. split; [exact Ha|]. intros k Hk U.
  rewrite nth_upd by lia. destruct (Z.leb_spec o k); destruct (Z.ltb_spec k (o + zlen bs)); cbn [andb]; try reflexivity.
  exfalso. apply (N k); [lia|exact U].
Qed.
Print Assumptions C76_overwrite.
(* a gap between two tuples, and a part of the free space *)
Lemma vp_use o : in_use 128 vd vp vc 113 o -> o < 20 \/ 71 <= o < 105 \/ 108 <= o < 120.
Proof.
  intros [U|[U|(i & t & a & Hi & E & L & B)]]; [lia|change (zlen vc * get_additional_space_overhead_per_tuple_on_page 128 vd) with 5 in U; lia|].
  destruct v_reachable as [R C]. pose proof (lies_in _ _ _ _ _ _ _ v_limits R C Hi L) as G. change (zlen vc) with 5 in G. unfold lies in L.
  assert (i = 0 \/ i = 1 \/ i = 2 \/ i = 3 \/ i = 4) as [->|[->|[->|[->| ->]]]] by lia; vm_compute in L; try discriminate;
    injection L as <-; injection E as <-; (change (zlen (vt 31 Byte.x65)) with 31 in B || change (zlen (vt 12 Byte.x64)) with 12 in B || change (zlen (vt 3 Byte.x66)) with 3 in B); lia.
Qed.
Example C76_overwrite_ex : forall b1 b2 b3, indistinguishable 128 10 vd vp (upd vp 105 [b1; b2; b3]) /\ indistinguishable 128 10 vd vp (upd vp 40 [b1; b2; b3]).
Proof.
  intros b1 b2 b3. destruct v_reachable as [R C]. assert (A : get_space_allotted_to_all_tuples_on_page vp 128 vd = Ok 113) by (vm_compute; reflexivity).
  split; apply (C76_overwrite 128 10 vd vp vc 113 _ [b1; b2; b3] v_limits R C A); try (change (zlen [b1; b2; b3]) with 3; lia);
    change (zlen [b1; b2; b3]) with 3; intros k Hk U; apply vp_use in U; lia.
Qed.
(* a byte that is in use does matter *)
Example C76_overwrite_used : ~ indistinguishable 128 10 vd vp (upd vp 110 [Byte.x00]).
Proof.
  intro H. destruct (H _ _ (together_start _ _ _ _ _)) as ((( _ & C & _) & _) & _). vm_compute in C. discriminate.
Qed.

(** pages of different histories with the same header and entries at the same places *)
Theorem C76_places : forall ps h d p q, limits ps h d -> reachable ps h d p -> reachable ps h d q -> same_places ps d p q -> indistinguishable ps h d p q.
Proof.
  intros ps h d p q (Hps & Hh & Hdef) R1 R2 S. destruct (reach_view _ _ Hps Hdef _ _ Hh R1) as (hb & c & f & V & <-).
  destruct (reach_view _ _ Hps Hdef _ _ Hh R2) as (hb2 & c2 & f2 & V2 & _).
  apply (twins_forever ps d Hps Hdef). exact (places_twins ps d Hps Hdef p q hb c f hb2 c2 f2 V V2 S).
Qed.
Print Assumptions C76_places.
(* another page with the same entries at the same places: what was written in between differs *)
Definition vr_ops : list page_op :=
  [Append None; Append (Some (vt 80 Byte.x7a)); Append None; Discard 1; DiscardTrailing; WriteHeader 2 [Byte.x41; Byte.x42]] ++ skipn 1 vq_ops.
Definition vr : mem := Eval vm_compute in value_of (run_ops 128 vd vr_ops (fresh 128 10 vd)).
Example C76_places_ex : vq <> vr /\ reachable 128 10 vd vr /\ indistinguishable 128 10 vd vq vr.
Proof.
  assert (R : reachable 128 10 vd vr).
  { apply run_ops_reachable with (ops := vr_ops) (p := fresh 128 10 vd).
    - eapply reachable_init with (p0 := repeat Byte.xff 128); reflexivity.
    - repeat constructor; cbn [op_ok]; try exact I; try (apply vt_ok; lia); unfold is_u32; try lia; cbn; try lia; apply vt_ok; lia.
    - vm_compute. reflexivity. }
  split; [discriminate|]. split; [exact R|]. apply (C76_places _ _ _ _ _ v_limits (proj1 vq_reachable) R).
  assert (C : contents 128 vd vr = Ok vc) by (vm_compute; reflexivity).
  split; [vm_compute; reflexivity|]. split; [vm_compute; reflexivity|]. intros i Hi. unfold is_u32 in Hi.
  destruct (Z_lt_ge_dec i 5) as [J|J].
  - assert (i = 0 \/ i = 1 \/ i = 2 \/ i = 3 \/ i = 4) as [->|[->|[->|[->| ->]]]] by lia; vm_compute; reflexivity.
  - destruct v_limits as (Hps & Hh & Hdef).
    destruct (reach_contents _ _ Hps Hdef _ _ _ Hh R C) as (hb & f & V & _). destruct (reach_contents _ _ Hps Hdef _ _ _ Hh (proj1 vq_reachable) (proj2 vq_reachable)) as (hb2 & f2 & V2 & _).
    destruct (v_get_nth _ _ Hps Hdef _ _ _ _ i V ltac:(lia)) as (x & E & M). destruct (v_get_nth _ _ Hps Hdef _ _ _ _ i V2 ltac:(lia)) as (y & E2 & M2).
    rewrite E, E2. change (zlen vc) with 5 in *. destruct x; [lia|]. destruct y; [lia|]. reflexivity.
Qed.
