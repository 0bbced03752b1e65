(** * The page properties C01 - C26

    The vocabulary ([limits], [reachable], [contents], [header], [op_ok],
    [total_space]...) is in PageSpec.v, the list operations in Spec.v. *)
From Coq Require Import ZifyBool ZifyNat ZifyN Zify Permutation Sorted.
From Verif Require Import BytesFacts SpecFacts PageReach PageExamples.
From Verif Require Import PageSpec.
Ltac Zify.zify_post_hook ::= Z.div_mod_to_equations.

(** the view of a reachable page, from the hypotheses all theorems share *)
Local Ltac open_page L R Hc V :=
  destruct L as (Hps & Hh & Hdef);
  destruct (reach_contents _ _ Hps Hdef _ _ _ Hh R Hc) as (hb & f & V & Hz).
Local Ltac open_page0 L R V :=
  destruct L as (Hps & Hh & Hdef);
  destruct (reach_view _ _ Hps Hdef _ _ Hh R) as (hb & c & f & V & Hz).

(** C01 *)
Theorem C01_init_page : forall ps h d p, limits ps h d -> zlen p = ps ->
  exists b p', init_page p ps h d = Ok (b, p') /\ zlen p' = ps /\
    (b = true <-> get_minimum_page_size h d 1 <= ps) /\
    if b then
      contents ps d p' = Ok [] /\
      get_tuple_count_on_page p' ps d = Ok 0 /\ get_tomb_stone_count_on_page p' ps d = Ok 0 /\
      header ps p' = Ok (repeat Byte.x00 (Z.to_nat h)) /\
      exists a, get_free_space_on_page p' ps d = Ok a /\
        get_space_allotted_to_all_tuples_on_page p' ps d = Ok a
    else p' = p.
Proof.
  intros ps h d p (Hps & Hh & Hdef) Hl. destruct (v_init ps d Hps Hdef p h Hl Hh) as (p' & E & V).
  exists (get_minimum_page_size h d 1 <=? ps), p'. split; [exact E|]. destruct (Z.leb_spec (get_minimum_page_size h d 1) ps).
  - split; [eapply view_len; eassumption|]. split; [split; intros; [assumption|reflexivity]|].
    split; [eapply v_contents; eassumption|]. split; [exact (v_count ps d Hps Hdef _ _ _ _ V)|].
    split; [exact (v_tombs ps d Hps Hdef _ _ _ _ V)|]. split; [eapply v_header; eassumption|].
    exists (allot ps d h). split; [eapply v_free; eassumption|].
    pose proof (v_allotted ps d Hps Hdef _ _ _ _ V) as A. rewrite zlen_repeat, Z2Nat.id in A by lia. exact A.
  - subst p'. split; [exact Hl|]. split; [split; [discriminate|lia]|reflexivity].
Qed.
Print Assumptions C01_init_page.
Example C01_both_outcomes :
  (exists p, init_page (repeat Byte.xff 128) 128 10 vd = Ok (true, p)) /\
  init_page (repeat Byte.xff 128) 128 96 (mk_size_def true 29 90 true false false false 0) = Ok (false, repeat Byte.xff 128) /\
  limits 128 96 (mk_size_def true 29 90 true false false false 0).
Proof.
  split; [eexists; vm_compute; reflexivity|]. split; [vm_compute; reflexivity|].
  unfold limits, def_ok, max_tuple_size, max_bytes; cbn; lia.
Qed.

(** C02 *)
Theorem C02_append : forall ps h d p c x, limits ps h d -> reachable ps h d p -> contents ps d p = Ok c ->
  ext_ok d x ->
  exists b p', append_tuple_on_page p ps d x = Ok (b, p') /\
    if b then contents ps d p' = Ok (c ++ [x]) else p' = p.
Proof.
  intros ps h d p c x L R Hc Hx. open_page L R Hc V.
  destruct (v_append ps d Hps Hdef _ _ _ _ _ V Hx) as (p' & E & _ & Rp). eexists; eexists; split; [exact E|].
  destruct (room ps d (zlen hb) c f x); [eapply v_contents; eassumption|exact Rp].
Qed.
Print Assumptions C02_append.
Example C02_both_outcomes :
  after 128 vd (append_tuple_on_page vp 128 vd (Some (vt 50 Byte.x7a))) = Ok (true, (vc ++ [Some (vt 50 Byte.x7a)])) /\
  append_tuple_on_page vp 128 vd (Some (vt 51 Byte.x7a)) = Ok (false, vp) /\
  after 128 fd (append_tuple_on_page fp 128 fd None) = Ok (true, (fc ++ [None])).
Proof.
  split; [vm_compute; reflexivity|]. split; [vm_compute; reflexivity|].
  vm_compute; reflexivity.
Qed.

(** C03 *)
Theorem C03_insert : forall ps h d p c i x, limits ps h d -> reachable ps h d p -> contents ps d p = Ok c ->
  is_u32 i -> ext_ok d x ->
  exists b p', insert_tuple_on_page p ps d i x = Ok (b, p') /\
    (b = true <-> i <= zlen c /\ can_append_tuple_on_page p ps d x = Ok true) /\
    if b then contents ps d p' = Ok (insert_at i x c) else p' = p.
Proof.
  intros ps h d p c i x L R Hc Hi Hx. open_page L R Hc V.
  destruct (v_insert ps d Hps Hdef _ _ _ _ _ _ V Hx Hi) as (p' & E & _ & Rp).
  destruct (v_append ps d Hps Hdef _ _ _ _ _ V Hx) as (_ & _ & Ea & _). eexists; eexists; split; [exact E|]. rewrite Ea.
  destruct (Z.leb_spec i (zlen c)), (room ps d (zlen hb) c f x); cbn [andb] in *.
  all: split; [|first [exact Rp|eapply v_contents; eassumption]].
  all: split; [intro; first [discriminate|split; [assumption|reflexivity]]|intros [? ?]; first [lia|congruence]].
Qed.
Print Assumptions C03_insert.
Example C03_cases :
  after 128 vd (insert_tuple_on_page vp 128 vd 2 (Some (vt 9 Byte.x7a))) = Ok (true, (insert_at 2 (Some (vt 9 Byte.x7a)) vc)) /\
  insert_tuple_on_page vp 128 vd 6 (Some (vt 9 Byte.x7a)) = Ok (false, vp) /\
  after 128 fd (insert_tuple_on_page fp 128 fd 1 (Some (ft Byte.x7a))) = Ok (true, [None; Some (ft Byte.x7a); Some (ft Byte.x63); Some (ft Byte.x64); None]).
Proof.
  split; [vm_compute; reflexivity|]. split; [vm_compute; reflexivity|].
  vm_compute; reflexivity.
Qed.

(** C04 *)
Theorem C04_update : forall ps h d p c i x, limits ps h d -> reachable ps h d p -> contents ps d p = Ok c ->
  is_u32 i -> ext_ok d x ->
  exists b p' f, update_tuple_on_page p ps d i x = Ok (b, p') /\ get_free_space_on_page p ps d = Ok f /\
    (* out of bounds indices fail, tomb stones and (fixed sized) tuples always find their place *)
    (b = true -> i < zlen c) /\
    (i < zlen c -> x = None \/ sd_variable d = false -> b = true) /\
    (* a variable sized tuple fits in the free space or over the old tuple, and never in more than both *)
    (i < zlen c -> xlen x <= f \/ xlen x <= xlen (nth (Z.to_nat i) c None) -> b = true) /\
    (sd_variable d = true -> f + xlen (nth (Z.to_nat i) c None) < xlen x -> b = false) /\
    if b then contents ps d p' = Ok (replace_at i x c) else p' = p.
Proof.
  intros ps h d p c i x L R Hc Hi Hx. open_page L R Hc V.
  destruct (v_update ps d Hps Hdef _ _ _ _ _ _ V Hx Hi) as (b & p' & E & _ & B1 & B2 & _ & B3 & B4 & Rp).
  exists b, p', f. split; [exact E|]. split; [eapply v_free; eassumption|]. split; [exact B1|]. split; [exact B2|].
  split; [intros Hlt Hc'; destruct (sd_variable d) eqn:Ev; [apply B3; auto|apply B2; auto]|].
  split; [intros Ev Hf; destruct b; [apply B4; auto|reflexivity]|].
  destruct b; [|exact Rp]. destruct Rp as [f' Rp]. eapply v_contents; eassumption.
Qed.
Print Assumptions C04_update.
Example C04_cases :
  (* shrink in place, grow into the free space, fill a tomb stone, delete, too large *)
  after 128 vd (update_tuple_on_page vp 128 vd 2 (Some (vt 5 Byte.x7a))) = Ok (true, (replace_at 2 (Some (vt 5 Byte.x7a)) vc)) /\
  after 128 vd (update_tuple_on_page vp 128 vd 2 (Some (vt 51 Byte.x7a))) = Ok (true, (replace_at 2 (Some (vt 51 Byte.x7a)) vc)) /\
  after 128 vd (update_tuple_on_page vp 128 vd 0 (Some (vt 40 Byte.x7a))) = Ok (true, (replace_at 0 (Some (vt 40 Byte.x7a)) vc)) /\
  after 128 vd (update_tuple_on_page vp 128 vd 1 None) = Ok (true, (replace_at 1 None vc)) /\
  update_tuple_on_page vp 128 vd 2 (Some (vt 90 Byte.x7a)) = Ok (false, vp) /\
  after 128 fd (update_tuple_on_page fp 128 fd 0 (Some (ft Byte.x7a))) = Ok (true, (replace_at 0 (Some (ft Byte.x7a)) fc)).
Proof.
  repeat (split; [vm_compute; reflexivity|]).
  vm_compute; reflexivity.
Qed.

(** C05 *)
Theorem C05_discard : forall ps h d p c i, limits ps h d -> reachable ps h d p -> contents ps d p = Ok c ->
  is_u32 i ->
  exists b p', discard_tuple_on_page p ps d i = Ok (b, p') /\ (b = true <-> i < zlen c) /\
    if b then contents ps d p' = Ok (remove_at i c) else p' = p.
Proof.
  intros ps h d p c i L R Hc Hi. open_page L R Hc V.
  destruct (v_discard ps d Hps Hdef _ _ _ _ _ V Hi) as (p' & E & Rp). eexists; eexists; split; [exact E|].
  split; [lia|]. destruct (i <? zlen c); [|exact Rp]. destruct Rp as [f' Rp]. eapply v_contents; eassumption.
Qed.
Print Assumptions C05_discard.
Example C05_cases :
  after 128 vd (discard_tuple_on_page vp 128 vd 1) = Ok (true, (remove_at 1 vc)) /\
  discard_tuple_on_page vp 128 vd 5 = Ok (false, vp) /\
  after 128 fd (discard_tuple_on_page fp 128 fd 0) = Ok (true, (remove_at 0 fc)).
Proof.
  repeat (split; [vm_compute; reflexivity|]).
  vm_compute; reflexivity.
Qed.

(** C06 *)
Theorem C06_discard_all : forall ps h d p, limits ps h d -> reachable ps h d p ->
  exists p' a, discard_all_tuples_on_page p ps d = Ok p' /\
    contents ps d p' = Ok [] /\ get_tuple_count_on_page p' ps d = Ok 0 /\ get_tomb_stone_count_on_page p' ps d = Ok 0 /\
    get_free_space_on_page p' ps d = Ok a /\ get_space_allotted_to_all_tuples_on_page p' ps d = Ok a /\
    get_space_allotted_to_all_tuples_on_page p ps d = Ok a /\ header ps p' = header ps p.
Proof.
  intros ps h d p L R. open_page0 L R V.
  destruct (v_discard_all ps d Hps Hdef _ _ _ _ V) as (p' & E & V'). exists p', (allot ps d (zlen hb)). split; [exact E|].
  split; [eapply v_contents; eassumption|]. split; [exact (v_count ps d Hps Hdef _ _ _ _ V')|].
  split; [exact (v_tombs ps d Hps Hdef _ _ _ _ V')|]. split; [eapply v_free; eassumption|].
  split; [eapply v_allotted; eassumption|]. split; [eapply v_allotted; eassumption|].
  rewrite (v_header ps d Hps Hdef _ _ _ _ V), (v_header ps d Hps Hdef _ _ _ _ V'). reflexivity.
Qed.
Print Assumptions C06_discard_all.
Example C06_case :
  (let* p' := discard_all_tuples_on_page vp 128 vd in get_free_space_on_page p' 128 vd) = Ok 113.
Proof. vm_compute; reflexivity. Qed.

(** C07 *)
Theorem C07_discard_trailing : forall ps h d p c, limits ps h d -> reachable ps h d p -> contents ps d p = Ok c ->
  exists p' k, discard_trailing_tomb_stones_on_page p ps d = Ok (k, p') /\
    get_trailing_tomb_stones_count_on_page p ps d = Ok k /\
    k = trailing_tomb_stones c /\ contents ps d p' = Ok (drop_last k c) /\
    c = drop_last k c ++ repeat None (Z.to_nat k) /\
    (forall c', drop_last k c <> c' ++ [None]).
Proof.
  intros ps h d p c L R Hc. open_page L R Hc V.
  destruct (v_discard_trailing ps d Hps Hdef _ _ _ _ V) as (p' & f' & E & V'). exists p', (trailing_tomb_stones c). split; [exact E|].
  split; [eapply v_trailing; eassumption|]. split; [reflexivity|]. split; [eapply v_contents; eassumption|].
  destruct (strip_spec c) as [E1 E2]. rewrite <- E1. split.
  - destruct (strip_split c) as [k Hk]. rewrite Hk at 1. f_equal. f_equal.
    assert (zlen c = zlen (strip c) + Z.of_nat k) by (rewrite Hk at 1; rewrite zlen_app, zlen_repeat; reflexivity). lia.
  - intros c' Ec. assert (G : strip (strip c) = strip c).
    { unfold strip. rewrite rev_involutive. f_equal. induction (rev c) as [|[t|] r IH]; cbn [drop_none]; auto. }
    rewrite Ec, strip_None in G. apply (f_equal zlen) in G. rewrite zlen_snoc in G.
    destruct (strip_spec c') as [_ G2]. pose proof (leading_nonneg (rev c')). unfold trailing_tomb_stones in G2. lia.
Qed.
Print Assumptions C07_discard_trailing.
Example C07_case : after 128 vd (discard_trailing_tomb_stones_on_page vp 128 vd) = Ok (1, drop_last 1 vc).
Proof. vm_compute; reflexivity. Qed.

(** C08 *)
Theorem C08_swap : forall ps h d p c i j, limits ps h d -> reachable ps h d p -> contents ps d p = Ok c ->
  is_u32 i -> is_u32 j ->
  exists b p', swap_tuples_on_page p ps d i j = Ok (b, p') /\ (b = true <-> i < zlen c /\ j < zlen c) /\
    if b then exists c', contents ps d p' = Ok c' /\ zlen c' = zlen c /\
      nth (Z.to_nat i) c' None = nth (Z.to_nat j) c None /\
      nth (Z.to_nat j) c' None = nth (Z.to_nat i) c None /\
      (forall k, k <> Z.to_nat i -> k <> Z.to_nat j -> nth k c' None = nth k c None)
    else p' = p.
Proof.
  intros ps h d p c i j L R Hc Hi Hj. open_page L R Hc V.
  destruct (v_swap ps d Hps Hdef _ _ _ _ _ _ V Hi Hj) as (p' & E & Rp). eexists; eexists; split; [exact E|].
  split; [lia|]. unfold is_u32 in *. destruct ((i <? zlen c) && (j <? zlen c)) eqn:Eb; [|exact Rp]. destruct Rp as [f' Rp].
  exists (swap_at i j c). split; [eapply v_contents; eassumption|].
  assert (Li : (Z.to_nat i < length c)%nat) by (unfold zlen in *; lia).
  assert (Lj : (Z.to_nat j < length c)%nat) by (unfold zlen in *; lia).
  unfold swap_at. rewrite !(nth_error_nth' c None) by lia.
  assert (L1 : zlen (replace_at j (nth (Z.to_nat i) c None) c) = zlen c) by (apply zlen_replace_at; lia).
  assert (NR : forall (l : content) a x k, 0 <= a < zlen l -> nth k (replace_at a x l) None = if Nat.eqb k (Z.to_nat a) then x else nth k l None).
  { clear. intros l a x k Ha. unfold replace_at, zlen in *.
    assert (Lf : length (firstn (Z.to_nat a) l) = Z.to_nat a) by (apply firstn_length_le; lia).
    destruct (Nat.eqb_spec k (Z.to_nat a)) as [->|Hk].
    - rewrite app_nth2, Lf, Nat.sub_diag by lia. reflexivity.
    - destruct (Nat.lt_ge_cases k (Z.to_nat a)).
      + rewrite app_nth1 by lia. rewrite <- (firstn_skipn (Z.to_nat a) l) at 2. rewrite app_nth1 by lia. reflexivity.
      + rewrite app_nth2, Lf by lia. destruct (k - Z.to_nat a)%nat as [|m] eqn:Em; [lia|]. cbn [nth].
        rewrite <- (firstn_skipn (S (Z.to_nat a)) l) at 2. rewrite app_nth2; rewrite firstn_length_le by lia; [|lia]. f_equal. lia. }
  split; [rewrite zlen_replace_at; lia|].
  split; [rewrite NR, Nat.eqb_refl by lia; reflexivity|].
  split.
  - rewrite NR by lia. destruct (Nat.eqb_spec (Z.to_nat j) (Z.to_nat i)) as [Eij|Eij]; [rewrite <- Eij; reflexivity|].
    rewrite NR, Nat.eqb_refl by lia. reflexivity.
  - intros k K1 K2. rewrite !NR by lia. rewrite (proj2 (Nat.eqb_neq _ _) K1), (proj2 (Nat.eqb_neq _ _) K2). reflexivity.
Qed.
Print Assumptions C08_swap.
Example C08_cases :
  after 128 vd (swap_tuples_on_page vp 128 vd 0 3) = Ok (true, (swap_at 0 3 vc)) /\
  swap_tuples_on_page vp 128 vd 0 5 = Ok (false, vp) /\
  after 128 fd (swap_tuples_on_page fp 128 fd 1 2) = Ok (true, (swap_at 1 2 fc)).
Proof.
  repeat (split; [vm_compute; reflexivity|]).
  vm_compute; reflexivity.
Qed.

(** C09 *)
Theorem C09_queries : forall ps h d p, limits ps h d -> reachable ps h d p ->
  exists c, contents ps d p = Ok c /\
    get_tuple_count_on_page p ps d = Ok (zlen c) /\
    get_tomb_stone_count_on_page p ps d = Ok (tomb_stones c) /\
    forall i, is_u32 i ->
      exists_tuple_on_page p ps d i =
        Ok (match entry c i with Some (Some _) => true | _ => false end) /\
      match entry c i with
      | Some (Some t) => exists o, get_nth_tuple_on_page p ps d i = Ok (Some o) /\
          value_size ps + h <= o /\ o + zlen t <= ps /\
          tuple_size d p o = Ok (zlen t) /\ rd p o (zlen t) = Ok t
      | _ => get_nth_tuple_on_page p ps d i = Ok None
      end.
Proof.
  intros ps h d p L R. open_page0 L R V. exists c. split; [eapply v_contents; eassumption|].
  split; [exact (v_count ps d Hps Hdef _ _ _ _ V)|]. split; [exact (v_tombs ps d Hps Hdef _ _ _ _ V)|].
  intros i Hi. unfold is_u32 in Hi. rewrite (v_exists ps d Hps Hdef _ _ _ _ _ V) by lia.
  destruct (v_get_nth ps d Hps Hdef _ _ _ _ i V ltac:(lia)) as (x & E & Hx). unfold entry.
  destruct (Z.ltb_spec i (zlen c)) as [Hlt|Hge].
  - rewrite (nth_error_nth' c None) by (unfold zlen in *; lia). split; [destruct (nth (Z.to_nat i) c None); reflexivity|].
    destruct (nth (Z.to_nat i) c None) as [t|]; destruct x as [o|]; try (destruct Hx as [Hx|Hx]; [lia|discriminate]).
    + destruct Hx as (_ & t' & Et & H1 & H2 & H3 & H4 & _). inversion Et; subst t'. exists o. rewrite <- Hz. auto.
    + destruct Hx as (_ & t' & Et & _). discriminate.
    + exact E.
  - rewrite (proj2 (nth_error_None c (Z.to_nat i))) by (unfold zlen in *; lia). split; [reflexivity|].
    destruct x as [o|]; [destruct Hx; lia|exact E].
Qed.
Print Assumptions C09_queries.
Example C09_case : get_tuple_count_on_page vp 128 vd = Ok 5 /\ get_tomb_stone_count_on_page vp 128 vd = Ok 2 /\
  exists_tuple_on_page vp 128 vd 0 = Ok false /\ exists_tuple_on_page vp 128 vd 2 = Ok true /\
  get_nth_tuple_on_page vp 128 vd 2 = Ok (Some 108).
Proof. repeat split; vm_compute; reflexivity. Qed.

(** C10 *)
Theorem C10_can_predicts : forall ps h d p i x, limits ps h d -> reachable ps h d p -> is_u32 i -> ext_ok d x ->
  (exists b p', append_tuple_on_page p ps d x = Ok (b, p') /\ can_append_tuple_on_page p ps d x = Ok b) /\
  (exists b p', insert_tuple_on_page p ps d i x = Ok (b, p') /\ can_insert_tuple_on_page p ps d i x = Ok b) /\
  (exists b p', update_tuple_on_page p ps d i x = Ok (b, p') /\ can_update_tuple_on_page p ps d i x = Ok b).
Proof.
  intros ps h d p i x L R Hi Hx. open_page0 L R V. repeat split.
  - destruct (v_append ps d Hps Hdef _ _ _ _ _ V Hx) as (p' & E & E2 & _). eauto.
  - destruct (v_insert ps d Hps Hdef _ _ _ _ _ _ V Hx Hi) as (p' & E & E2 & _). eauto.
  - destruct (v_update ps d Hps Hdef _ _ _ _ _ _ V Hx Hi) as (b & p' & E & E2 & _). eauto.
Qed.
Print Assumptions C10_can_predicts.
Example C10_cases :
  can_append_tuple_on_page vp 128 vd (Some (vt 50 Byte.x7a)) = Ok true /\
  can_append_tuple_on_page vp 128 vd (Some (vt 51 Byte.x7a)) = Ok false /\
  can_update_tuple_on_page vp 128 vd 2 (Some (vt 51 Byte.x7a)) = Ok true /\
  can_update_tuple_on_page vp 128 vd 2 (Some (vt 52 Byte.x7a)) = Ok false.
Proof. repeat split; vm_compute; reflexivity. Qed.

(** C11 *)
Theorem C11_failure_changes_nothing : forall ps h d p op r p', limits ps h d -> reachable ps h d p -> op_ok h d op ->
  can_fail op = true -> run_op ps d op p = Ok (r, p') -> fst r = 0 -> p' = p.
Proof.
  intros ps h d p op r p' L R Ho Hf E Hr. open_page0 L R V. rewrite <- Hz in Ho.
  destruct (step_ok ps d Hps Hdef _ _ _ _ _ V Ho) as (r1 & p1 & hb1 & c1 & f1 & E1 & _ & _ & _ & _ & Hp).
  rewrite E1 in E. inversion E; subst. auto.
Qed.
Print Assumptions C11_failure_changes_nothing.
Example C11_case : run_op 128 vd (Update 2 (Some (vt 90 Byte.x7a))) vp = Ok (0, false, vp).
Proof. vm_compute. reflexivity. Qed.

(** C12: no operation and no query leaves the defined outcomes of the model, in
    which every load and store is checked against the bounds of its buffer *)
Theorem C12_memory_safe : forall ps h d p, limits ps h d -> reachable ps h d p ->
  zlen p = ps /\
  (forall op, op_ok h d op -> exists r p', run_op ps d op p = Ok (r, p') /\ zlen p' = ps) /\
  (forall q, query_ok d q -> exists v, run_query ps d q p = Ok v) /\
  (forall i, is_u32 i -> exists e, read_entry ps d p i = Ok e).
Proof.
  intros ps h d p L R. open_page0 L R V. split; [eapply view_len; eassumption|]. split; [|split].
  - intros op Ho. rewrite <- Hz in Ho.
    destruct (step_ok ps d Hps Hdef _ _ _ _ _ V Ho) as (r1 & p1 & hb1 & c1 & f1 & E1 & V1 & _).
    exists r1, p1. split; [exact E1|]. eapply view_len; eassumption.
  - intros q Hq. eapply query_safe; eassumption.
  - intros i Hi. unfold read_entry. unfold is_u32 in Hi. destruct (v_get_nth ps d Hps Hdef _ _ _ _ i V ltac:(lia)) as (x & E & Hx).
    rewrite E. cbn [bind]. destruct x as [o|]; [|eauto]. destruct Hx as (_ & t & _ & E1 & E2 & _). rewrite E1. cbn [bind].
    rewrite E2. cbn. eauto.
Qed.
Print Assumptions C12_memory_safe.
Example C12_case : limits 128 10 vd /\ reachable 128 10 vd vp /\ op_ok 10 vd (Compact isort true) /\
  op_ok 10 vd (Insert 4294967295 (Some (vt 90 Byte.x7a))) /\ query_ok vd (QOccupied 4294967295 0).
Proof.
  split; [apply v_limits|]. split; [apply v_reachable|]. split; [apply isort_sorts|].
  split; [split; [unfold is_u32; lia|apply vt_ok; lia]|]. unfold query_ok, is_u32. lia.
Qed.

(** C13 *)
Theorem C13_header_kept : forall ps h d p op, limits ps h d -> reachable ps h d p -> op_ok h d op ->
  writes_header op = false ->
  exists r p' hb, run_op ps d op p = Ok (r, p') /\ header ps p = Ok hb /\ zlen hb = h /\ header ps p' = Ok hb.
Proof.
  intros ps h d p op L R Ho Hw. open_page0 L R V. rewrite <- Hz in Ho.
  destruct (step_ok ps d Hps Hdef _ _ _ _ _ V Ho) as (r1 & p1 & hb1 & c1 & f1 & E1 & V1 & _ & _ & Hh1 & _).
  exists r1, p1, hb. split; [exact E1|]. split; [eapply v_header; eassumption|]. split; [exact Hz|].
  rewrite <- (Hh1 Hw). eapply v_header; eassumption.
Qed.
Print Assumptions C13_header_kept.
Theorem C13_header_write : forall ps h d p at_ bs, limits ps h d -> reachable ps h d p ->
  0 <= at_ -> at_ + zlen bs <= h ->
  exists hb p', header ps p = Ok hb /\ write_page_header p ps at_ bs = Ok p' /\
    header ps p' = Ok (upd hb at_ bs) /\ contents ps d p' = contents ps d p /\
    forall q, query_ok d q -> run_query ps d q p' = run_query ps d q p.
Proof.
  intros ps h d p at_ bs L R Ha Hb. open_page0 L R V. rewrite <- Hz in Hb.
  destruct (v_write_header ps d Hps Hdef _ _ _ _ at_ bs V Ha Hb) as (p' & E & V').
  destruct (write_header_twin ps d Hps Hdef _ _ _ _ at_ bs V Ha Hb) as (p'' & E'' & T). rewrite E in E''. inversion E''; subst p''.
  exists hb, p'. split; [eapply v_header; eassumption|]. split; [exact E|]. split; [eapply v_header; eassumption|].
  split; [rewrite (v_contents ps d Hps Hdef _ _ _ _ V), (v_contents ps d Hps Hdef _ _ _ _ V'); reflexivity|].
  intros q Hq. apply twin_queries; assumption.
Qed.
Print Assumptions C13_header_write.
Example C13_case : header 128 vp = Ok (upd (repeat Byte.x00 10) 2 [Byte.x41; Byte.x42]).
Proof. vm_compute. reflexivity. Qed.

(** C14 *)
Theorem C14_compaction : forall ps h d p c srt, limits ps h d -> reachable ps h d p -> contents ps d p = Ok c ->
  sorts srt ->
  exists b p' g f f' a o, run_page_compaction srt true p ps d = Ok (b, false, p') /\
    contents ps d p' = Ok c /\ header ps p' = header ps p /\
    get_fragmentation_space_on_page p ps d = Ok g /\ (b = true <-> g <> 0) /\
    get_fragmentation_space_on_page p' ps d = Ok 0 /\
    get_free_space_on_page p ps d = Ok f /\ get_free_space_on_page p' ps d = Ok f' /\
    get_space_allotted_to_all_tuples_on_page p' ps d = Ok a /\
    get_space_occupied_by_all_tuples_on_page p' ps d = Ok o /\ f <= f' /\ f' = a - o.
Proof.
  intros ps h d p c srt L R Hc Hs. open_page L R Hc V.
  destruct (v_compact ps d Hps _ _ _ _ srt V Hs) as (p' & E & V').
  pose proof (v_bounds ps d Hps Hdef _ _ _ _ V) as Bd.
  do 7 eexists. split; [exact E|]. split; [eapply v_contents; eassumption|].
  split; [rewrite (v_header ps d Hps Hdef _ _ _ _ V), (v_header ps d Hps Hdef _ _ _ _ V'); reflexivity|].
  split; [eapply v_frag; eassumption|]. split; [lia|].
  split; [rewrite (v_frag ps d Hps Hdef _ _ _ _ V'); f_equal; lia|].
  split; [eapply v_free; eassumption|]. split; [eapply v_free; eassumption|]. split; [eapply v_allotted; eassumption|].
  split; [eapply v_occupied; eassumption|]. lia.
Qed.
Print Assumptions C14_compaction.
Theorem C14_no_memory : forall ps h d p srt, limits ps h d -> reachable ps h d p ->
  run_page_compaction srt false p ps d = Ok (false, sd_variable d, p).
Proof. intros ps h d p srt L R. open_page0 L R V. eapply v_compact_nomem; eassumption. Qed.
Print Assumptions C14_no_memory.
Example C14_case : sorts isort /\ get_fragmentation_space_on_page vp 128 vd = Ok 11 /\
  after 128 vd (run_page_compaction isort true vp 128 vd) = Ok (true, false, vc) /\
  (let* (_, p') := run_page_compaction isort true vp 128 vd in get_fragmentation_space_on_page p' 128 vd) = Ok 0.
Proof.
  split; [apply isort_sorts|]. repeat split; vm_compute; reflexivity.
Qed.

(** C15 *)
Theorem C15_zero_out : forall ps h d p c, limits ps h d -> reachable ps h d p -> contents ps d p = Ok c ->
  exists b p' f a, zero_out_free_space_on_page p ps d = Ok (b, p') /\ get_free_space_on_page p ps d = Ok f /\
    (b = true <-> f <> 0) /\ contents ps d p' = Ok c /\ header ps p' = header ps p /\
    (forall q, query_ok d q -> run_query ps d q p' = run_query ps d q p) /\
    (* the free region is [a, a+f): outside nothing changes, inside everything is 0 *)
    0 <= a /\ a + f <= ps /\ zlen p' = ps /\
    (forall o, 0 <= o < a \/ a + f <= o < ps -> slice p' o 1 = slice p o 1) /\
    slice p' a f = repeat Byte.x00 (Z.to_nat f).
Proof.
  intros ps h d p c L R Hc. open_page L R Hc V.
  destruct (v_zero_out ps d Hps Hdef _ _ _ _ V) as (p' & a & E & V' & A0 & A1 & G1 & G2).
  destruct (zero_out_twin ps d Hps Hdef _ _ _ _ V) as (b2 & p'' & E'' & T). rewrite E in E''. inversion E''; subst p''.
  pose proof (v_bounds ps d Hps Hdef _ _ _ _ V) as Bd.
  exists (negb (f =? 0)), p', f, a. split; [exact E|]. split; [eapply v_free; eassumption|]. split; [lia|].
  split; [eapply v_contents; eassumption|].
  split; [rewrite (v_header ps d Hps Hdef _ _ _ _ V), (v_header ps d Hps Hdef _ _ _ _ V'); reflexivity|].
  split; [intros q Hq; apply twin_queries; assumption|]. split; [exact A0|]. split; [exact A1|].
  split; [eapply view_len; eassumption|]. split; [|exact G2]. intros o Ho. apply G1; lia.
Qed.
Print Assumptions C15_zero_out.
Example C15_case : after 128 vd (zero_out_free_space_on_page vp 128 vd) = Ok (true, vc) /\
  rd vp 30 1 = Ok [Byte.xff] /\ (let* (_, p') := zero_out_free_space_on_page vp 128 vd in rd p' 30 1) = Ok [Byte.x00].
Proof. repeat split; vm_compute; reflexivity. Qed.

(** C16 *)
Theorem C16_space_identity : forall ps h d p c, limits ps h d -> reachable ps h d p -> contents ps d p = Ok c ->
  (exists a o f g, get_space_allotted_to_all_tuples_on_page p ps d = Ok a /\
    get_space_occupied_by_all_tuples_on_page p ps d = Ok o /\ get_free_space_on_page p ps d = Ok f /\
    get_fragmentation_space_on_page p ps d = Ok g /\
    a = o + f + g /\ 0 <= o /\ 0 <= f /\ 0 <= g /\ a < ps /\
    o = total_space ps d c) /\
  (forall x, In x c -> get_space_to_be_occupied_by_tuple_on_page ps d x = Ok (entry_space ps d x)) /\
  get_space_occupied_by_all_tomb_stones_on_page p ps d = Ok (tomb_stones c * entry_space ps d None) /\
  (forall i j, is_u32 i -> is_u32 j -> get_space_occupied_by_tuples_on_page p ps d i j =
     Ok (if (i <=? j) && (j <? zlen c) then total_space ps d (slice c i (j - i + 1)) else 0)).
Proof.
  intros ps h d p c L R Hc. open_page L R Hc V. pose proof (v_bounds ps d Hps Hdef _ _ _ _ V) as Bd. split; [|split; [|split]].
  - do 4 eexists. split; [eapply v_allotted; eassumption|]. split; [eapply v_occupied; eassumption|].
    split; [eapply v_free; eassumption|]. split; [eapply v_frag; eassumption|]. repeat split; lia.
  - intros x Hx. apply v_to_be_occupied; [assumption|]. eapply view_ext_ok; eassumption.
  - eapply v_occupied_tombs; eassumption.
  - intros i j Hi Hj. unfold is_u32 in *. eapply v_occupied_range; try eassumption; lia.
Qed.
Print Assumptions C16_space_identity.
Example C16_case : get_space_allotted_to_all_tuples_on_page vp 128 vd = Ok 113 /\
  get_space_occupied_by_all_tuples_on_page vp 128 vd = Ok 51 /\ get_free_space_on_page vp 128 vd = Ok 51 /\
  get_fragmentation_space_on_page vp 128 vd = Ok 11 /\ get_space_occupied_by_tuples_on_page vp 128 vd 1 3 = Ok 49.
Proof. repeat split; vm_compute; reflexivity. Qed.

(** C17 *)
Theorem C17_allotted : forall ps h d p c, limits ps h d -> reachable ps h d p -> contents ps d p = Ok c ->
  get_space_allotted_to_all_tuples_on_page p ps d = Ok (get_space_to_be_allotted_to_all_tuples_on_page h ps d) /\
  (c = [] -> get_free_space_on_page p ps d = Ok (get_space_to_be_allotted_to_all_tuples_on_page h ps d)).
Proof.
  intros ps h d p c L R Hc. open_page L R Hc V. pose proof (v_bounds ps d Hps Hdef _ _ _ _ V) as Bd.
  assert (E : allot ps d (zlen hb) = get_space_to_be_allotted_to_all_tuples_on_page h ps d).
  { rewrite Hz. unfold allot, get_space_to_be_allotted_to_all_tuples_on_page, get_page_layout_type, is_variable_sized.
    pose proof (value_size_range ps). destruct (sd_variable d) eqn:Ev.
    - unfold sl_space_to_be_allotted. pose proof (eq_refl : max_bytes = 2147483520). rewrite u32_id by lia. lia.
    - destruct (fr_to_be_allotted ps d Hps Hdef Ev h) as [E _]; [lia|lia|]. symmetry. exact E. }
  split; [rewrite <- E; eapply v_allotted; eassumption|]. intros ->.
  rewrite (v_free ps d Hps Hdef _ _ _ _ V), <- E. f_equal. clear Bd E. revert V. unfold view, allot. destruct (sd_variable d).
  - intros (es & S & Ec & ->). destruct es; [|discriminate]. unfold sfree. cbn [eofs]. rewrite zlen_nil. lia.
  - intros [_ ->]. rewrite zlen_nil. lia.
Qed.
Print Assumptions C17_allotted.
Example C17_case : get_space_to_be_allotted_to_all_tuples_on_page 10 128 vd = 113 /\
  get_space_to_be_allotted_to_all_tuples_on_page 20 128 fd = 104.
Proof. split; vm_compute; reflexivity. Qed.

(** C18 *)
Theorem C18_append_iff_space : forall ps h d p c x, limits ps h d -> reachable ps h d p -> contents ps d p = Ok c ->
  ext_ok d x ->
  exists b p' n f f' m, append_tuple_on_page p ps d x = Ok (b, p') /\
    get_space_to_be_occupied_by_tuple_on_page ps d x = Ok n /\
    get_free_space_on_page p ps d = Ok f /\ get_free_space_on_page p' ps d = Ok f' /\
    get_maximum_tuple_count_on_page h ps d = Ok m /\
    (if sd_variable d then b = true <-> n <= f else b = true <-> zlen c < m) /\
    f' = if b then f - n else f.
Proof.
  intros ps h d p c x L R Hc Hx. open_page L R Hc V.
  destruct (v_append ps d Hps Hdef _ _ _ _ _ V Hx) as (p' & E & _ & Rp).
  destruct (max_count_spec ps d Hps Hdef h Hh) as (m & Em & _ & _ & Hm).
  exists (room ps d (zlen hb) c f x), p', (entry_space ps d x), f, (if room ps d (zlen hb) c f x then f - entry_space ps d x else f), m.
  split; [exact E|]. split; [apply v_to_be_occupied; assumption|]. split; [eapply v_free; eassumption|].
  split. { destruct (room ps d (zlen hb) c f x); [eapply v_free; eassumption|subst p'; eapply v_free; eassumption]. }
  split; [exact Em|]. split; [|reflexivity]. unfold room. destruct (sd_variable d); [lia|]. rewrite Hz, Hm by reflexivity. lia.
Qed.
Print Assumptions C18_append_iff_space.
Example C18_case : get_space_to_be_occupied_by_tuple_on_page 128 vd (Some (vt 50 Byte.x7a)) = Ok 51 /\
  get_free_space_on_page vp 128 vd = Ok 51 /\ get_maximum_tuple_count_on_page 20 128 fd = Ok 6.
Proof. repeat split; vm_compute; reflexivity. Qed.

(** C19 *)
Theorem C19_update_retry : forall ps h d p c i t srt, limits ps h d -> reachable ps h d p -> contents ps d p = Ok c ->
  is_u32 i -> i < zlen c -> tuple_ok d t -> sorts srt ->
  exists p1 m p2 b p3 a, update_tuple_on_page p ps d i None = Ok (true, p1) /\
    run_page_compaction srt true p1 ps d = Ok (m, false, p2) /\
    update_tuple_on_page p2 ps d i (Some t) = Ok (b, p3) /\
    get_space_allotted_to_all_tuples_on_page p ps d = Ok a /\
    (b = true <-> total_space ps d (replace_at i (Some t) c) <= a) /\
    contents ps d p3 = Ok (if b then replace_at i (Some t) c else replace_at i None c).
Proof.
  intros ps h d p c i t srt L R Hc Hi Hlt Ht Hs. open_page L R Hc V.
  destruct (v_update ps d Hps Hdef _ _ _ _ i None V I Hi) as (b1 & p1 & E1 & _ & _ & B1 & _ & _ & _ & R1).
  rewrite (B1 Hlt (or_introl eq_refl)) in *. destruct R1 as [f1 V1].
  destruct (v_compact ps d Hps _ _ _ _ srt V1 Hs) as (p2 & E2 & V2).
  unfold is_u32 in Hi.
  assert (Lc : zlen (replace_at i None c) = zlen c) by (apply zlen_replace_at; lia).
  destruct (v_update ps d Hps Hdef _ _ _ _ i (Some t) V2 Ht Hi) as (b & p3 & E3 & _ & _ & B2 & B3 & _ & _ & R3).
  rewrite Lc in *.
  assert (Sp : total_space ps d (replace_at i (Some t) c) = total_space ps d (replace_at i None c) + entry_space ps d (Some t) - entry_space ps d None).
  { unfold replace_at. rewrite !total_space_app. cbn [total_space]. lia. }
  assert (Nn : nth (Z.to_nat i) (replace_at i None c) None = None).
  { unfold replace_at. assert (Lf : length (firstn (Z.to_nat i) c) = Z.to_nat i) by (apply firstn_length_le; unfold zlen in *; lia).
    rewrite app_nth2, Lf, Nat.sub_diag by lia. reflexivity. }
  assert (Rr : replace_at i (Some t) (replace_at i None c) = replace_at i (Some t) c).
  { unfold replace_at. assert (Lf : length (firstn (Z.to_nat i) c) = Z.to_nat i) by (apply firstn_length_le; unfold zlen in *; lia).
    rewrite firstn_app, firstn_firstn, Nat.min_id, Lf, Nat.sub_diag. cbn [firstn]. rewrite app_nil_r. f_equal. f_equal.
    rewrite skipn_app, Lf. replace (S (Z.to_nat i) - Z.to_nat i)%nat with 1%nat by lia.
    rewrite (skipn_all2 (firstn (Z.to_nat i) c)) by lia. reflexivity. }
  pose proof (v_bounds ps d Hps Hdef _ _ _ _ V2) as Bd2.
  exists p1. do 2 eexists. exists b, p3, (allot ps d (zlen hb)). split; [exact E1|]. split; [exact E2|]. split; [exact E3|].
  split; [eapply v_allotted; eassumption|]. split.
  - rewrite Sp. unfold entry_space in *. destruct (sd_variable d) eqn:Ev.
    + rewrite (B3 Hlt eq_refl Nn). cbn [xlen]. lia.
    + rewrite (B2 Hlt (or_intror eq_refl)). split; [lia|reflexivity].
  - destruct b.
    + destruct R3 as [f3 V3]. rewrite Rr in V3. eapply v_contents; eassumption.
    + subst p3. eapply v_contents; eassumption.
Qed.
Print Assumptions C19_update_retry.
Example C19_case : (* the update alone fails, the documented sequence succeeds *)
  update_tuple_on_page vp 128 vd 2 (Some (vt 74 Byte.x7a)) = Ok (false, vp) /\
  total_space 128 vd (replace_at 2 (Some (vt 74 Byte.x7a)) vc) = 113.
Proof. split; vm_compute; reflexivity. Qed.

(** C20 *)
Theorem C20_min_page_size_sufficient : forall h d n t p0, 1 <= n -> 0 <= h ->
  h + n * (min_tuple_size d + 4) + 64 <= max_bytes -> (* no overflow in get_minimum_page_size *)
  limits (get_minimum_page_size h d n) h d -> zlen p0 = get_minimum_page_size h d n ->
  tuple_ok d t -> zlen t = min_tuple_size d ->
  let ps := get_minimum_page_size h d n in
  exists p p', init_page p0 ps h d = Ok (true, p) /\ append_times ps d (Z.to_nat n) t p = Ok (true, p') /\
    contents ps d p' = Ok (repeat (Some t) (Z.to_nat n)).
Proof.
  intros h d n t p0 Hn Hh Hb (Hps & Hhps & Hdef) Hl Ht Hz ps. fold ps in Hps, Hhps, Hl. unfold min_tuple_size in *.
  destruct (min_page_size_spec d Hdef h n) as [M1 M2]; [lia|lia|lia|]. fold ps in M1, M2.
  destruct (v_init ps d Hps Hdef p0 h Hl Hhps) as (p & E & V).
  assert (Hs : 1 <= sd_size d) by (destruct Hdef; lia).
  assert (Le : (get_minimum_page_size h d 1 <=? ps) = true).
  { destruct (min_page_size_spec d Hdef h 1) as [N1 N2]; [lia|lia|nia|].
    destruct (Z.leb_spec (get_minimum_page_size h d 1) ps) as [|G]; [reflexivity|]. apply N2 in G.
    assert (need d ps h 1 <= need d ps h n); [|lia]. unfold need, bitmap_size_in_bytes. pose proof (value_size_range ps).
    destruct (sd_variable d); nia. }
  rewrite Le in *.
  destruct (fresh_appends ps d Hps Hdef h p0 p t n Hhps Hl E Ht Hz) as (p' & f & E' & V' & _); [lia|lia|].
  exists p, p'. split; [exact E|]. split; [exact E'|]. eapply v_contents; eassumption.
Qed.
Print Assumptions C20_min_page_size_sufficient.
Theorem C20_min_page_size_minimal : forall ps h d n p c, 1 <= n ->
  h + n * (min_tuple_size d + 4) + 64 <= max_bytes ->
  limits ps h d -> ps < get_minimum_page_size h d n ->
  reachable ps h d p -> contents ps d p = Ok c -> big_enough d c ->
  zlen c - tomb_stones c < n.
Proof.
  intros ps h d n p c Hn Hb L Hlt R Hc B. open_page L R Hc V. unfold min_tuple_size in *.
  destruct (min_page_size_spec d Hdef h n) as [M1 M2]; [lia|lia|lia|]. apply M2 in Hlt.
  destruct (view_count_bound ps d Hps Hdef _ _ _ _ V B) as [Nd _]. rewrite Hz in Nd.
  assert (Hs : 1 <= sd_size d) by (destruct Hdef; lia). pose proof (value_size_range ps).
  destruct (Z.lt_ge_cases (zlen c - tomb_stones c) n) as [|G]; [assumption|].
  assert (need d ps h n <= need d ps h (zlen c - tomb_stones c)); [|lia].
  unfold need, bitmap_size_in_bytes. destruct (sd_variable d); nia.
Qed.
Print Assumptions C20_min_page_size_minimal.
Example C20_case : get_minimum_page_size 10 vd 70 = 370 /\ limits 370 10 vd /\
  get_minimum_page_size 10 fd 30 = 500 /\ limits 500 10 fd.
Proof. repeat split; vm_compute; congruence. Qed.

(** C21 *)
Theorem C21_max_tuple_count_bound : forall ps h d p c, limits ps h d -> reachable ps h d p -> contents ps d p = Ok c ->
  big_enough d c ->
  exists n, get_maximum_tuple_count_on_page h ps d = Ok n /\ zlen c - tomb_stones c <= n /\
    (sd_variable d = false -> zlen c <= n).
Proof.
  intros ps h d p c L R Hc B. open_page L R Hc V.
  destruct (max_count_spec ps d Hps Hdef h Hh) as (n & En & _ & Hn & Hf). exists n. split; [exact En|].
  destruct (view_count_bound ps d Hps Hdef _ _ _ _ V B) as [Nd Nf]. rewrite Hz in *. pose proof (ts_range c).
  split; [apply Hn; [lia|exact Nd]|]. intro Ev. rewrite (Hf Ev). auto.
Qed.
Print Assumptions C21_max_tuple_count_bound.
Theorem C21_max_tuple_count_reached : forall ps h d p0 p t, limits ps h d -> zlen p0 = ps ->
  init_page p0 ps h d = Ok (true, p) -> tuple_ok d t -> zlen t = min_tuple_size d ->
  exists n p', get_maximum_tuple_count_on_page h ps d = Ok n /\
    append_times ps d (Z.to_nat n) t p = Ok (true, p') /\
    contents ps d p' = Ok (repeat (Some t) (Z.to_nat n)) /\
    append_tuple_on_page p' ps d (Some t) = Ok (false, p').
Proof.
  intros ps h d p0 p t (Hps & Hh & Hdef) Hl E Ht Hz. unfold min_tuple_size in *.
  destruct (max_count_spec ps d Hps Hdef h Hh) as (n & En & N0 & Hn & Hf).
  destruct (fresh_appends ps d Hps Hdef h p0 p t n Hh Hl E Ht Hz N0) as (p' & f & E' & V' & Fv); [apply Hn; lia|].
  exists n, p'. split; [exact En|]. split; [exact E'|]. split; [eapply v_contents; eassumption|].
  destruct (v_append ps d Hps Hdef _ _ _ _ (Some t) V' Ht) as (p2 & E2 & _ & R2). rewrite E2.
  assert (Rm : room ps d (zlen (repeat Byte.x00 (Z.to_nat h))) (repeat (Some t) (Z.to_nat n)) f (Some t) = false).
  { unfold room, entry_space. rewrite !zlen_repeat, !Z2Nat.id by lia. destruct (sd_variable d) eqn:Ev.
    - rewrite Fv by reflexivity. cbn [xlen]. rewrite Hz. destruct (Hn (n + 1)) as [_ Hn']; [lia|]. unfold need in Hn'. rewrite Ev in Hn'. lia.
    - rewrite (Hf eq_refl). lia. }
  rewrite Rm in *. subst p2. reflexivity.
Qed.
Print Assumptions C21_max_tuple_count_reached.
Example C21_case : get_maximum_tuple_count_on_page 10 128 vd = Ok 28 /\ get_maximum_tuple_count_on_page 20 128 fd = Ok 6 /\
  big_enough vd vc /\ tuple_ok vd (vt 3 Byte.x61) /\ zlen (vt 3 Byte.x61) = min_tuple_size vd.
Proof.
  split; [vm_compute; reflexivity|]. split; [vm_compute; reflexivity|]. split; [repeat constructor; vm_compute; discriminate|].
  split; [apply (vt_ok 3 Byte.x61); lia|reflexivity].
Qed.
(** tomb stones are not covered by the bound on slotted pages: 29 entries *)
Example C21_tomb_stones_exceed :
  (let* p' := run_ops 128 vd (repeat (Append None) 29) (fresh 128 10 vd) in get_tuple_count_on_page p' 128 vd) = Ok 29.
Proof. vm_compute. reflexivity. Qed.

(** C22 *)
Theorem C22_max_tuple_size : forall ps h d p0 p t, limits ps h d -> zlen p0 = ps ->
  init_page p0 ps h d = Ok (true, p) -> tuple_ok d t ->
  exists b p', append_tuple_on_page p ps d (Some t) = Ok (b, p') /\
    (b = true <-> zlen t <= get_maximum_tuple_size_accomodatable_on_page h ps d).
Proof.
  intros ps h d p0 p t (Hps & Hh & Hdef) Hl E Ht.
  destruct (v_init ps d Hps Hdef p0 h Hl Hh) as (p1 & E1 & V). rewrite E1 in E. injection E as Eb Ep. rewrite Eb in V. subst p1.
  destruct (v_append ps d Hps Hdef _ _ _ _ (Some t) V Ht) as (p2 & E2 & _ & _). eexists; eexists; split; [exact E2|].
  pose proof (tuple_ok_pos _ _ Hdef Ht). pose proof (value_size_range ps). pose proof (eq_refl : max_bytes = 2147483520).
  unfold room, entry_space, allot, get_maximum_tuple_size_accomodatable_on_page, get_page_layout_type, is_variable_sized.
  rewrite !zlen_repeat, !Z2Nat.id by lia.
  destruct (sd_variable d) eqn:Ev.
  - unfold sl_max_tuple_size, sl_space_to_be_allotted, sl_overhead. cbn [xlen]. rewrite (u32_id (ps - _)) by lia.
    destruct (Z.ltb_spec (value_size ps) (ps - (value_size ps + h + 4 * value_size ps))); rewrite ?u32_id by lia; lia.
  - unfold fa_max_tuple_size, fa_space_with_bitmap. rewrite (u32_id (ps - _)) by lia. rewrite u32_id by lia. rewrite zlen_nil.
    pose proof (fcap_spec ps d Hps Hdef h 1 Ev Hh ltac:(lia)) as F. unfold bitmap_size_in_bytes in F. change ((1 + 7) / 8) with 1 in F.
    assert (Hs : zlen t = sd_size d) by (destruct Ht as [Ht _]; unfold tuple_size in Ht; rewrite Ev in Ht; cbn in Ht; congruence).
    lia.
Qed.
Print Assumptions C22_max_tuple_size.
Example C22_case : get_maximum_tuple_size_accomodatable_on_page 10 128 (mk_size_def true 3 200 true false false false 0) = 112 /\
  get_maximum_tuple_size_accomodatable_on_page 20 128 fd = 104.
Proof. split; vm_compute; reflexivity. Qed.

(** C23: false of the code.  [get_minimum_page_size] computes with the width of
    the integers on a page of that minimal size; a larger page may use wider
    integers.  Witnesses for both layouts. *)
Theorem C23_init_implies_one_tuple_refuted :
  (exists ps h d p0 p t, limits ps h d /\ sd_variable d = true /\ zlen p0 = ps /\ init_page p0 ps h d = Ok (true, p) /\
     tuple_ok d t /\ zlen t = min_tuple_size d /\ append_tuple_on_page p ps d (Some t) = Ok (false, p)) /\
  (exists ps h d p0 p t, limits ps h d /\ sd_variable d = false /\ zlen p0 = ps /\ init_page p0 ps h d = Ok (true, p) /\
     tuple_ok d t /\ zlen t = min_tuple_size d /\ append_tuple_on_page p ps d (Some t) = Ok (false, p)).
Proof.
  split.
  - exists 257, 100, (mk_size_def true 150 200 true false false false 0), (repeat Byte.x00 257).
    eexists. exists (vt 150 Byte.x61). repeat split; try (vm_compute; congruence).
  - exists 257, 0, (mk_size_def false 252 0 false false false false 0), (repeat Byte.x00 257).
    eexists. exists (repeat Byte.x61 252). repeat split; try (vm_compute; congruence).
Qed.
Print Assumptions C23_init_implies_one_tuple_refuted.
(** what holds: when the page is in the same width class as the minimal one.
    Missing: page sizes just above a width boundary (256, 65536, 16777216),
    where the claim is false. *)
Theorem C23_init_implies_one_tuple_partial : forall ps h d p0 p t, limits ps h d ->
  h + min_tuple_size d + 68 <= max_bytes -> zlen p0 = ps ->
  init_page p0 ps h d = Ok (true, p) -> tuple_ok d t -> zlen t = min_tuple_size d ->
  value_size (get_minimum_page_size h d 1) = value_size ps ->
  exists p', append_tuple_on_page p ps d (Some t) = Ok (true, p') /\ contents ps d p' = Ok [Some t].
Proof.
  intros ps h d p0 p t (Hps & Hh & Hdef) Hb Hl E Ht Hz Hv. unfold min_tuple_size in *.
  assert (Hm : get_minimum_page_size h d 1 <= ps).
  { destruct (v_init ps d Hps Hdef p0 h Hl Hh) as (p1 & E1 & V). rewrite E1 in E. injection E as Eb _. lia. }
  destruct (min_page_size_spec d Hdef h 1) as [N1 _]; [lia|lia|lia|].
  assert (Nd : need d ps h 1 <= ps) by (unfold need in *; rewrite Hv in N1; lia).
  destruct (fresh_appends ps d Hps Hdef h p0 p t 1 Hh Hl E Ht Hz) as (p' & f & E' & V' & _); [lia|exact Nd|].
  change (Z.to_nat 1) with 1%nat in *. cbn [append_times] in E'. exists p'.
  destruct (append_tuple_on_page p ps d (Some t)) as [[b p2]|]; [|discriminate]. cbn [bind] in E'.
  destruct b; [|discriminate]. injection E' as ->. split; [reflexivity|]. exact (v_contents ps d Hps Hdef _ _ _ _ V').
Qed.
Print Assumptions C23_init_implies_one_tuple_partial.
(** the exceptions exactly: the page is above one of the three sizes at which
    the integers on a page get wider, the minimal page is not, and the page is
    less than [k] bytes larger than the minimal page, where [k] is the number of
    integers on a page with one tuple (6 on slotted pages, 3 on others) *)
Theorem C23_exceptions : forall ps h d p0 p t, limits ps h d ->
  h + min_tuple_size d + 68 <= max_bytes -> zlen p0 = ps ->
  init_page p0 ps h d = Ok (true, p) -> tuple_ok d t -> zlen t = min_tuple_size d ->
  exists b p', append_tuple_on_page p ps d (Some t) = Ok (b, p')
  /\ (b = false <-> exists w, In w [256; 65536; 16777216] /\ get_minimum_page_size h d 1 <= w < ps
                   /\ ps < get_minimum_page_size h d 1 + (if sd_variable d then 6 else 3))
  /\ contents ps d p' = Ok (if b then [Some t] else []).
Proof.
  intros ps h d p0 p t (Hps & Hh & Hdef) Hb Hl E Ht Hz. unfold min_tuple_size in *.
  assert (Hm : get_minimum_page_size h d 1 <= ps).
  { destruct (v_init ps d Hps Hdef p0 h Hl Hh) as (p1 & E1 & V). rewrite E1 in E. injection E as Eb _. lia. }
  destruct (min_page_size_spec d Hdef h 1) as [N1 _]; [lia|lia|lia|].
  assert (W : forall q, q <= 256 /\ value_size q = 1 \/ 256 < q <= 65536 /\ value_size q = 2 \/
       65536 < q <= 16777216 /\ value_size q = 3 \/ 16777216 < q /\ value_size q = 4).
  { intro q. unfold value_size. destruct (Z.leb_spec q 16777216), (Z.leb_spec q 65536), (Z.leb_spec q 256); lia. }
  set (mp := get_minimum_page_size h d 1) in *. set (k := if sd_variable d then 6 else 3).
  assert (ND : need d ps h 1 = mp + k * (value_size ps - value_size mp)).
  { rewrite N1 at 1. unfold need, k. destruct (sd_variable d); lia. }
  assert (EX : ps < need d ps h 1 <-> exists w, In w [256; 65536; 16777216] /\ mp <= w < ps /\ ps < mp + k).
  { rewrite ND. clear - W Hm. assert (K : 3 <= k <= 6) by (unfold k; destruct (sd_variable d); lia). clearbody mp k. cbn [In]. split.
    - intro L. destruct (W ps) as [[? E1]|[[? E1]|[[? E1]|[? E1]]]], (W mp) as [[? E2]|[[? E2]|[[? E2]|[? E2]]]]; rewrite E1, E2 in L; try lia.
      + exists 256. lia.
      + exists 65536. lia.
      + exists 16777216. lia.
    - intros (w & I & R & L). destruct (W ps) as [[? E1]|[[? E1]|[[? E1]|[? E1]]]], (W mp) as [[? E2]|[[? E2]|[[? E2]|[? E2]]]]; rewrite E1, E2; lia. }
  destruct (v_init ps d Hps Hdef p0 h Hl Hh) as (p1 & E1 & V). rewrite E1 in E. injection E as Eb Ep. rewrite Eb in V. subst p1.
  destruct (v_append ps d Hps Hdef _ _ _ _ (Some t) V Ht) as (p2 & E2 & _ & R2).
  set (b := room ps d (zlen (repeat Byte.x00 (Z.to_nat h))) [] _ (Some t)) in *.
  exists b, p2. split; [exact E2|].
  assert (B : b = false <-> ps < need d ps h 1).
  { unfold b, room, entry_space, need, allot. rewrite !zlen_repeat, !Z2Nat.id by lia. cbn [xlen]. rewrite Hz. destruct (sd_variable d) eqn:Ev.
    - lia.
    - rewrite zlen_nil. pose proof (fcap_spec ps d Hps Hdef h 1 Ev Hh ltac:(lia)) as F. lia. }
  split; [rewrite B; exact EX|].
  clearbody b. destruct b; [exact (v_contents ps d Hps Hdef _ _ _ _ R2)|]. subst p2. exact (v_contents ps d Hps Hdef _ _ _ _ V).
Qed.
Print Assumptions C23_exceptions.
Example C23_case : limits 128 10 vd /\ value_size (get_minimum_page_size 10 vd 1) = value_size 128 /\
  get_minimum_page_size 10 vd 1 = 19.
Proof. split; [apply v_limits|]. split; vm_compute; reflexivity. Qed.
Example C23_exceptions_case : let d := mk_size_def true 150 200 true false false false 0 in
  get_minimum_page_size 100 d 1 = 256 /\ limits 257 100 d /\ 256 <= 256 < 257 /\ 257 < 256 + 6.
Proof. repeat split; vm_compute; congruence. Qed.

(** C24 *)
Theorem C24_history_is_a_list : forall ps h d p0 p l p', limits ps h d -> zlen p0 = ps ->
  init_page p0 ps h d = Ok (true, p) -> Forall (fun x => op_ok h d (fst x)) l -> execution ps d p l p' ->
  exists c, list_execution [] l c /\ contents ps d p' = Ok c.
Proof.
  intros ps h d p0 p l p' (Hps & Hh & Hdef) Hl E Fo X.
  destruct (v_init ps d Hps Hdef p0 h Hl Hh) as (p1 & E1 & V). rewrite E1 in E. injection E as Eb Ep. rewrite Eb in V. subst p1.
  assert (Hz : zlen (repeat Byte.x00 (Z.to_nat h)) = h) by (rewrite zlen_repeat; lia).
  revert V Hz. generalize (repeat Byte.x00 (Z.to_nat h)), (@nil (option (list byte))), (allot ps d h).
  clear E1 Eb Hl. induction X as [p|p op r p1 l p2 Er X IH]; intros hb c f V Hz.
  - exists c. split; [constructor|]. eapply v_contents; eassumption.
  - inversion Fo as [|? ? Ho Fo']; subst. cbn [fst] in Ho.
    destruct (step_ok ps d Hps Hdef _ _ _ _ _ V Ho) as (r1 & p1' & hb1 & c1 & f1 & E1 & V1 & Ef & Z1 & _).
    rewrite Er in E1. inversion E1; subst r1 p1'.
    destruct (IH Fo' _ _ _ V1 Z1) as (c2 & X2 & Hc2). exists c2. split; [econstructor; eassumption|exact Hc2].
Qed.
Print Assumptions C24_history_is_a_list.
(** and every such sequence can be executed *)
Theorem C24_history_runs : forall ps h d p0 p ops, limits ps h d -> zlen p0 = ps ->
  init_page p0 ps h d = Ok (true, p) -> Forall (op_ok h d) ops ->
  exists rs p', length rs = length ops /\ execution ps d p (combine ops rs) p'.
Proof.
  intros ps h d p0 p ops (Hps & Hh & Hdef) Hl E Fo.
  destruct (v_init ps d Hps Hdef p0 h Hl Hh) as (p1 & E1 & V). rewrite E1 in E. injection E as Eb Ep. rewrite Eb in V. subst p1.
  assert (Hz : zlen (repeat Byte.x00 (Z.to_nat h)) = h) by (rewrite zlen_repeat; lia).
  revert p V Hz E1. generalize (repeat Byte.x00 (Z.to_nat h)), (@nil (option (list byte))), (allot ps d h).
  induction Fo as [|op ops Ho Fo IH]; intros hb c f p V Hz _.
  - exists [], p. split; [reflexivity|constructor].
  - rewrite <- Hz in Ho.
    destruct (step_ok ps d Hps Hdef _ _ _ _ _ V Ho) as (r1 & p1' & hb1 & c1 & f1 & E1 & V1 & Ef & Z1 & _).
    destruct (v_init ps d Hps Hdef p0 h Hl Hh) as (q & Eq & _).
    assert (exists rs p', length rs = length ops /\ execution ps d p1' (combine ops rs) p') as (rs & p' & Lr & Xr).
    { clear IH Ef. rewrite Hz in Z1. clear Hz Ho V E1. revert p1' hb1 c1 f1 V1 Z1. induction Fo as [|op' ops' Ho' Fo' IH']; intros q0 hb0 c0 f0 V0 Z0.
      - exists [], q0. split; [reflexivity|constructor].
      - rewrite <- Z0 in Ho'. destruct (step_ok ps d Hps Hdef _ _ _ _ _ V0 Ho') as (r2 & p2 & hb2 & c2 & f2 & E2 & V2 & _ & Z2 & _).
        destruct (IH' _ _ _ _ V2 ltac:(congruence)) as (rs & p' & Lr & Xr). exists (r2 :: rs), p'. split; [cbn; congruence|].
        cbn [combine]. econstructor; eassumption. }
    exists (r1 :: rs), p'. split; [cbn; congruence|]. cbn [combine]. econstructor; eassumption.
Qed.
Print Assumptions C24_history_runs.
Example C24_case :
  (let* p' := run_ops 128 vd (v_ops ++ [Compact isort true; ZeroOut; DiscardTrailing]) (fresh 128 10 vd) in
   contents 128 vd p') = Ok (drop_last 1 vc).
Proof. vm_compute. reflexivity. Qed.

(** C25 *)
Theorem C25_clone : forall ps h d p dst, limits ps h d -> reachable ps h d p -> zlen dst = ps ->
  exists p', clone_page dst ps p = Ok p' /\ reachable ps h d p' /\
    contents ps d p' = contents ps d p /\ header ps p' = header ps p /\
    (forall q, run_query ps d q p' = run_query ps d q p) /\
    (forall op, run_op ps d op p' = run_op ps d op p).
Proof.
  intros ps h d p dst L R Hl. pose proof R as R0. open_page0 L R V. pose proof (view_len ps d Hps _ _ _ _ V) as Hp.
  assert (E : clone_page dst ps p = Ok p).
  { unfold clone_page, memcopy. rewrite rd_ok by lia. cbn [bind]. rewrite wr_ok by (rewrite ?zlen_slice by lia; lia).
    f_equal. unfold upd, slice. cbn [Z.to_nat skipn firstn app]. unfold zlen in *.
    rewrite firstn_all2 by lia. rewrite skipn_all2 by lia. apply app_nil_r. }
  exists p. split; [exact E|]. auto 10.
Qed.
Print Assumptions C25_clone.
Example C25_case : clone_page (repeat Byte.xff 128) 128 vp = Ok vp.
Proof. vm_compute. reflexivity. Qed.

(** C26 *)
Theorem C26_values_round_trip : forall m o n v, 1 <= n <= 4294967296 -> 0 <= v < n -> 0 <= o ->
  o + value_size n <= zlen m ->
  exists m', write_value m o n v = Ok m' /\ read_value m' o n = Ok v /\ zlen m' = zlen m /\
    (forall a, 0 <= a < o \/ o + value_size n <= a < zlen m -> slice m' a 1 = slice m a 1).
Proof.
  intros m o n v Hn Hv Ho Hl. unfold write_value, read_value. pose proof (value_size_range n) as Vr.
  pose proof (value_size_enough n ltac:(lia)) as Ve.
  assert (Le : zlen (enc (Z.to_nat (value_size n)) v) = value_size n) by (rewrite zlen_enc; lia).
  rewrite wr_ok by lia. eexists. split; [reflexivity|].
  assert (Lu : zlen (upd m o (enc (Z.to_nat (value_size n)) v)) = zlen m) by (apply zlen_upd; lia).
  split.
  - rewrite rd_ok by lia. cbn [bind]. rewrite <- Le at 2. rewrite slice_upd_same by lia. f_equal. apply dec_enc_id. rewrite Z2Nat.id by lia. lia.
  - split; [exact Lu|]. intros a Ha. apply slice_upd_dis; lia.
Qed.
Print Assumptions C26_values_round_trip.
Example C26_case : value_size 256 = 1 /\ value_size 257 = 2 /\ value_size 65537 = 3 /\ value_size 16777217 = 4.
Proof. repeat split. Qed.
