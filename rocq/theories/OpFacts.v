(** * Consequences of nested operations for readings *)
From Verif Require Export DataAt.
From Coq Require Import ZifyBool ZifyNat ZifyN Zify.
Ltac Zify.zify_post_hook ::= Z.div_mod_to_equations.

(** no element of the type at this path *)
Lemma no_type_can_set pa : forall d m o bs inc v, path_ok pa -> holds d m o bs -> get_type_info d pa = None -> 0 <= inc < 4294967296 -> can_set_element d pa m o v inc = Ok false.
Proof.
  induction pa as [|i pa IH]; intros d m o bs inc v PO H TI Hinc; [discriminate|].
  pose proof (Forall_inv PO) as I. pose proof (Forall_inv_tail PO) as PO'. cbn beta in I.
  destruct (is_container_type_info d) eqn:C; [|destruct pa; cbn [can_set_element]; unfold can_set_containee; rewrite C; reflexivity].
  destruct (holds_cv d m o bs H C) as (es & CT & V & Vb & GE). pose proof CT as [W _].
  destruct (zlen es <=? i) eqn:LE.
  { destruct pa; cbn [can_set_element]; unfold can_set_containee; rewrite C, (cv_get_count d m o _ es CT V); cbn [bind negb]; rewrite LE; reflexivity. }
  assert (I' : 0 <= i < zlen es) by lia. rewrite (step_type d m o _ es i pa CT V I') in TI.
  destruct pa as [|j pa]; [discriminate|]. destruct (znth_lt es i I') as [e En].
  remember (j :: pa) as pa' eqn:EP.
  assert (UC : can_set_element d (i :: pa') m o v inc =
      if negb (is_container_type_info d) then Ok false
      else
        let* n := get_element_count d m o in
        if n <=? i then Ok false
        else
          let* inc' := if is_variable_sized_type_info d
                       then let* sz := get_size d m o in Ok (Z.min inc (u32 (max_size d - sz)))
                       else Ok inc in
          let* pi := get_pos d m o i in
          let* c := get_ptr d m o pi in
          match c with
          | None => Ok false
          | Some a => can_set_element (pi_type pi) pa' m a v inc'
          end) by (subst pa'; reflexivity).
  rewrite UC, C, (cv_get_count d m o _ es CT V). cbn [bind negb]. rewrite LE.
  destruct (inner_inc d m o bs inc H Hinc) as (inc' & E2 & I1 & _). rewrite E2. cbn [bind].
  rewrite (cv_pos d m o _ es i CT V I'). cbn [bind].
  rewrite (cv_get_ptr d m o _ es i e CT V ltac:(lia) En). cbn [bind].
  destruct (pos_spec d (zlen es) i W C (cv_n _ _ _ _ _ V) I') as (Q1 & _). rewrite Q1.
  pose proof (cv_el _ _ _ _ _ V i e ltac:(lia) En) as [_ A2].
  destruct e as [|z|c]; cbn [ptr_of]; [reflexivity| |].
  - destruct A2 as (B & _). apply is_bit_field_spec in B. rewrite EP. destruct pa; cbn [can_set_element]; unfold can_set_containee, is_container_type_info; rewrite B; reflexivity.
  - apply (IH (etype d i) m _ c); auto; [|lia]. apply (child_holds d m o bs es i c CT V ltac:(lia) En). apply GE; auto. lia.
Qed.

(** the number of elements of an enclosing container *)
Lemma enclosing_el r P pb : forall pc t e e', pc <> [] -> upd_el r P t (pb ++ pc) e e' -> goodel t e -> goodel t e' -> path_ok pb -> cel t pb e = cel t pb e'.
Proof.
  induction pb as [|i pb IH]; intros pc t e e' NE U G G' PO.
  - cbn [app] in U. destruct pc as [|i pc]; [congruence|].
    destruct U as [[_ ->]|(c & c' & es & x & x' & -> & -> & CT & V & I & En & V' & U)]; [reflexivity|].
    cbn [cel element_count_of]. rewrite (cv_get_count t c 0 _ es CT V), (cv_get_count t c' 0 _ _ CT V'), zlen_lset. reflexivity.
  - cbn [app] in U. destruct U as [[_ ->]|(c & c' & es & x & x' & -> & -> & CT & V & I & En & V' & U)]; [reflexivity|].
    pose proof (Forall_inv_tail PO) as PO'. pose proof (znth_some _ _ _ En) as IL. cbn in G, G'.
    assert (En' : nth_error (lset es (Z.to_nat i) x') (Z.to_nat i) = Some x') by (apply lset_same; unfold zlen in *; lia).
    cbn [cel]. rewrite (count_step t c es i x pb CT G V I En PO'), (count_step t c' _ i x' pb CT G' V' I En' PO').
    apply (IH pc); auto.
    + apply (goodel_nth t c es); auto.
    + apply (goodel_nth t c' _ i x' CT G' V' I En').
Qed.

Lemma done_frame d pa P f inc m o bs r m' : holds d m o bs -> op_done d pa P f inc m o bs r m' -> leaves_others d pa m o r m'.
Proof.
  intros H (bs' & H' & _ & _ & _ & _ & U).
  pose proof (h_good _ _ _ _ H) as G. pose proof (h_good _ _ _ _ H') as G'.
  assert (RD : forall pb, path_ok pb -> observe d pb m o = oel d pb (CBytes bs) /\ observe d pb m' o = oel d pb (CBytes bs')
     /\ element_count_of d pb m o = cel d pb (CBytes bs) /\ element_count_of d pb m' o = cel d pb (CBytes bs')).
  { intros pb PO. cbn [oel cel]. rewrite (observe_local pb d m o bs PO H), (observe_local pb d m' o bs' PO H'), (count_local pb d m o bs PO H), (count_local pb d m' o bs' PO H'). auto. }
  split; [|split].
  - intros pb PO UR. destruct (RD pb PO) as (-> & -> & -> & ->). destruct (frame_el r P pa d _ _ pb U G G' PO (unrelated_unrel _ _ UR)) as [A1 A2]. split; auto.
  - intros pb pc PO NE ->. destruct (RD pb PO) as (_ & _ & -> & ->). symmetry. apply (enclosing_el r P pb pc d); auto.
  - intros -> pb PO. destruct (RD pb PO) as (-> & -> & -> & ->). destruct (refused_el P pa d _ _ pb U G G' PO) as [A1 A2]. split; auto.
Qed.
Lemma done_sizes d pa P f inc m o bs r m' : holds d m o bs -> op_done d pa P f inc m o bs r m' -> respects_size d m o inc r m'.
Proof.
  intros H (bs' & H' & S1 & S2 & _ & K & _). destruct (good_size _ _ (h_good _ _ _ _ H')) as (W & _ & _ & _ & G5 & G6). pose proof (wf_spec d W) as [TV TS].
  destruct K as [K1 K2]. split; [exact K1|]. exists (zlen bs), (zlen bs'). split; [apply (holds_size _ _ _ _ H)|]. split; [apply (holds_size _ _ _ _ H')|].
  split; [exact S1|]. split; [exact S2|]. rewrite TV, TS. split; [exact G5|]. split; [exact G6|]. split; [apply (h_in _ _ _ _ H')|]. split.
  - intros k K0 Hk. specialize (K2 k K0 Hk). unfold bat in K2. unfold zlen in K0, K1.
    rewrite (nth_error_nth' m' Byte.x00), (nth_error_nth' m Byte.x00) by lia. rewrite K2. reflexivity.
  - intros m2 o2 Ho2 Hl2 E pb PO. pose proof (holds_copy d m' o bs' m2 o2 H' Ho2 Hl2 E) as H2.
    rewrite (observe_local pb d m2 o2 bs' PO H2), (observe_local pb d m' o bs' PO H'), (count_local pb d m2 o2 bs' PO H2), (count_local pb d m' o bs' PO H'). auto.
Qed.

(** the element that was operated on *)
Lemma done_element d pa P f inc m o bs m' : path_ok pa -> holds d m o bs -> op_done d pa P f inc m o bs true m' ->
  exists t x x', get_type_info d pa = Some t /\ P t x x' /\ reach d pa (CBytes bs) t x /\ goodel t x /\ goodel t x'
  /\ forall pb, path_ok pb -> observe d (pa ++ pb) m o = oel t pb x /\ observe d (pa ++ pb) m' o = oel t pb x'
       /\ element_count_of d (pa ++ pb) m o = cel t pb x /\ element_count_of d (pa ++ pb) m' o = cel t pb x'.
Proof.
  intros PO H (bs' & H' & _ & _ & _ & _ & U). destruct (reach_upd P pa d _ _ U) as (t & x & x' & R & R' & Px).
  pose proof (h_good _ _ _ _ H) as G. pose proof (h_good _ _ _ _ H') as G'.
  exists t, x, x'. split; [apply (reach_type pa d _ t x PO R)|]. split; [exact Px|]. split; [exact R|]. split; [apply (reach_good pa _ _ _ _ R G)|]. split; [apply (reach_good pa _ _ _ _ R' G')|].
  intros pb PB. assert (PP : path_ok (pa ++ pb)) by (apply Forall_app; auto).
  rewrite (observe_local _ d m o bs PP H), (observe_local _ d m' o bs' PP H'), (count_local _ d m o bs PP H), (count_local _ d m' o bs' PP H').
  destruct (reach_oel pa d _ t x pb R G PO PB) as [A1 A2]. destruct (reach_oel pa d _ t x' pb R' G' PO PB) as [A3 A4]. cbn [oel cel] in *. auto.
Qed.
Lemma cat_type d pa t i : get_type_info d pa = Some t -> get_type_info d (pa ++ [i]) = get_type_info t [i].
Proof.
  revert d. induction pa as [|j pa IH]; intros d E; [injection E as ->; reflexivity|].
  cbn [app get_type_info] in *. destruct (containee_type_without_data d j); [apply IH; exact E|discriminate].
Qed.

Lemma refused_data d m o inc pa : 0 <= inc -> (exists bs, holds d m o bs) -> leaves_others d pa m o false m /\ respects_size d m o inc false m.
Proof.
  intros Hi [bs H]. pose proof (op_refused d pa (fun _ _ _ => True) false inc m o bs H Hi) as D. split; [apply (done_frame _ _ _ _ _ _ _ _ _ _ H D)|apply (done_sizes _ _ _ _ _ _ _ _ _ _ H D)].
Qed.

Theorem set_element_ok d pa m o v inc : data_at d m o -> path_ok pa -> room d m o inc ->
  (forall t, get_type_info d pa = Some t -> fits t v) ->
  (forall t vm vo, get_type_info d pa = Some t -> v = DPtr vm vo -> data_at t vm vo) ->
  exists r m', set_element d pa m o v inc = Ok (r, m') /\ can_set_element d pa m o v inc = Ok r /\ data_at d m' o
    /\ leaves_others d pa m o r m' /\ respects_size d m o inc r m'
    /\ (r = true -> exists t x, get_type_info d pa = Some t /\ observe d pa m' o = Ok (Some x) /\ reads_back t v x
         /\ forall vm vo, v = DPtr vm vo -> forall pb, path_ok pb ->
              observe d (pa ++ pb) m' o = observe t pb vm vo /\ element_count_of d (pa ++ pb) m' o = element_count_of t pb vm vo).
Proof.
  intros D PO RM FT DP. destruct (data_holds d m o D) as [bs H]. destruct (room_bytes d m o inc bs RM H) as [RI RR].
  destruct (get_type_info d pa) as [t|] eqn:TI.
  2: { exists false, m. unfold set_element. rewrite TI. split; [reflexivity|]. split; [apply (no_type_can_set pa d m o bs); auto|]. split; [exact D|].
       destruct (refused_data d m o inc pa ltac:(lia) (ex_intro _ bs H)) as [F S0]. split; [exact F|]. split; [exact S0|discriminate]. }
  specialize (FT t eq_refl). specialize (DP t).
  assert (HP : forall vm vo, v = DPtr vm vo -> exists c, holds t vm vo c) by (intros vm vo E; apply data_holds; apply DP; auto).
  pose proof (holds_points t v HP) as PG.
  destruct (nested_set pa d m o bs inc v t PO H TI FT PG RI RR) as (r & m' & E1 & OD & CS).
  exists r, m'. assert (E : set_element d pa m o v inc = Ok (r, m')) by (unfold set_element; rewrite TI; exact E1).
  split; [exact E|]. split; [apply CS; exact H|]. split.
  { apply (da_set d m o pa v inc r m'); auto; intros t0 ? ; rewrite TI in *; intros; try (match goal with K : Some t = Some t0 |- _ => injection K as <- end); eauto. }
  split; [apply (done_frame _ _ _ _ _ _ _ _ _ _ H OD)|]. split; [apply (done_sizes _ _ _ _ _ _ _ _ _ _ H OD)|].
  intros ->. destruct (done_element _ _ _ _ _ _ _ _ _ PO H OD) as (t' & x & x' & TI' & ST & _ & G & G' & RD). rewrite TI in TI'. injection TI' as <-.
  destruct (good_size _ _ (h_good _ _ _ _ H)) as (W & _). destruct (type_info_wf pa d t PO W TI) as [Wt _].
  destruct (stored_reads t v x' Wt FT PG ST) as (y & E2 & RB). exists t, y. split; [reflexivity|].
  split. { destruct (RD [] (Forall_nil _)) as (_ & A & _). rewrite app_nil_r in A. congruence. }
  split; [exact RB|]. intros vm vo -> pb PB. destruct (RD pb PB) as (_ & -> & _ & ->).
  destruct (HP vm vo eq_refl) as [c Hc]. unfold stored, stored_elem in ST. cbn in FT.
  assert (B : is_bit_field t = false) by (unfold is_bit_field; destruct FT as [F|F]; rewrite F; reflexivity). rewrite B in ST.
  destruct ST as (old & -> & _). assert (E3 : get_size t vm vo = Ok (zlen c)) by apply (holds_size _ _ _ _ Hc).
  assert (E4 : sbytes t (DPtr vm vo) old = c).
  { unfold sbytes. destruct FT as [F|F]; rewrite F, E3; apply (h_slice _ _ _ _ Hc). }
  rewrite E4. cbn [oel cel]. rewrite (observe_local pb t vm vo c PB Hc), (count_local pb t vm vo c PB Hc). auto.
Qed.

Theorem expand_element_ok d pa m o index slots inc : data_at d m o -> path_ok pa -> room d m o inc -> 0 <= index < 4294967296 ->
  (forall t a s n, element_at d pa m o t a -> get_size t m a = Ok s -> get_element_count t m a = Ok n -> expand_limits t s n slots) ->
  exists r m', expand_element d pa m o index slots inc = Ok (r, m') /\ can_expand_element d pa m o index slots inc = Ok r /\ data_at d m' o
    /\ leaves_others d pa m o r m' /\ respects_size d m o inc r m'
    /\ (r = true -> exists n c, element_count_of d pa m o = Ok n /\ index <= n /\ element_count_of d pa m' o = Ok (n + slots)
         /\ get_type_info d (pa ++ [index]) = Some c
         /\ forall i pb, 0 <= i -> path_ok pb -> i + slots < 4294967296 ->
              (i < index -> observe d (pa ++ i :: pb) m' o = observe d (pa ++ i :: pb) m o)
              /\ (index <= i < index + slots -> observe d (pa ++ i :: pb) m' o = Ok (unset_element c pb))
              /\ (index <= i -> observe d (pa ++ (i + slots) :: pb) m' o = observe d (pa ++ i :: pb) m o)).
Proof.
  intros D PO RM HI LIM. destruct (data_holds d m o D) as [bs H]. destruct (room_bytes d m o inc bs RM H) as [RI RR].
  assert (NO : is_expandable d pa = false -> exists r m', expand_element d pa m o index slots inc = Ok (r, m') /\ can_expand_element d pa m o index slots inc = Ok r /\ r = false /\ m' = m).
  { intro E. exists false, m. unfold expand_element, can_expand_element. rewrite E. auto. }
  destruct (is_expandable d pa) eqn:EX.
  2: { destruct (NO eq_refl) as (r & m' & E1 & E2 & -> & ->). exists false, m. destruct (refused_data d m o inc pa ltac:(lia) (ex_intro _ bs H)) as [F S0].
       split; [exact E1|]. split; [exact E2|]. split; [exact D|]. split; [exact F|]. split; [exact S0|discriminate]. }
  clear NO. pose proof EX as EX'. unfold is_expandable in EX'. destruct (get_type_info d pa) as [t|] eqn:TI; [|discriminate]. rename EX' into VC.
  destruct (good_size _ _ (h_good _ _ _ _ H)) as (W & _). destruct (vcount_container t VC) as [Ct Vt]. destruct (type_info_wf pa d t PO W TI) as [Wt VU].
  pose proof (limits_bytes d pa m o bs t slots PO H TI VC LIM) as LB.
  destruct (nested_expand pa d m o bs index slots inc t PO H TI VC ltac:(lia) RI LB (RR (VU Vt))) as (r & m' & E1 & OD & CS).
  exists r, m'. assert (E : expand_element d pa m o index slots inc = Ok (r, m')) by (unfold expand_element; rewrite EX; exact E1).
  split; [exact E|]. split; [unfold can_expand_element; rewrite EX; apply CS; exact H|]. split; [apply (da_expand d m o pa index slots inc r m'); auto|].
  split; [apply (done_frame _ _ _ _ _ _ _ _ _ _ H OD)|]. split; [apply (done_sizes _ _ _ _ _ _ _ _ _ _ H OD)|].
  intros ->.
  destruct (done_element _ _ _ _ _ _ _ _ _ PO H OD) as (t' & y & y' & TI' & (c & c' & es & -> & -> & CT & V & IN & V') & R & G & G' & RD).
  rewrite TI in TI'. injection TI' as <-. destruct (LB t c es R V) as (LS & _). cbn in G, G'.
  pose proof (zlen_ins es index slots (zelem (containee t)) ltac:(lia) ltac:(lia)) as ZI.
  assert (NT : type t <> TUPLE) by (intro T; unfold is_variable_element_count in VC; rewrite T in VC; destruct (is_container_type_info t), (is_variable_sized_type_info t); discriminate).
  assert (ET : forall k, etype t k = containee t) by (intro k; unfold etype; destruct (type t); congruence || reflexivity).
  destruct (wf_containee t (proj1 CT) (proj2 CT) NT) as [Wc _].
  exists (zlen es), (containee t). split. { destruct (RD [] (Forall_nil _)) as (_ & _ & A & _). rewrite app_nil_r in A. rewrite A. apply (cv_get_count t c 0 _ es CT V). }
  split; [exact IN|]. split. { destruct (RD [] (Forall_nil _)) as (_ & _ & _ & A). rewrite app_nil_r in A. rewrite A. cbn [cel element_count_of]. rewrite (cv_get_count t c' 0 _ _ CT V'). rewrite ZI. reflexivity. }
  split. { rewrite (cat_type d pa t index TI). cbn [get_type_info].
    unfold containee_type_without_data. rewrite Ct, VC. cbn [negb andb].
    destruct (is_container_cases t Ct) as [T|[_ [T|[T|T]]]]; [congruence| | |]; rewrite T; try reflexivity; rewrite (containee_string t Wt) by auto; reflexivity. }
  intros i pb I PB IS.
  assert (OLD : forall k, 0 <= k < 4294967296 -> observe d (pa ++ k :: pb) m o = match nth_error es (Z.to_nat k) with Some e => oel (containee t) pb e | None => Ok None end).
  { intros k K. destruct (RD (k :: pb) ltac:(constructor; auto)) as (-> & _). cbn [oel]. destruct (nth_error es (Z.to_nat k)) as [e|] eqn:En.
    - rewrite (observe_step t c es k e pb CT G V ltac:(lia) En PB), ET. reflexivity.
    - apply (observe_out t c 0 _ es k pb CT V). apply nth_error_None in En. unfold zlen. lia. }
  assert (NEW : forall k, 0 <= k < 4294967296 -> observe d (pa ++ k :: pb) m' o = match nth_error (ins es index slots (zelem (containee t))) (Z.to_nat k) with Some e => oel (containee t) pb e | None => Ok None end).
  { intros k K. destruct (RD (k :: pb) ltac:(constructor; auto)) as (_ & -> & _). cbn [oel]. destruct (nth_error (ins es index slots (zelem (containee t))) (Z.to_nat k)) as [e|] eqn:En.
    - rewrite (observe_step t c' _ k e pb CT G' V' ltac:(lia) En PB), ET. reflexivity.
    - apply (observe_out t c' 0 _ _ k pb CT V'). apply nth_error_None in En. unfold zlen. lia. }
  split; [|split]; intro C.
  - rewrite OLD, NEW by lia. rewrite nth_ins by lia. replace (i <? index) with true by lia. reflexivity.
  - rewrite NEW by lia. rewrite nth_ins by lia. replace (i <? index) with false by lia. replace (i <? index + slots) with true by lia. apply unset_element_reads; auto.
  - rewrite OLD, NEW by lia. rewrite nth_ins by lia. replace (i + slots <? index) with false by lia. replace (i + slots <? index + slots) with false by lia.
    replace (i + slots - slots) with i by lia. reflexivity.
Qed.

Theorem discard_elements_ok d pa m o index slots : data_at d m o -> path_ok pa -> 0 <= index < 4294967296 -> 0 <= slots < 4294967296 ->
  exists r m', discard_elements d pa m o index slots = Ok (r, m') /\ can_discard_elements d pa m o index slots = Ok r /\ data_at d m' o
    /\ leaves_others d pa m o r m' /\ respects_size d m o 0 r m'
    /\ (r = true -> exists n, element_count_of d pa m o = Ok n /\ index + slots <= n /\ element_count_of d pa m' o = Ok (n - slots)
         /\ forall i pb, 0 <= i -> path_ok pb -> i + slots < 4294967296 ->
              (i < index -> observe d (pa ++ i :: pb) m' o = observe d (pa ++ i :: pb) m o)
              /\ (index <= i -> observe d (pa ++ i :: pb) m' o = observe d (pa ++ (i + slots) :: pb) m o)).
Proof.
  intros D PO HI HS. destruct (data_holds d m o D) as [bs H].
  assert (NO : is_expandable d pa = false -> exists r m', discard_elements d pa m o index slots = Ok (r, m') /\ can_discard_elements d pa m o index slots = Ok r /\ r = false /\ m' = m).
  { intro E. exists false, m. unfold discard_elements, can_discard_elements. rewrite E. auto. }
  destruct (is_expandable d pa) eqn:EX.
  2: { destruct (NO eq_refl) as (r & m' & E1 & E2 & -> & ->). exists false, m. destruct (refused_data d m o 0 pa ltac:(lia) (ex_intro _ bs H)) as [F S0].
       split; [exact E1|]. split; [exact E2|]. split; [exact D|]. split; [exact F|]. split; [exact S0|discriminate]. }
  clear NO. pose proof EX as EX'. unfold is_expandable in EX'. destruct (get_type_info d pa) as [t|] eqn:TI; [|discriminate]. rename EX' into VC.
  destruct (nested_discard pa d m o bs index slots t PO H TI VC HI HS) as (r & m' & E1 & OD & CS).
  exists r, m'. assert (E : discard_elements d pa m o index slots = Ok (r, m')) by (unfold discard_elements; rewrite EX; exact E1).
  split; [exact E|]. split; [unfold can_discard_elements; rewrite EX; apply CS; exact H|]. split; [apply (da_discard d m o pa index slots r m'); auto|].
  split; [apply (done_frame _ _ _ _ _ _ _ _ _ _ H OD)|]. split; [apply (done_sizes _ _ _ _ _ _ _ _ _ _ H OD)|].
  intros ->.
  destruct (done_element _ _ _ _ _ _ _ _ _ PO H OD) as (t' & y & y' & TI' & (c & c' & es & -> & -> & CT & V & IN & V') & R & G & G' & RD).
  rewrite TI in TI'. injection TI' as <-. cbn in G, G'.
  pose proof (zlen_del es index slots ltac:(lia) ltac:(lia) ltac:(lia)) as ZI.
  assert (NT : type t <> TUPLE) by (intro T; unfold is_variable_element_count in VC; rewrite T in VC; destruct (is_container_type_info t), (is_variable_sized_type_info t); discriminate).
  assert (ET : forall k, etype t k = containee t) by (intro k; unfold etype; destruct (type t); congruence || reflexivity).
  exists (zlen es). split. { destruct (RD [] (Forall_nil _)) as (_ & _ & A & _). rewrite app_nil_r in A. rewrite A. apply (cv_get_count t c 0 _ es CT V). }
  split; [exact IN|]. split. { destruct (RD [] (Forall_nil _)) as (_ & _ & _ & A). rewrite app_nil_r in A. rewrite A. cbn [cel element_count_of]. rewrite (cv_get_count t c' 0 _ _ CT V'). rewrite ZI. reflexivity. }
  intros i pb I PB IS.
  assert (OLD : forall k, 0 <= k < 4294967296 -> observe d (pa ++ k :: pb) m o = match nth_error es (Z.to_nat k) with Some e => oel (containee t) pb e | None => Ok None end).
  { intros k K. destruct (RD (k :: pb) ltac:(constructor; auto)) as (-> & _). cbn [oel]. destruct (nth_error es (Z.to_nat k)) as [e|] eqn:En.
    - rewrite (observe_step t c es k e pb CT G V ltac:(lia) En PB), ET. reflexivity.
    - apply (observe_out t c 0 _ es k pb CT V). apply nth_error_None in En. unfold zlen. lia. }
  assert (NEW : forall k, 0 <= k < 4294967296 -> observe d (pa ++ k :: pb) m' o = match nth_error (del es index slots) (Z.to_nat k) with Some e => oel (containee t) pb e | None => Ok None end).
  { intros k K. destruct (RD (k :: pb) ltac:(constructor; auto)) as (_ & -> & _). cbn [oel]. destruct (nth_error (del es index slots) (Z.to_nat k)) as [e|] eqn:En.
    - rewrite (observe_step t c' _ k e pb CT G' V' ltac:(lia) En PB), ET. reflexivity.
    - apply (observe_out t c' 0 _ _ k pb CT V'). apply nth_error_None in En. unfold zlen. lia. }
  split; intro C.
  - rewrite OLD, NEW by lia. rewrite nth_del by lia. replace (i <? index) with true by lia. reflexivity.
  - rewrite OLD, NEW by lia. rewrite nth_del by lia. replace (i <? index) with false by lia. reflexivity.
Qed.
