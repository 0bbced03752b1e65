(** * Two pages with the same entries at the same places stay so (lemmas) *)
From Coq Require Import ZifyBool ZifyNat ZifyN Zify Permutation Sorted.
From Verif Require Import BytesFacts SpecFacts PageReach PageRewrite ImageFacts UnusedSpec PageElementFacts.
From Verif Require Import Datum Tuple TupleSpec PageElement.
Ltac Zify.zify_post_hook ::= Z.div_mod_to_equations.

Section Page.
Variable ps : Z.
Variable d : size_def.
Hypothesis Hps : 128 <= ps <= max_bytes.
Hypothesis Hdef : def_ok d.
Local Notation vs := (value_size ps).
Local Notation vsn := (Z.to_nat (value_size ps)).
Local Notation srep := (srep ps d).
Local Notation frep := (frep ps d).

Definition twins (p q : mem) (hb : list byte) : Prop :=
  if sd_variable d then exists es, srep p hb es /\ srep q hb es else exists c, frep p hb c /\ frep q hb c.

Lemma new_entry l1 l2 e1 e2 x hb : ext_ok d x -> option_map snd e1 = x -> option_map snd e2 = x ->
  sfree ps hb (l1 ++ e1 :: l2) = sfree ps hb (l1 ++ l2) - (vs + xlen x) ->
  sfree ps hb (l1 ++ e2 :: l2) = sfree ps hb (l1 ++ l2) - (vs + xlen x) -> e1 = e2.
Proof.
  intros Hx E1 E2 F1 F2. destruct x as [t|].
  - pose proof (tuple_ok_pos _ _ Hdef Hx) as Ht. destruct e1 as [[o1 t1]|]; [|discriminate]. destruct e2 as [[o2 t2]|]; [|discriminate].
    cbn in E1, E2. injection E1 as ->. injection E2 as ->. unfold sfree in *. rewrite eofs_mid in F1, F2. rewrite !zlen_app, !zlen_cons in *. cbn [xlen] in *.
    assert (o1 = o2) by lia. congruence.
  - destruct e1; [discriminate|]. destruct e2; [discriminate|]. reflexivity.
Qed.

Lemma sl_append_twins p q hb es x : srep p hb es -> srep q hb es -> ext_ok d x ->
  exists b p' q' es', sl_append p ps d x = Ok (b, p') /\ sl_append q ps d x = Ok (b, q') /\ srep p' hb es' /\ srep q' hb es'.
Proof.
  intros S1 S2 Hx. destruct (sl_append_spec ps d Hps Hdef p hb es x S1 Hx) as (p' & E1 & H1). destruct (sl_append_spec ps d Hps Hdef q hb es x S2 Hx) as (q' & E2 & H2).
  exists (vs + xlen x <=? sfree ps hb es), p', q'. destruct (vs + xlen x <=? sfree ps hb es).
  - destruct H1 as (e1 & N1 & R1 & F1). destruct H2 as (e2 & N2 & R2 & F2).
    assert (e1 = e2) as -> by (apply (new_entry es [] e1 e2 x hb); rewrite ?app_nil_r; assumption). eauto 10.
  - subst. eauto 10.
Qed.
Lemma sl_insert_twins p q hb es i x : srep p hb es -> srep q hb es -> ext_ok d x -> is_u32 i ->
  exists b p' q' es', sl_insert p ps d i x = Ok (b, p') /\ sl_insert q ps d i x = Ok (b, q') /\ srep p' hb es' /\ srep q' hb es'.
Proof.
  intros S1 S2 Hx Hi. destruct (sl_insert_spec ps d Hps Hdef p hb es i x S1 Hx Hi) as (p' & E1 & H1). destruct (sl_insert_spec ps d Hps Hdef q hb es i x S2 Hx Hi) as (q' & E2 & H2).
  exists ((i <=? zlen es) && (vs + xlen x <=? sfree ps hb es)), p', q'. destruct (_ && _).
  - destruct H1 as (e1 & N1 & R1 & F1). destruct H2 as (e2 & N2 & R2 & F2). unfold insert_at in *.
    assert (e1 = e2) as -> by (apply (new_entry (firstn (Z.to_nat i) es) (skipn (Z.to_nat i) es) e1 e2 x hb); rewrite ?firstn_skipn; assumption). eauto 10.
  - subst. eauto 10.
Qed.
Lemma sl_update_twins p q hb es i x : srep p hb es -> srep q hb es -> ext_ok d x -> is_u32 i ->
  exists b p' q' es', sl_update p ps d i x = Ok (b, p') /\ sl_update q ps d i x = Ok (b, q') /\ srep p' hb es' /\ srep q' hb es'.
Proof.
  intros S1 S2 Hx Hi. unfold is_u32 in Hi. destruct (sl_update_places ps d Hps Hdef p hb es i x S1 Hx ltac:(lia)) as (p' & E1 & H1).
  destruct (sl_update_places ps d Hps Hdef q hb es i x S2 Hx ltac:(lia)) as (q' & E2 & H2).
  exists (can_upd ps hb es i x), p', q'. destruct (can_upd ps hb es i x); [eauto 10|subst; eauto 10].
Qed.

Lemma twins_op p q hb op : twins p q hb -> op_ok (zlen hb) d op ->
  exists r p' q' hb', run_op ps d op p = Ok (r, p') /\ run_op ps d op q = Ok (r, q') /\ twins p' q' hb' /\ zlen hb' = zlen hb.
Proof.
  unfold twins. intros T Ho.
  unfold run_op, append_tuple_on_page, insert_tuple_on_page, update_tuple_on_page, discard_tuple_on_page, discard_all_tuples_on_page,
    discard_trailing_tomb_stones_on_page, swap_tuples_on_page, run_page_compaction, zero_out_free_space_on_page, get_page_layout_type, is_variable_sized, answer_of in *.
  destruct (sd_variable d) eqn:Ev.
  - destruct T as (es & S1 & S2). destruct op as [x|i x|i x|i| | |i j|srt ok| |at_ bs]; cbn [op_ok] in Ho.
    + destruct (sl_append_twins p q hb es x S1 S2 Ho) as (b & p' & q' & es' & E1 & E2 & R1 & R2). rewrite E1, E2. cbn [bind]. eauto 15.
    + destruct Ho as [Hi Hx]. destruct (sl_insert_twins p q hb es i x S1 S2 Hx Hi) as (b & p' & q' & es' & E1 & E2 & R1 & R2). rewrite E1, E2. cbn [bind]. eauto 15.
    + destruct Ho as [Hi Hx]. destruct (sl_update_twins p q hb es i x S1 S2 Hx Hi) as (b & p' & q' & es' & E1 & E2 & R1 & R2). rewrite E1, E2. cbn [bind]. eauto 15.
    + unfold is_u32 in Ho. destruct (sl_discard_spec ps d Hps p hb es i S1 ltac:(lia)) as (p' & E1 & R1). destruct (sl_discard_spec ps d Hps q hb es i S2 ltac:(lia)) as (q' & E2 & R2).
      rewrite E1, E2. cbn [bind]. destruct (i <? zlen es); [eauto 15|subst; eauto 15].
    + destruct (sl_discard_all_spec ps d Hps p hb es S1) as (p' & E1 & R1). destruct (sl_discard_all_spec ps d Hps q hb es S2) as (q' & E2 & R2).
      rewrite E1, E2. cbn [bind]. eauto 15.
    + destruct (sl_discard_trailing_spec ps d Hps p hb es S1) as (p' & E1 & R1). destruct (sl_discard_trailing_spec ps d Hps q hb es S2) as (q' & E2 & R2).
      rewrite E1, E2. cbn [bind]. eauto 15.
    + destruct Ho as [Hi Hj]. unfold is_u32 in *. destruct (sl_swap_spec ps d Hps p hb es i j S1 ltac:(lia) ltac:(lia)) as (p' & E1 & R1). destruct (sl_swap_spec ps d Hps q hb es i j S2 ltac:(lia) ltac:(lia)) as (q' & E2 & R2).
      rewrite E1, E2. cbn [bind]. destruct (_ && _); [eauto 15|subst; eauto 15].
    + destruct ok.
      * destruct (sl_compact_places ps d Hps srt p hb es Ho S1) as (p' & e1 & E1 & R1 & _ & _ & P1). destruct (sl_compact_places ps d Hps srt q hb es Ho S2) as (q' & e2 & E2 & R2 & _ & _ & P2).
        rewrite E1, E2. cbn [bind fst snd]. subst e1 e2. eauto 15.
      * rewrite (sl_compact_nomem ps d Hps srt p hb es S1), (sl_compact_nomem ps d Hps srt q hb es S2). cbn [bind fst snd]. eauto 15.
    + destruct (sl_zero_out_spec ps d Hps p hb es S1) as (p' & E1 & R1 & _). destruct (sl_zero_out_spec ps d Hps q hb es S2) as (q' & E2 & R2 & _).
      rewrite E1, E2. cbn [bind]. eauto 15.
    + destruct Ho as [Ha Hb]. destruct (sl_write_header_spec ps d Hps p hb es at_ bs S1 Ha Hb) as (p' & E1 & R1). destruct (sl_write_header_spec ps d Hps q hb es at_ bs S2 Ha Hb) as (q' & E2 & R2).
      rewrite E1, E2. cbn [bind]. do 4 eexists. split; [reflexivity|]. split; [reflexivity|]. split; [eauto|]. apply zlen_upd; pose proof (zlen_nonneg bs); lia.
  - destruct T as (c & S1 & S2). destruct op as [x|i x|i x|i| | |i j|srt ok| |at_ bs]; cbn [op_ok] in Ho.
    + destruct (fa_append_spec ps d Hps Hdef Ev p hb c x S1 Ho) as (p' & E1 & R1). destruct (fa_append_spec ps d Hps Hdef Ev q hb c x S2 Ho) as (q' & E2 & R2).
      rewrite E1, E2. cbn [bind]. destruct (_ <? _); [eauto 15|subst; eauto 15].
    + destruct Ho as [Hi Hx]. unfold is_u32 in Hi. destruct (fa_insert_spec ps d Hps Hdef Ev p hb c i x S1 Hx ltac:(lia)) as (p' & E1 & R1). destruct (fa_insert_spec ps d Hps Hdef Ev q hb c i x S2 Hx ltac:(lia)) as (q' & E2 & R2).
      rewrite E1, E2. cbn [bind]. destruct (_ && _); [eauto 15|subst; eauto 15].
    + destruct Ho as [Hi Hx]. unfold is_u32 in Hi. destruct (fa_update_spec ps d Hps Hdef Ev p hb c i x S1 Hx ltac:(lia)) as (p' & E1 & R1). destruct (fa_update_spec ps d Hps Hdef Ev q hb c i x S2 Hx ltac:(lia)) as (q' & E2 & R2).
      rewrite E1, E2. cbn [bind]. destruct (_ <? _); [eauto 15|subst; eauto 15].
    + unfold is_u32 in Ho. destruct (fa_discard_spec ps d Hps Hdef Ev p hb c i S1 ltac:(lia)) as (p' & E1 & R1). destruct (fa_discard_spec ps d Hps Hdef Ev q hb c i S2 ltac:(lia)) as (q' & E2 & R2).
      rewrite E1, E2. cbn [bind]. destruct (_ <? _); [eauto 15|subst; eauto 15].
    + destruct (fa_discard_all_spec ps d Hps Hdef Ev p hb c S1) as (p' & E1 & R1). destruct (fa_discard_all_spec ps d Hps Hdef Ev q hb c S2) as (q' & E2 & R2).
      rewrite E1, E2. cbn [bind]. eauto 15.
    + destruct (fa_discard_trailing_spec ps d Hps Hdef Ev p hb c S1) as (p' & E1 & R1). destruct (fa_discard_trailing_spec ps d Hps Hdef Ev q hb c S2) as (q' & E2 & R2).
      rewrite E1, E2. cbn [bind]. eauto 15.
    + destruct Ho as [Hi Hj]. unfold is_u32 in *. destruct (fa_swap_spec ps d Hps Hdef Ev p hb c i j S1 ltac:(lia) ltac:(lia)) as (p' & E1 & R1). destruct (fa_swap_spec ps d Hps Hdef Ev q hb c i j S2 ltac:(lia) ltac:(lia)) as (q' & E2 & R2).
      rewrite E1, E2. cbn [bind]. destruct (_ && _); [eauto 15|subst; eauto 15].
    + unfold fa_compact. cbn [bind fst snd]. eauto 15.
    + destruct (fa_zero_out_spec ps d Hps Hdef Ev p hb c S1) as (p' & E1 & R1 & _). destruct (fa_zero_out_spec ps d Hps Hdef Ev q hb c S2) as (q' & E2 & R2 & _).
      rewrite E1, E2. cbn [bind]. eauto 15.
    + destruct Ho as [Ha Hb]. destruct (fa_write_header_spec ps d Hps Hdef Ev p hb c at_ bs S1 Ha Hb) as (p' & E1 & R1). destruct (fa_write_header_spec ps d Hps Hdef Ev q hb c at_ bs S2 Ha Hb) as (q' & E2 & R2).
      rewrite E1, E2. cbn [bind]. do 4 eexists. split; [reflexivity|]. split; [reflexivity|]. split; [eauto|]. apply zlen_upd; pose proof (zlen_nonneg bs); lia.
Qed.
(** setting an element where it lies *)
Lemma sl_set_one t pa v r b n i o x (l1 l2 : list sentry) p hb :
  set_element t pa x 0 v 0 = Ok (r, b) -> can_set_element t pa x 0 v 0 = Ok r -> zlen b = zlen x -> 1 <= n <= zlen x -> tuple_ok d (slice b 0 n) ->
  srep p hb (l1 ++ Some (o, x) :: l2) -> zlen l1 = i ->
  exists p', sl_set_in_place p ps t d i pa v = Ok (r, p') /\ srep p' hb (if r then l1 ++ Some (o, slice b 0 n) :: l2 else l1 ++ Some (o, x) :: l2).
Proof.
  intros ES CS Lb Ln TOK S Hi. pose proof (zlen_nonneg l1). pose proof (zlen_nonneg l2). pose proof (zlen_nonneg hb). pose proof (srep_bounds Hps S) as (Lp & _).
  assert (Hin : In (Some (o, x)) (l1 ++ Some (o, x) :: l2)) by (apply in_or_app; right; left; reflexivity).
  destruct (entry_pos Hps S Hin) as (P1 & P2 & P3 & P4 & P5 & P6).
  unfold sl_set_in_place. rewrite (s_get_nth Hps S) by lia. cbn [bind]. rewrite zlen_app, zlen_cons. rewrite (proj2 (Z.ltb_lt i _)) by lia.
  replace (Z.to_nat i) with (length l1) by (unfold zlen in Hi; lia). rewrite nth_middle. cbn [option_map fst bind].
  rewrite (s_tuple_size Hps S _ _ Hin). cbn [bind].
  destruct (around p o (zlen x) ltac:(lia) ltac:(lia) ltac:(lia)) as (A & B & Ep & LA & Eu). rewrite P4 in Ep.
  pose proof (FrameFacts.fr_can_set_element A B pa t x 0 (zlen A + 0) v 0 eq_refl r CS) as (r' & CS' & <-).
  destruct (FrameFacts.fr_set_element A B pa t x 0 v 0 (r, b) ES) as ((r2 & p1) & ES' & (Er & Em)). cbn [fst snd] in Er, Em. subst r2 p1.
  rewrite Z.add_0_r, <- Ep, LA in CS', ES'. rewrite <- (Eu b Lb) in ES'. rewrite CS'. cbn [bind]. destruct r; cbn [negb].
  - rewrite ES'. cbn [bind]. destruct (sl_rewrite ps d Hps p hb l1 o x l2 b n S Lb Ln TOK) as (p2 & Eb & Eo & S2).
    assert (TSN : tuple_size d (upd p o b) o = Ok n).
    { apply tuple_size_at with (slice b 0 n).
      - destruct TOK as [T1 _]. rewrite T1. f_equal. apply zlen_slice; lia.
      - rewrite zlen_slice by lia. transitivity (slice (slice (upd p o b) o (zlen b)) 0 n); [rewrite slice_slice by lia; f_equal; lia|rewrite slice_upd_same' by lia; reflexivity].
      - lia.
      - rewrite zlen_slice, zlen_upd by lia. lia. }
    rewrite TSN. cbn [bind]. rewrite Eo. cbn [bind]. rewrite Eb. cbn [bind]. exists p2. split; [reflexivity|exact S2].
  - exists p. split; [reflexivity|exact S].
Qed.

Lemma twins_views p q hb : twins p q hb -> exists c f, view ps d p hb c f /\ view ps d q hb c f.
Proof.
  unfold twins, view. destruct (sd_variable d).
  - intros (es & S1 & S2). do 2 eexists. split; exists es; split; try eassumption; split; reflexivity.
  - intros (c & S1 & S2). do 2 eexists. split; split; try eassumption; reflexivity.
Qed.

Lemma twins_set p q hb ty t i pa v : twins p q hb -> in_place_ok ps d p ty t i pa v ->
  exists r p' q', set_element_in_place p ps t d i pa v = Ok (r, p') /\ set_element_in_place q ps t d i pa v = Ok (r, q') /\ twins p' q' hb.
Proof.
  intros T I. destruct (twins_views p q hb T) as (c & f & V1 & V2). unfold twins in T. destruct (sd_variable d) eqn:Ev.
  - clear V1 V2 c f. destruct T as (es & S1 & S2). destruct I as (TB & FIN & [d0 SD] & Hi & PO & FT & DP & HD). unfold is_u32 in Hi.
    unfold set_element_in_place, get_page_layout_type, is_variable_sized. rewrite Ev.
    destruct (nth (Z.to_nat i) es None) as [[o x]|] eqn:En.
    + assert (Hlt : i < zlen es).
      { destruct (Z.ltb_spec i (zlen es)); [assumption|]. rewrite nth_overflow in En by (unfold zlen in *; lia). discriminate. }
      destruct (split_at es i None ltac:(lia)) as (l1 & l2 & E & Z1 & _ & _). rewrite En in E. 
      assert (Hin : In (Some (o, x)) es) by (rewrite E; apply in_or_app; right; left; reflexivity).
      destruct (entry_pos Hps S1 Hin) as (P1 & P2 & P3 & P4 & P5 & P6).
      assert (DA : data_at t x 0).
      { apply HD. assert (V : view ps d p hb (content_of es) (sfree ps hb es)) by (unfold view; rewrite Ev; exists es; auto).
        rewrite (v_entry ps d Hps Hdef _ _ _ _ i V) by (rewrite content_len; lia). rewrite nth_content, En. reflexivity. }
      destruct (entry_set ps d0 d ty t Hdef TB FIN SD x pa v P5 DA PO FT DP) as (r & b & n & ES & CS & Lb & GS & Ln & TOK & DS & _).
      rewrite E in S1, S2.
      destruct (sl_set_one t pa v r b n i o x l1 l2 p hb ES CS Lb Ln TOK S1 Z1) as (p' & E1 & R1).
      destruct (sl_set_one t pa v r b n i o x l1 l2 q hb ES CS Lb Ln TOK S2 Z1) as (q' & E2 & R2).
      exists r, p', q'. split; [exact E1|]. split; [exact E2|]. unfold twins. rewrite Ev. eauto.
    + exists false, p, q. unfold sl_set_in_place. rewrite (s_get_nth Hps S1), (s_get_nth Hps S2) by lia. rewrite En. cbn [bind].
      unfold twins. rewrite Ev. destruct (i <? zlen es); cbn [bind]; eauto 10.
  - assert (I2 : in_place_ok ps d q ty t i pa v).
    { destruct I as (TB & FIN & SD & Hi & PO & FT & DP & HD). unfold is_u32 in Hi. repeat (split; [assumption|]).
      intros x Hx. apply HD. rewrite <- Hx. destruct (Z_lt_ge_dec i (zlen c)).
      - rewrite (v_entry ps d Hps Hdef _ _ _ _ i V1), (v_entry ps d Hps Hdef _ _ _ _ i V2) by lia. reflexivity.
      - exfalso. unfold read_entry in Hx. destruct (v_get_nth ps d Hps Hdef _ _ _ _ i V2 ltac:(lia)) as (y & E & M). rewrite E in Hx. cbn [bind] in Hx.
        destruct y; [|discriminate]. lia. }
    destruct (in_place_step ps d Hps Hdef p hb c f ty t i pa v V1 I) as (r & p' & c' & f' & E1 & R1 & F1 & M1).
    destruct (in_place_step ps d Hps Hdef q hb c f ty t i pa v V2 I2) as (r2 & q' & c2 & f2 & E2 & R2 & F2 & M2).
    assert (r = r2 /\ c' = c2) as [<- <-].
    { destruct (nth (Z.to_nat i) c None) as [x|].
      - destruct M1 as (b & n & Q1 & _ & N1 & _ & _ & T1). destruct M2 as (b2 & n2 & Q2 & _ & N2 & _ & _ & T2).
        rewrite Q1 in Q2. injection Q2 as <- <-. rewrite N1 in N2. injection N2 as <-. split; [reflexivity|]. destruct r.
        + rewrite T1, T2 by reflexivity. reflexivity.
        + destruct (F1 eq_refl) as [_ ->]. destruct (F2 eq_refl) as [_ ->]. reflexivity.
      - subst r r2. split; [reflexivity|]. destruct (F1 eq_refl) as [_ ->]. destruct (F2 eq_refl) as [_ ->]. reflexivity. }
    exists r, p', q'. split; [exact E1|]. split; [exact E2|]. unfold twins, view in *. rewrite Ev in *. exists c'. tauto.
Qed.

Lemma twins_answers p q hb : twins p q hb -> same_answers ps d p q.
Proof.
  intro T. destruct (twins_views p q hb T) as (c & f & V1 & V2).
  assert (Q : forall u, query_ok d u -> run_query ps d u q = run_query ps d u p).
  { intros u Hu. apply (twin_queries ps d Hps Hdef); [|exact Hu]. unfold twins in T. unfold twin. destruct (sd_variable d).
    - destruct T as (es & S1 & S2). exists hb, hb, es. auto.
    - destruct T as (es & S1 & S2). exists hb, hb, es. auto. }
  split; [|exact Q]. split; [|split].
  - rewrite (v_header ps d Hps Hdef _ _ _ _ V1), (v_header ps d Hps Hdef _ _ _ _ V2). reflexivity.
  - rewrite (v_contents ps d Hps Hdef _ _ _ _ V1), (v_contents ps d Hps Hdef _ _ _ _ V2). reflexivity.
  - intros i Hi. specialize (Q (QGetNth i) Hi). unfold is_u32 in Hi. cbn [run_query] in Q.
    destruct (v_get_nth ps d Hps Hdef _ _ _ _ i V1 ltac:(lia)) as (x & E1 & M1). destruct (v_get_nth ps d Hps Hdef _ _ _ _ i V2 ltac:(lia)) as (y & E2 & M2).
    rewrite E1, E2 in *. cbn [bind] in Q. destruct x as [a|], y as [b|]; cbn in Q; try reflexivity; try congruence.
    + destruct M1 as (_ & ? & _ & ? & ?). injection Q as Q. pose proof (value_size_range ps). pose proof (zlen_nonneg hb). lia.
    + destruct M2 as (_ & ? & _ & ? & ?). injection Q as Q. pose proof (value_size_range ps). pose proof (zlen_nonneg hb). lia.
Qed.

Lemma twins_together p0 q0 hb0 p q : twins p0 q0 hb0 -> together ps (zlen hb0) d p0 q0 p q -> exists hb, twins p q hb /\ zlen hb = zlen hb0.
Proof.
  intros T H. induction H as [|p q op r p' s q' H IH Ho E1 E2|p q ty t i pa v r p' s q' H IH Ho E1 E2].
  - eauto.
  - destruct IH as (hb & T1 & Z1). rewrite <- Z1 in Ho. destruct (twins_op p q hb op T1 Ho) as (r' & a & b & hb' & F1 & F2 & T2 & Z2).
    rewrite E1 in F1. rewrite E2 in F2. injection F1 as _ <-. injection F2 as _ <-. exists hb'. split; [exact T2|lia].
  - destruct IH as (hb & T1 & Z1). destruct (twins_set p q hb ty t i pa v T1 Ho) as (r' & a & b & F1 & F2 & T2).
    rewrite E1 in F1. rewrite E2 in F2. injection F1 as _ <-. injection F2 as _ <-. exists hb. auto.
Qed.
Lemma twins_forever p0 q0 hb0 : twins p0 q0 hb0 -> indistinguishable ps (zlen hb0) d p0 q0.
Proof.
  intros T p q H. destruct (twins_together p0 q0 hb0 p q T H) as (hb & T1 & Z1). split; [exact (twins_answers p q hb T1)|]. split.
  - intros op Ho. rewrite <- Z1 in Ho. destruct (twins_op p q hb op T1 Ho) as (r & p' & q' & hb' & E1 & E2 & _). eauto.
  - intros ty t i pa v Ho. destruct (twins_set p q hb ty t i pa v T1 Ho) as (r & p' & q' & E1 & E2 & _). eauto.
Qed.

(** ** the two ways to start *)
Lemma es_ext es1 : forall es2, content_of es1 = content_of es2 -> map soff es1 = map soff es2 -> es1 = es2.
Proof.
  induction es1 as [|e r IH]; intros [|e2 r2] C O; try discriminate; [reflexivity|]. cbn in C, O. injection C as C1 C2. injection O as O1 O2.
  f_equal; [|apply IH; assumption]. destruct e as [[o t]|], e2 as [[o2 t2]|]; cbn in *; congruence.
Qed.
Lemma places_twins p q hb c f hb2 c2 f2 : view ps d p hb c f -> view ps d q hb2 c2 f2 -> same_places ps d p q -> twins p q hb.
Proof.
  intros V1 V2 (H & C & G). rewrite (v_header ps d Hps Hdef _ _ _ _ V1), (v_header ps d Hps Hdef _ _ _ _ V2) in H. injection H as ->.
  rewrite (v_contents ps d Hps Hdef _ _ _ _ V1), (v_contents ps d Hps Hdef _ _ _ _ V2) in C. injection C as ->. unfold twins, view in *.
  unfold get_nth_tuple_on_page, get_page_layout_type, is_variable_sized in G. destruct (sd_variable d) eqn:Ev; [|exists c; tauto].
  destruct V1 as (es1 & S1 & E1 & _). destruct V2 as (es2 & S2 & E2 & _). exists es1. split; [exact S1|]. replace es1 with es2; [exact S2|].
  apply es_ext; [congruence|]. assert (Zc : zlen es2 = zlen es1) by (rewrite <- !content_len; congruence).
  apply (nth_ext _ _ 0 0); rewrite !map_length; [unfold zlen in Zc; lia|]. intros n Hn. change 0 with (soff None). rewrite !map_nth.
  pose proof (srep_bounds Hps S1). pose proof (zlen_nonneg hb). assert (Z.of_nat n < zlen es1) by (unfold zlen in *; lia).
  specialize (G (Z.of_nat n)). rewrite (s_get_nth Hps S1), (s_get_nth Hps S2) in G by lia. rewrite Nat2Z.id in G.
  destruct (Z.ltb_spec (Z.of_nat n) (zlen es1)); [|lia]. destruct (Z.ltb_spec (Z.of_nat n) (zlen es2)); [|lia].
  pose proof (eq_refl : max_bytes = 2147483520). pose proof (value_size_range ps). assert (Un : is_u32 (Z.of_nat n)) by (clear G; unfold is_u32; lia). specialize (G Un).
  destruct (nth n es1 None) as [[o1 t1]|], (nth n es2 None) as [[o2 t2]|]; cbn in *; congruence.
Qed.

Lemma same_slice p q o n : zlen p = ps -> zlen q = ps -> 0 <= o -> 0 <= n -> o + n <= ps ->
  (forall k, o <= k < o + n -> nth (Z.to_nat k) q Byte.x00 = nth (Z.to_nat k) p Byte.x00) -> slice q o n = slice p o n.
Proof.
  intros Lp Lq Ho Hn Hb H. apply list_eq_nth; rewrite !zlen_slice by lia; [lia|]. intros dd k Hk.
  rewrite !nth_slice by lia. rewrite (nth_indep q dd Byte.x00), (nth_indep p dd Byte.x00) by (unfold zlen in *; lia). apply H. lia.
Qed.

Lemma used_twins p q hb c f : view ps d p hb c f -> same_used ps d p q -> twins p q hb.
Proof.
  intros V (Lq & c' & a & Hc & Ha & U). pose proof (view_len ps d Hps _ _ _ _ V) as Lp.
  rewrite (v_contents ps d Hps Hdef _ _ _ _ V) in Hc. injection Hc as <-. rewrite (v_allotted ps d Hps Hdef _ _ _ _ V) in Ha. injection Ha as <-.
  pose proof (value_size_range ps). pose proof (zlen_nonneg hb).
  unfold in_use, lies, entry, get_additional_space_overhead_per_tuple_on_page, get_nth_tuple_on_page, get_page_layout_type, is_variable_sized, allot, twins, view in *.
  destruct (sd_variable d) eqn:Ev.
  - destruct V as (es & S & <- & _). exists es. split; [exact S|]. pose proof (srep_bounds Hps S) as (_ & N1 & N2 & N3 & N4 & N5 & N6 & N7). pose proof (s_raw S) as R.
    rewrite content_len in U. unfold sl_overhead in U.
    assert (K : forall o n, 0 <= o -> 0 <= n -> o + n <= 5 * vs + zlen hb + zlen es * vs -> slice q o n = slice p o n).
    { intros o n Ho Hn Hb. apply same_slice; try lia. intros k Hk. apply U; [lia|]. lia. }
    constructor; [|apply S| |apply S].
    + constructor; try lia; rewrite ?zlen_map.
      * lia.
      * rewrite K by lia. apply R.
      * rewrite K by lia. apply R.
      * rewrite K by lia. apply (r_so _ _ _ _ _ _ _ _ R).
      * rewrite K by lia. apply (r_tc _ _ _ _ _ _ _ _ R).
      * rewrite K by lia. apply (r_ts _ _ _ _ _ _ _ _ R).
      * rewrite K by lia. apply (r_eo _ _ _ _ _ _ _ _ R).
      * intros i Hi. assert ((i + 1) * vs <= zlen es * vs) by nia. assert (0 <= i * vs) by nia. rewrite K by lia. apply (r_sl R). rewrite zlen_map. exact Hi.
    + intros o t Hin. destruct (s_data S _ _ Hin) as (D1 & D2 & D3). split; [|auto]. transitivity (slice p o (zlen t)); [|exact D1].
      destruct (entry_pos Hps S Hin) as (P1 & P2 & P3 & _). pose proof (zlen_nonneg t).
      apply same_slice; try lia. intros k Hk. apply U; [lia|]. right. right.
      destruct (In_nth es _ None Hin) as (n & Hn & En). exists (Z.of_nat n), t, o. rewrite Nat2Z.id. split; [lia|]. split; [|split; [|lia]].
      * unfold content_of. rewrite nth_error_map. rewrite (nth_error_nth' es None) by exact Hn. rewrite En. reflexivity.
      * rewrite (s_get_nth Hps S) by lia. rewrite Nat2Z.id, En. destruct (Z.ltb_spec (Z.of_nat n) (zlen es)); [reflexivity|unfold zlen in *; lia].
  - destruct V as [F _]. exists c. split; [exact F|]. pose proof F as F0. destruct F as [Hc (B & D & R & [_ Hn])].
    set (T := ftup ps (zlen hb) (sd_size d)) in *. set (s := sd_size d) in *.
    destruct (fr_free ps d Hps Hdef Ev p hb c F0) as (_ & _ & X1 & X2 & X3). fold T s in X1, X2, X3.
    pose proof (fcap_facts ps d Hps Hdef Ev (zlen hb) ltac:(lia) (f_bound _ _ _ _ _ _ _ _ R)) as (Y1 & Y2 & Y3 & Y4). fold s in Y1, Y2, Y3, Y4. fold T in Y2, Y4.
    assert (K : forall k, 0 <= k < T -> nth (Z.to_nat k) q Byte.x00 = nth (Z.to_nat k) p Byte.x00).
    { intros k Hk. apply U; [lia|left; lia]. }
    assert (Kb : forall o n, 0 <= o -> 0 <= n -> o + n <= T -> slice q o n = slice p o n).
    { intros o n Ho Hn' Hb. apply same_slice; try lia. intros k Hk. apply K. lia. }
    split; [exact Hc|]. exists (bitat q (3 * vs + zlen hb)), (fun i => slice q (T + i * s) s). split.
    + constructor; fold T s; try lia; try reflexivity.
      * rewrite Kb by lia. apply R.
      * rewrite Kb by lia. apply R.
      * rewrite Kb by lia. apply (f_tc _ _ _ _ _ _ _ _ R).
      * rewrite Kb by lia. apply (f_ts _ _ _ _ _ _ _ _ R).
    + split; [reflexivity|]. intros i Hi. rewrite (Hn i Hi).
      assert (Eb : bitat q (3 * vs + zlen hb) i = B i).
      { rewrite <- (f_bits _ _ _ _ _ _ _ _ R i) by (fold s; lia). unfold bitat, bat. do 2 f_equal. apply K. unfold T, ftup, bitmap_size_in_bytes. lia. }
      rewrite Eb. destruct (B i) eqn:Bi; [|reflexivity]. f_equal.
      rewrite <- (f_dat _ _ _ _ _ _ _ _ R i) by (fold s; lia). fold T s. symmetry.
      destruct (fr_get_nth ps d Hps Hdef Ev p hb c i F0 ltac:(lia)) as [G1 G2].
      assert (N : nth (Z.to_nat i) c None = Some (D i)) by (rewrite (Hn i Hi), Bi; reflexivity).
      destruct (G2 (D i) ltac:(lia) N) as (W1 & W2 & W3 & W4). fold s in G1, W1, W2, W3, W4. fold T in G1, W1, W3, W4.
      pose proof (s_r d Hdef Ev) as Sr. fold s in Sr. apply same_slice; try lia. intros k Hk. apply U; [lia|]. right. right. exists i, (D i), (T + i * s). split; [lia|]. split; [|split; [|lia]].
      * rewrite <- N. apply nth_error_nth'. unfold zlen in Hi. lia.
      * rewrite G1, N. destruct (Z.ltb_spec i (zlen c)); [reflexivity|lia].
Qed.
End Page.
