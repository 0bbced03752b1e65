(** * Setting an element in place: what it does to the abstract page *)
From Coq Require Import ZifyBool ZifyNat ZifyN Zify.
From Verif Require Import OpFacts.
From Verif Require FrameFacts SizeProps.
From Verif Require Import BytesFacts SpecFacts PageRewrite PageElement.
Ltac Zify.zify_post_hook ::= Z.div_mod_to_equations.

(** ** fixed size types have fixed size elements only *)
Lemma fixed_elements d : wf d -> is_container_type_info d = true -> is_variable_sized_ d = false ->
  (type d = TUPLE -> forall i p c, nth_error (containees d) i = Some (p, c) -> wf c /\ is_variable_sized_ c = false)
  /\ (type d <> TUPLE -> wf (containee d) /\ is_variable_sized_ (containee d) = false).
Proof.
  intros W CT F. pose proof (wf_node d W) as (_ & _ & _ & _ & _ & _ & ND). split.
  - intros T i p c N. apply nth_error_In in N. split; [apply wf_unfold in W as [_ W]; rewrite T in W; eauto|].
    rewrite T in ND. destruct ND as (_ & _ & V & _). rewrite F in V. symmetry in V. clear - V N.
    induction (containees d) as [|[q c1] cs IHc]; [destruct N|].
    cbn in V. apply orb_false_elim in V as [V1 V2]. destruct N as [N|N]; [injection N as -> ->; exact V1|exact (IHc V2 N)].
  - intro NT. destruct (wf_containee d W CT NT) as [Wc Ec]. split; [exact Wc|].
    destruct (is_container_cases d CT) as [T|[_ [T|[T|T]]]]; [congruence| | |]; rewrite T in ND.
    + rewrite containee_string by tauto. reflexivity.
    + rewrite containee_string by tauto. reflexivity.
    + destruct ND as (c1 & E1 & V & _). rewrite E1 in Ec. injection Ec as ->. rewrite F in V. symmetry in V. apply orb_false_elim in V. tauto.
Qed.
Lemma fixed_below pa : forall d t, wf d -> is_variable_sized_ d = false -> get_type_info d pa = Some t -> is_variable_sized_ t = false.
Proof.
  induction pa as [|i pa IH]; intros d t W F E; cbn [get_type_info] in E; [injection E as <-; exact F|].
  destruct (containee_type_without_data d i) as [c|] eqn:C; [|discriminate]. unfold containee_type_without_data in C.
  destruct (is_container_type_info d) eqn:CT; [|discriminate]. cbn [negb] in C. destruct (fixed_elements d W CT F) as [FT FO].
  destruct (is_container_cases d CT) as [T|[NT T]]; (destruct (_ && _); [discriminate|]).
  - rewrite T in C. destruct (nth_error (containees d) (Z.to_nat i)) as [[p c']|] eqn:N; [|discriminate]. cbn [option_map snd] in C. injection C as ->.
    destruct (FT T _ _ _ N). eauto.
  - destruct (FO NT) as [Wc Fc]. destruct T as [T|[T|T]]; rewrite T in C; injection C as <-; rewrite ?containee_string in * by tauto; eauto.
Qed.
Lemma fixed_pos d m o i p : wf d -> is_container_type_info d = true -> is_variable_sized_ d = false -> get_pos d m o i = Ok p ->
  wf (pi_type p) /\ is_variable_sized_ (pi_type p) = false.
Proof.
  intros W CT F E. destruct (fixed_elements d W CT F) as [FT FO]. unfold get_pos in E.
  destruct (is_container_cases d CT) as [T|[NT T]].
  - rewrite T in E. destruct (nth_error (containees d) (Z.to_nat i)) as [[q c]|] eqn:N; [|discriminate]. injection E as <-. exact (FT T _ _ _ N).
  - specialize (FO NT). assert (exists c, match type d with STRING | BINARY => uint8_type | _ => containee d end = c /\ wf c /\ is_variable_sized_ c = false) as (c & Ec & Hc).
    { eexists. split; [reflexivity|]. destruct T as [T|[T|T]]; rewrite T; rewrite ?containee_string in * by tauto; exact FO. }
    assert (pi_type p = c) as ->; [|exact Hc].
    destruct T as [T|[T|T]]; rewrite T in E, Ec; apply bind_inv in E as (b & _ & E); rewrite Ec in E; destruct (type c);
      repeat match type of E with (if ?x then _ else _) = _ => destruct x end; injection E as <-; reflexivity.
Qed.

(** ** a refused set of a fixed size element stores nothing *)
Ltac peel E := repeat match type of E with
  | bind _ _ = _ => apply bind_inv in E as (? & ? & E)
  | (let '(_, _) := ?x in _) = _ => destruct x
  | (if ?c then _ else _) = _ => destruct c
  end; try discriminate.
Lemma set_datum_refused d m o b inc v m' : is_variable_sized_ d = false -> set_datum d m o b inc v = Ok (false, m') ->
  m' = m /\ (is_datum_NULL v = true \/ type d = BIT_FIELD).
Proof.
  intros F E. unfold set_datum, is_variable_sized_type_info in E. rewrite F in E. cbn [negb] in E.
  destruct (is_datum_NULL v); [injection E as <-; auto|].
  destruct (type d); cbv beta iota zeta in E; peel E; try (split; [congruence|auto]).
Qed.
Lemma set_null_refused d m o i p m' : set_null d m o i p = Ok (false, m') -> m' = m.
Proof.
  intro E. unfold set_null in E. apply bind_inv in E as (n & _ & E). destruct n; [discriminate|].
  destruct (negb _); [congruence|]. destruct (needs_is_valid_bit _); peel E; try congruence.
  destruct x0; peel E.
Qed.
Lemma set_containee_refused d m o i inc v m' : wf d -> is_variable_sized_ d = false -> set_containee d m o i inc v = Ok (false, m') -> m' = m.
Proof.
  intros W F E. unfold set_containee in E. destruct (is_container_type_info d) eqn:CT; cbn [negb] in E; [|congruence].
  apply bind_inv in E as (n & _ & E). destruct (n <=? i); [congruence|]. apply bind_inv in E as (p & Ep & E). cbv zeta in E.
  destruct (fixed_pos d m o i p W CT F Ep) as [_ Fp]. destruct (is_datum_NULL v) eqn:NN; [exact (set_null_refused _ _ _ _ _ _ E)|].
  unfold is_variable_sized_type_info in E. rewrite Fp in E. cbn [negb] in E. apply bind_inv in E as (m1 & _ & E).
  destruct (type (pi_type p)) eqn:T; try (apply bind_inv in E as (c & _ & E); destruct c as [a|]; [|discriminate];
    apply set_datum_refused in E as [_ [E|E]]; congruence).
  peel E.
Qed.
Lemma set_internal_refused pa : forall d m o v inc m', wf d -> is_variable_sized_ d = false -> set_internal d pa m o v inc false = Ok (false, m') -> m' = m.
Proof.
  induction pa as [|i pa IH]; intros d m o v inc m' W F E; cbn [set_internal] in E.
  - destruct (is_datum_NULL v); [congruence|]. apply set_datum_refused in E as [E _]; assumption.
  - destruct pa as [|j pa]; [apply (set_containee_refused d m o i inc v); assumption|].
    destruct (is_container_type_info d) eqn:CT; cbn [negb] in E; [|congruence].
    apply bind_inv in E as (n & _ & E). destruct (n <=? i); [congruence|]. apply bind_inv in E as (inc' & _ & E).
    apply bind_inv in E as (p & Ep & E). cbn [bind] in E. destruct (fixed_pos d m o i p W CT F Ep) as [Wp Fp].
    apply bind_inv in E as (c & _ & E). destruct c as [a|]; [|congruence]. eapply IH; eassumption.
Qed.
Lemma set_element_refused d pa m o v inc m' : wf d -> is_variable_sized_ d = false -> set_element d pa m o v inc = Ok (false, m') -> m' = m.
Proof.
  intros W F E. unfold set_element in E. destruct (get_type_info d pa) as [t|] eqn:T; [|congruence].
  unfold is_variable_sized_type_info in E. rewrite (fixed_below pa d t W F T) in E. eapply set_internal_refused; eassumption.
Qed.

(** ** a buffer around an entry *)
Lemma around (p : mem) o n : 0 <= o -> 0 <= n -> o + n <= zlen p ->
  exists A B, p = FrameFacts.emb A B (slice p o n) /\ zlen A = o /\ forall b, zlen b = n -> upd p o b = FrameFacts.emb A B b.
Proof.
  intros. exists (slice p 0 o), (slice p (o + n) (zlen p - (o + n))). unfold FrameFacts.emb.
  split; [|split; [apply zlen_slice; lia|]].
  - transitivity (slice p 0 (o + (n + (zlen p - (o + n))))); [symmetry; apply slice_all; lia|].
    rewrite !slice_split by lia. reflexivity.
  - intros b Lb. unfold upd, slice. rewrite Lb. cbn [Z.to_nat skipn]. f_equal. f_equal. rewrite firstn_all2; [reflexivity|]. rewrite skipn_length. unfold zlen in *. lia.
Qed.

Section Page.
Variable ps : Z.
Variables (d0 sd : size_def) (ty d : dti).
Hypothesis Hps : 128 <= ps <= max_bytes.
Hypothesis Hdef : def_ok sd.
Hypothesis TB : type_built ty.
Hypothesis FIN : finalize ty = (true, d).
Hypothesis SD : initialize_size_def d0 ty = Some sd.
Local Notation view := (view ps sd).

Lemma entry_set x pa v : tuple_ok sd x -> data_at d x 0 -> path_ok pa ->
  (forall t, get_type_info d pa = Some t -> fits t v) ->
  (forall t vm vo, get_type_info d pa = Some t -> v = DPtr vm vo -> data_at t vm vo) ->
  exists r b n, set_element d pa x 0 v 0 = Ok (r, b) /\ can_set_element d pa x 0 v 0 = Ok r /\ zlen b = zlen x
    /\ get_size d b 0 = Ok n /\ 1 <= n <= zlen x /\ tuple_ok sd (slice b 0 n) /\ data_at d (slice b 0 n) 0
    /\ (r = false -> sd_variable sd = false -> b = x).
Proof.
  intros [TS TM] DA PO FT DP. pose proof (SizeProps.C29_same_size d0 ty d sd TB FIN SD) as SS.
  destruct (SizeProps.size_def_of_type d0 ty d sd TB FIN SD) as (W & NB & EV & ES & EM & _).
  assert (GX : get_size d x 0 = Ok (zlen x)) by (rewrite <- SS; exact TS).
  assert (RM : TupleSpec.room d x 0 0) by (split; [lia|]; intros _ s0 Es; rewrite GX in Es; injection Es as <-; lia).
  destruct (set_element_ok d pa x 0 v 0 DA PO RM FT DP) as (r & b & E & CS & DB & _ & (Lb & s & n & G1 & G2 & Le & _ & VM & VF & Lin & _) & _).
  rewrite GX in G1. injection G1 as <-. destruct (wf_spec d W) as [TV TSZ]. exists r, b, n.
  destruct (data_holds d b 0 DB) as [bs H]. rewrite (holds_size _ _ _ _ H) in G2. injection G2 as G2.
  assert (Ln : 1 <= n).
  { pose proof (DataFacts.good_size _ _ (NestFacts.h_good _ _ _ _ H)). assert (1 <= size d). { destruct Hdef as [HH _]. rewrite ES in HH. lia. } lia. }
  assert (Lsl : zlen (slice b 0 n) = n) by (apply zlen_slice; lia).
  assert (DS : data_at d (slice b 0 n) 0).
  { eapply da_copy; [exact DB|exact (holds_size _ _ _ _ H)|lia|lia|]. rewrite G2, slice_slice by lia. reflexivity. }
  split; [exact E|]. split; [exact CS|]. split; [exact Lb|]. split; [rewrite (holds_size _ _ _ _ H), G2; reflexivity|]. split; [lia|].
  split; [|split; [exact DS|]].
  - split.
    + rewrite SS, Lsl. assert (HC : holds d (slice b 0 n) 0 bs).
      { eapply holds_copy; [exact H|lia|lia|]. rewrite G2, slice_slice by lia. reflexivity. }
      rewrite (holds_size _ _ _ _ HC), G2. reflexivity.
    + rewrite Lsl. unfold max_tuple_size. rewrite EV. destruct (is_variable_sized_ d) eqn:VD; cbn [negb].
      * destruct (EM eq_refl) as (-> & _). apply VM. congruence.
      * rewrite ES, <- TSZ. rewrite VF by congruence. lia.
  - intros -> VS. rewrite EV in VS. exact (set_element_refused d pa x 0 v 0 b W VS E).
Qed.

Lemma v_set_in_place p hb c f i pa v : view p hb c f -> 0 <= i -> path_ok pa ->
  (forall t, get_type_info d pa = Some t -> fits t v) ->
  (forall t vm vo, get_type_info d pa = Some t -> v = DPtr vm vo -> data_at t vm vo) ->
  (forall x, i < zlen c -> nth (Z.to_nat i) c None = Some x -> data_at d x 0) ->
  match nth (Z.to_nat i) c None with
  | None => set_element_in_place p ps d sd i pa v = Ok (false, p)
  | Some x => exists r b n p', set_element d pa x 0 v 0 = Ok (r, b) /\ can_set_element d pa x 0 v 0 = Ok r
      /\ set_element_in_place p ps d sd i pa v = Ok (r, p')
      /\ get_size d b 0 = Ok n /\ 1 <= n <= zlen x /\ data_at d (slice b 0 n) 0
      /\ (r = false -> p' = p)
      /\ (r = true -> exists f', view p' hb (replace_at i (Some (slice b 0 n)) c) f')
  end.
Proof.
  intros V Hi PO FT DP HD. pose proof (view_len ps sd Hps _ _ _ _ V) as Lp. pose proof (value_size_range ps).
  unfold set_element_in_place, get_page_layout_type, is_variable_sized. unfold PageFacts.view in V.
  destruct (sd_variable sd) eqn:VS.
  - destruct V as (es & S & <- & _). unfold sl_set_in_place. rewrite (s_get_nth Hps S) by lia. cbn [bind].
    rewrite nth_content. rewrite content_len, nth_content in HD.
    destruct (nth (Z.to_nat i) es None) as [[o x]|] eqn:En; cbn [option_map snd fst]; [|destruct (i <? zlen es); reflexivity].
    assert (Hlt : i < zlen es).
    { destruct (Z.ltb_spec i (zlen es)); [assumption|]. rewrite nth_overflow in En by (unfold zlen in *; lia). discriminate. }
    destruct (Z.ltb_spec i (zlen es)); [|lia].
    destruct (split_at es i None ltac:(lia)) as (l1 & l2 & E & Z1 & F1 & F2). rewrite En in E.
    assert (Hin : In (Some (o, x)) es) by (rewrite E; apply in_or_app; right; left; reflexivity).
    destruct (entry_pos Hps S Hin) as (P1 & P2 & P3 & P4 & P5 & P6). pose proof (srep_bounds Hps S) as (B1 & _).
    pose proof (zlen_nonneg hb).
    destruct (entry_set x pa v P5 (HD x Hlt eq_refl) PO FT DP) as (r & b & n & ES & CS & Lb & GS & Ln & TOK & DS & _).
    rewrite (s_tuple_size Hps S _ _ Hin). cbn [bind].
    destruct (around p o (zlen x) ltac:(lia) ltac:(lia) ltac:(lia)) as (A & B & Ep & LA & Eu). rewrite P4 in Ep.
    pose proof (FrameFacts.fr_can_set_element A B pa d x 0 (zlen A + 0) v 0 eq_refl r CS) as (r' & CS' & <-).
    destruct (FrameFacts.fr_set_element A B pa d x 0 v 0 (r, b) ES) as ((r2 & p1) & ES' & (Er & Em)). cbn [fst snd] in Er, Em. subst r2 p1.
    rewrite Z.add_0_r, <- Ep, LA in CS', ES'. rewrite <- (Eu b Lb) in ES'. rewrite CS'. cbn [bind].
    exists r, b, n. destruct r; cbn [negb].
    + rewrite ES'. cbn [bind]. rewrite E in S.
      destruct (sl_rewrite ps sd Hps p hb l1 o x l2 b n S Lb Ln TOK) as (p2 & Eb & Eo & S2).
      assert (TSN : tuple_size sd (upd p o b) o = Ok n).
      { apply tuple_size_at with (slice b 0 n).
        - destruct TOK as [T1 _]. rewrite T1. f_equal. apply zlen_slice; lia.
        - rewrite zlen_slice by lia. transitivity (slice (slice (upd p o b) o (zlen b)) 0 n); [rewrite slice_slice by lia; f_equal; lia|rewrite slice_upd_same' by lia; reflexivity].
        - lia.
        - rewrite zlen_slice, zlen_upd by lia. lia. }
      rewrite TSN. cbn [bind]. rewrite Eo. cbn [bind]. rewrite Eb. cbn [bind].
      exists p2. repeat (split; [first [exact ES|exact CS|exact GS|exact Ln|exact DS|reflexivity|discriminate|intros _; reflexivity]|]).
      intros _. eexists. unfold PageFacts.view. rewrite VS. eexists. split; [exact S2|]. split; [|reflexivity].
      rewrite E. unfold content_of. rewrite !map_app. cbn [map option_map snd]. unfold replace_at.
      rewrite <- Z1. rewrite <- (zlen_map (option_map snd) l1). unfold zlen at 1 2. rewrite Nat2Z.id.
      rewrite firstn_app, Nat.sub_diag, firstn_all. cbn [firstn]. rewrite app_nil_r. f_equal. f_equal.
      rewrite skipn_app, skipn_all2 by lia. replace (_ - _)%nat with 1%nat by lia. reflexivity.
    + exists p. repeat (split; [first [exact ES|exact CS|exact GS|exact Ln|exact DS|reflexivity|discriminate|intros _; reflexivity]|]). discriminate.
  - destruct V as [F Ef]. unfold fa_set_in_place. destruct (fr_get_nth ps sd Hps Hdef VS _ _ _ _ F Hi) as [E Ht]. rewrite E. cbn [bind].
    destruct (nth (Z.to_nat i) c None) as [x|] eqn:En; [|destruct (i <? zlen c); reflexivity].
    assert (Hlt : i < zlen c).
    { destruct (Z.ltb_spec i (zlen c)); [assumption|]. rewrite nth_overflow in En by (unfold zlen in *; lia). discriminate. }
    destruct (Z.ltb_spec i (zlen c)); [|lia].
    destruct (Ht x Hlt eq_refl) as (P1 & P2 & P3 & P4).
    assert (TOK0 : tuple_ok sd x) by (split; [unfold tuple_size; rewrite VS; cbn [negb]; congruence|unfold max_tuple_size; rewrite VS; cbn [negb]; lia]).
    destruct (entry_set x pa v TOK0 (HD x Hlt eq_refl) PO FT DP) as (r & b & n & ES & CS & Lb & GS & Ln & [TOK _] & DS & RF).
    set (o := ftup ps (zlen hb) (sd_size sd) + i * sd_size sd) in *.
    pose proof (zlen_nonneg x).
    destruct (around p o (sd_size sd) ltac:(lia) ltac:(lia) ltac:(lia)) as (A & B & Ep & LA & Eu). rewrite P1 in Ep.
    destruct (FrameFacts.fr_set_element A B pa d x 0 v 0 (r, b) ES) as ((r2 & p1) & ES' & (Er & Em)). cbn [fst snd] in Er, Em. subst r2 p1.
    rewrite Z.add_0_r, <- Ep, LA in ES'. rewrite <- (Eu b ltac:(lia)) in ES'. rewrite ES'.
    exists r, b, n. eexists. repeat (split; [first [exact ES|exact CS|exact GS|exact Ln|exact DS|reflexivity]|]). split.
    + intros ->. rewrite (RF eq_refl VS). rewrite (Eu x ltac:(lia)). symmetry. exact Ep.
    + intros _. assert (n = zlen b) as ->.
      { unfold tuple_size in TOK. rewrite VS in TOK. cbn [negb] in TOK. injection TOK as TOK. rewrite zlen_slice in TOK by lia. lia. }
      rewrite slice_all by lia. eexists. unfold PageFacts.view. rewrite VS. split; [|reflexivity].
      eapply fa_rewrite; try eassumption; lia.
Qed.
End Page.
