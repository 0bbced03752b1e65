(** * C72: a page that is compacted when needed is a list of limited total size *)
From Coq Require Import ZifyBool ZifyNat ZifyN Zify.
From Verif Require Import BytesFacts SpecFacts PageReach PageProps PageExamples.
From Verif Require Import BoundedSpec.
Ltac Zify.zify_post_hook ::= idtac.

Section Client.
  Variables (ps h : Z) (d : size_def) (srt : list (Z * Z) -> list (Z * Z)).
  Hypothesis L : limits ps h d.
  Hypothesis Hs : sorts srt.
  Let Hps := proj1 L.
  Let Hh := proj1 (proj2 L).
  Let Hdef := proj2 (proj2 L).

  Notation V := (PageFacts.view ps d).
  Notation A := (get_space_to_be_allotted_to_all_tuples_on_page h ps d).
  Lemma allot_said p hb c f : V p hb c f -> zlen hb = h -> allot ps d (zlen hb) = A.
  Proof.
    intros W Hz. pose proof (PageFacts.v_bounds ps d Hps Hdef _ _ _ _ W) as Bd. rewrite Hz.
    unfold allot, get_space_to_be_allotted_to_all_tuples_on_page, get_page_layout_type, is_variable_sized.
    pose proof (value_size_range ps). destruct (sd_variable d) eqn:Ev.
    - unfold sl_space_to_be_allotted. pose proof (eq_refl : max_bytes = 2147483520). pose proof Hps. rewrite u32_id by lia. lia.
    - destruct (FixedOps.fr_to_be_allotted ps d Hps Hdef Ev h) as [E _]; [lia|lia|]. symmetry. exact E.
  Qed.
  (** the condition, by layout *)
  Lemma within_var c : sd_variable d = true -> within ps h d c <-> total_space ps d c <= A.
  Proof. unfold within. intros ->. tauto. Qed.
  Lemma within_fix c : sd_variable d = false -> within ps h d c <-> zlen c <= fcap ps h (sd_size d).
  Proof.
    unfold within. intro Ev. rewrite Ev. destruct (max_count_spec ps d Hps Hdef h Hh) as (n & E & _ & _ & Hf). rewrite <- (Hf Ev). split.
    - intros (n' & E' & K). rewrite E in E'. injection E' as <-. exact K.
    - intro K. exists n. auto.
  Qed.
  Lemma view_within p hb c f : V p hb c f -> zlen hb = h -> within ps h d c.
  Proof.
    intros W Hz. pose proof (PageFacts.v_bounds ps d Hps Hdef _ _ _ _ W) as Bd. destruct (sd_variable d) eqn:Ev.
    - apply within_var; [exact Ev|]. rewrite <- (allot_said _ _ _ _ W Hz). lia.
    - apply within_fix; [exact Ev|]. unfold PageFacts.view in W. rewrite Ev in W. destruct W as [[Hc _] _]. rewrite Hz in Hc. lia.
  Qed.
  (** room on a compacted page *)
  Lemma room_within p hb c c1 f x : V p hb c f -> zlen hb = h -> f = allot ps d (zlen hb) - total_space ps d c ->
    total_space ps d c1 = total_space ps d c + entry_space ps d x -> zlen c1 = zlen c + 1 -> room ps d (zlen hb) c f x = true <-> within ps h d c1.
  Proof.
    intros W Hz Ef T Z. unfold room. destruct (sd_variable d) eqn:Ev.
    - rewrite (within_var _ Ev), T, Ef, (allot_said _ _ _ _ W Hz). lia.
    - rewrite (within_fix _ Ev), Z, Hz. lia.
  Qed.

  Lemma compacted p hb c f : V p hb c f -> zlen hb = h -> reachable ps h d p ->
    exists r p2, run_page_compaction srt true p ps d = Ok (r, p2) /\ V p2 hb c (allot ps d (zlen hb) - total_space ps d c) /\ reachable ps h d p2.
  Proof.
    intros W Hz R. destruct (v_compact ps d Hps _ _ _ _ srt W Hs) as (p2 & E & W2). eexists. exists p2. split; [exact E|]. split; [exact W2|].
    eapply (reachable_op ps h d p (Compact srt true)); [exact R|exact Hs|]. cbn [run_op]. rewrite E. reflexivity.
  Qed.
  Lemma updated p b i x p' : reachable ps h d p -> is_u32 i -> ext_ok d x -> update_tuple_on_page p ps d i x = Ok (b, p') -> reachable ps h d p'.
  Proof. intros R Hi Hx E. eapply (reachable_op ps h d p (Update i x)); [exact R|split; assumption|]. cbn [run_op]. unfold answer_of. rewrite E. reflexivity. Qed.
  Lemma retry_spec g hb c c1 x (I : bool) : zlen hb = h -> (I = true -> total_space ps d c1 = total_space ps d c + entry_space ps d x /\ zlen c1 = zlen c + 1) ->
    (forall p f, V p hb c f -> reachable ps h d p -> exists p', g p = Ok (I && room ps d (zlen hb) c f x, p') /\ reachable ps h d p' /\
      if I && room ps d (zlen hb) c f x then V p' hb c1 (f - entry_space ps d x) else p' = p) ->
    forall p f, V p hb c f -> reachable ps h d p -> exists r p' f', try_again srt ps d g p = Ok (r, p') /\ reachable ps h d p' /\
      (r = true <-> I = true /\ within ps h d c1) /\ V p' hb (if r then c1 else c) f'.
  Proof.
    intros Hz T G p f W R. unfold try_again. destruct (G p f W R) as (p1 & E1 & R1 & K1). rewrite E1. cbn [bind]. destruct (I && room ps d (zlen hb) c f x) eqn:Q.
    - exists true, p1, (f - entry_space ps d x). split; [reflexivity|]. split; [exact R1|]. split; [|exact K1]. apply andb_prop in Q. destruct Q as [Q _].
      split; [intros _; split; [exact Q|]|reflexivity]. eapply view_within; [exact K1|exact Hz].
    - subst p1. destruct (compacted p hb c f W Hz R) as (cr & p2 & E2 & W2 & R2). rewrite E2. cbn [bind]. destruct (G p2 _ W2 R2) as (p3 & E3 & R3 & K3). rewrite E3.
      exists (I && room ps d (zlen hb) c (allot ps d (zlen hb) - total_space ps d c) x), p3.
      assert (B : I && room ps d (zlen hb) c (allot ps d (zlen hb) - total_space ps d c) x = true <-> I = true /\ within ps h d c1).
      { rewrite andb_true_iff. split; intros [HI HR]; (split; [exact HI|]); destruct (T HI) as [T1 T2]; [apply (room_within _ _ _ _ _ _ W2 Hz eq_refl T1 T2)|apply (room_within _ _ _ c1 _ _ W2 Hz eq_refl T1 T2)]; exact HR. }
      destruct (I && room ps d (zlen hb) c (allot ps d (zlen hb) - total_space ps d c) x) eqn:Q3.
      + exists (allot ps d (zlen hb) - total_space ps d c - entry_space ps d x). auto.
      + exists (allot ps d (zlen hb) - total_space ps d c). subst p3. auto.
  Qed.

  Lemma ts_replace i x c : 0 <= i < zlen c -> total_space ps d (replace_at i x c) = total_space ps d c + entry_space ps d x - entry_space ps d (nth (Z.to_nat i) c None).
  Proof. intro Hi. rewrite (replace_at_split i c None Hi) at 2. unfold replace_at. rewrite !total_space_app. cbn [total_space]. lia. Qed.
  Lemma ts_insert_at i x c : total_space ps d (insert_at i x c) = total_space ps d c + entry_space ps d x.
  Proof. rewrite <- (firstn_skipn (Z.to_nat i) c) at 2. unfold insert_at. rewrite !total_space_app. cbn [total_space]. lia. Qed.
  Lemma replace_twice i (x y : ext) (c : content) : 0 <= i < zlen c -> replace_at i x (replace_at i y c) = replace_at i x c.
  Proof.
    intro Hi. assert (Z : zlen (replace_at i y c) = zlen c) by (apply zlen_replace_at; exact Hi).
    apply (list_ext_z _ _ None); [rewrite !zlen_replace_at; lia|]. intros j Hj. rewrite !zlen_replace_at in Hj by lia.
    rewrite !nth_replace_at by lia. destruct (j =? i); reflexivity.
  Qed.
  Lemma replace_same i (c : content) : 0 <= i < zlen c -> replace_at i (nth (Z.to_nat i) c None) c = c.
  Proof. intro Hi. symmetry. apply replace_at_split. exact Hi. Qed.

  Lemma update_spec hb c i x p f : zlen hb = h -> ext_ok d x -> is_u32 i -> V p hb c f -> reachable ps h d p ->
    exists r p' f', careful_update srt ps d i x p = Ok (r, p') /\ reachable ps h d p' /\
      (r = true <-> i < zlen c /\ within ps h d (replace_at i x c)) /\ V p' hb (if r then replace_at i x c else c) f'.
  Proof.
    intros Hz Hx Hi W R. unfold careful_update. destruct (Z.lt_ge_cases i (zlen c)) as [Hlt|Hge].
    - assert (Hi' : 0 <= i < zlen c) by (unfold is_u32 in Hi; lia). rewrite (v_entry ps d Hps Hdef _ _ _ _ i W Hi'). cbn [bind].
      set (old := nth (Z.to_nat i) c None).
      assert (Ho : ext_ok d old). { apply (view_ext_ok ps d Hps Hdef _ _ _ _ W). apply nth_In. unfold zlen in *. lia. }
      destruct (v_update ps d Hps Hdef _ _ _ _ i x W Hx Hi) as (b & p1 & E1 & _ & _ & B2 & _ & _ & _ & K1). rewrite E1. cbn [bind]. destruct b.
      + destruct K1 as [f1 W1]. exists true, p1, f1. split; [reflexivity|]. split; [exact (updated _ _ _ _ _ R Hi Hx E1)|]. split; [|exact W1].
        split; [intros _|reflexivity]. split; [exact Hlt|exact (view_within _ _ _ _ W1 Hz)].
      + subst p1. assert (Ev : sd_variable d = true) by (destruct (sd_variable d) eqn:Ev; [reflexivity|discriminate (B2 Hlt (or_intror eq_refl))]).
        destruct (v_update ps d Hps Hdef _ _ _ _ i None W I Hi) as (b2 & p2 & E2 & _ & _ & C2 & _ & _ & _ & K2).
        rewrite (C2 Hlt (or_introl eq_refl)) in *. rewrite E2. cbn [bind negb]. destruct K2 as [f2 W2].
        pose proof (updated _ _ _ _ _ R Hi (I : ext_ok d None) E2) as R2.
        destruct (compacted _ _ _ _ W2 Hz R2) as (cr & p3 & E3 & W3 & R3). rewrite E3. cbn [bind].
        assert (Lc : zlen (replace_at i None c) = zlen c) by (apply zlen_replace_at; lia).
        assert (Nn : nth (Z.to_nat i) (replace_at i None c) None = None) by (rewrite nth_replace_at, Z.eqb_refl by lia; reflexivity).
        destruct (v_update ps d Hps Hdef _ _ _ _ i x W3 Hx Hi) as (b4 & p4 & E4 & _ & _ & _ & D3 & _ & _ & K4). rewrite E4. cbn [bind].
        rewrite Lc, Nn in D3. specialize (D3 Hlt Ev eq_refl). rewrite (ts_replace i None c Hi'), (allot_said _ _ _ _ W Hz) in D3. fold old in D3.
        pose proof (PageFacts.v_bounds ps d Hps Hdef _ _ _ _ W) as Bd. rewrite (allot_said _ _ _ _ W Hz) in Bd.
        assert (Q : b4 = true <-> i < zlen c /\ within ps h d (replace_at i x c)).
        { rewrite D3, (within_var _ Ev), (ts_replace i x c Hi'). fold old. unfold entry_space. rewrite Ev. cbn [xlen]. lia. }
        destruct b4.
        * destruct K4 as [f4 W4]. exists true, p4, f4. split; [reflexivity|]. split; [exact (updated _ _ _ _ _ R3 Hi Hx E4)|]. split; [exact Q|]. rewrite replace_twice in W4 by exact Hi'. exact W4.
        * subst p4. destruct (v_update ps d Hps Hdef _ _ _ _ i old W3 Ho Hi) as (b5 & p5 & E5 & _ & _ & _ & F3 & _ & _ & K5). rewrite E5. cbn [bind].
          rewrite Lc, Nn in F3. assert (b5 = true) as ->. { rewrite (F3 Hlt Ev eq_refl), (ts_replace i None c Hi'), (allot_said _ _ _ _ W Hz). fold old. unfold entry_space. rewrite Ev. cbn [xlen]. lia. }
          destruct K5 as [f5 W5]. exists false, p5, f5. split; [reflexivity|]. split; [exact (updated _ _ _ _ _ R3 Hi Ho E5)|]. split; [exact Q|].
          rewrite replace_twice in W5 by exact Hi'. unfold old in W5. rewrite replace_same in W5 by exact Hi'. exact W5.
    - assert (Er : exists e, read_entry ps d p i = Ok e).
      { unfold read_entry, is_u32 in *. destruct (v_get_nth ps d Hps Hdef _ _ _ _ i W ltac:(lia)) as (y & E & Hy). rewrite E. cbn [bind].
        destruct y as [o|]; [|eauto]. destruct Hy as [? _]. lia. }
      destruct Er as [e Er]. rewrite Er. cbn [bind].
      destruct (v_update ps d Hps Hdef _ _ _ _ i x W Hx Hi) as (b & p1 & E1 & _ & B1 & _ & _ & _ & _ & K1). rewrite E1. cbn [bind].
      destruct b; [specialize (B1 eq_refl); lia|]. subst p1.
      destruct (v_update ps d Hps Hdef _ _ _ _ i None W I Hi) as (b2 & p2 & E2 & _ & B2 & _ & _ & _ & _ & K2). rewrite E2. cbn [bind].
      destruct b2; [specialize (B2 eq_refl); lia|]. subst p2. cbn [negb]. exists false, p, f. split; [reflexivity|]. split; [exact R|]. split; [|exact W].
      split; [discriminate|lia].
  Qed.

  Lemma done_of (r : bool) P c1 c : (r = true <-> P) -> done_if P c1 c (b2n r, false) (if r then c1 else c).
  Proof. intro Q. unfold done_if. destruct r; [left|right]; cbn [b2n]; [tauto|]. split; [|auto]. intro K. apply Q in K. discriminate. Qed.

  Lemma careful_spec hb c op p f : zlen hb = h -> op_ok h d op -> quiet op = false -> V p hb c f -> reachable ps h d p ->
    exists r p' c' f', careful srt ps d op p = Ok (r, p') /\ reachable ps h d p' /\ bounded_effect ps h d op c r c' /\ V p' hb c' f'.
  Proof.
    intros Hz Ho Hq W R.
    assert (Other : careful srt ps d op p = run_op ps d op p -> (forall r c', effect op c r c' -> bounded_effect ps h d op c r c') -> writes_header op = false ->
      exists r p' c' f', careful srt ps d op p = Ok (r, p') /\ reachable ps h d p' /\ bounded_effect ps h d op c r c' /\ V p' hb c' f').
    { intros Ec Ee Ew. assert (Ho' : op_ok (zlen hb) d op) by (rewrite Hz; exact Ho).
      destruct (step_ok ps d Hps Hdef _ _ _ _ _ W Ho') as (r & p' & hb' & c' & f' & E & W' & F & _ & Hw & _). rewrite (Hw Ew) in W'.
      exists r, p', c', f'. split; [rewrite Ec; exact E|]. split; [eapply reachable_op; eassumption|]. split; [apply Ee; exact F|exact W']. }
    destruct op as [x|i x|i x|i| | |i j|srt' ok| |at_ bs]; cbn [quiet] in Hq; try discriminate; try (apply Other; [reflexivity|intros r c' K; exact K|reflexivity]); clear Other; cbn [op_ok] in Ho; cbn [careful bounded_effect]; unfold answer_of.
    - destruct (retry_spec (fun q => append_tuple_on_page q ps d x) hb c (c ++ [x]) x true Hz) with (p := p) (f := f) as (r & p' & f' & E & R' & Q & W'); [| |exact W|exact R|].
      + intros _. rewrite total_space_app, zlen_app, zlen_cons, zlen_nil. cbn [total_space]. lia.
      + intros q g Wq Rq. destruct (v_append ps d Hps Hdef _ _ _ _ _ Wq Ho) as (q' & E & _ & K). exists q'. rewrite E. cbn [andb]. split; [reflexivity|]. split; [|exact K].
        eapply (reachable_op ps h d q (Append x)); [exact Rq|exact Ho|]. cbn [run_op]. unfold answer_of. rewrite E. reflexivity.
      + rewrite E. cbn [bind]. do 4 eexists. split; [reflexivity|]. split; [exact R'|]. split; [|exact W']. apply done_of. rewrite Q. tauto.
    - destruct Ho as [Hi Hx].
      destruct (retry_spec (fun q => insert_tuple_on_page q ps d i x) hb c (insert_at i x c) x (i <=? zlen c) Hz) with (p := p) (f := f) as (r & p' & f' & E & R' & Q & W'); [| |exact W|exact R|].
      + intro Hle. unfold is_u32 in Hi. rewrite ts_insert_at, zlen_insert_at by lia. lia.
      + intros q g Wq Rq. destruct (v_insert ps d Hps Hdef _ _ _ _ _ _ Wq Hx Hi) as (q' & E & _ & K). exists q'. rewrite E. split; [reflexivity|]. split; [|exact K].
        eapply (reachable_op ps h d q (Insert i x)); [exact Rq|split; assumption|]. cbn [run_op]. unfold answer_of. rewrite E. reflexivity.
      + rewrite E. cbn [bind]. do 4 eexists. split; [reflexivity|]. split; [exact R'|]. split; [|exact W']. apply done_of. rewrite Q, Z.leb_le. tauto.
    - destruct Ho as [Hi Hx]. destruct (update_spec hb c i x p f Hz Hx Hi W R) as (r & p' & f' & E & R' & Q & W').
      rewrite E. cbn [bind]. do 4 eexists. split; [reflexivity|]. split; [exact R'|]. split; [|exact W']. apply done_of. exact Q.
  Qed.
End Client.

(** ** the theorems *)
(** one operation of a client that compacts when needed: it is done exactly
    when its result fits, and otherwise the page has the entries it had *)
Theorem C72_step : forall srt ps h d p c op, limits ps h d -> sorts srt -> reachable ps h d p -> contents ps d p = Ok c ->
  op_ok h d op -> quiet op = false ->
  exists r p' c', careful srt ps d op p = Ok (r, p') /\ reachable ps h d p' /\ contents ps d p' = Ok c' /\
    bounded_effect ps h d op c r c' /\ header ps p' = header ps p.
Proof.
  intros srt ps h d p c op L Hs R Hc Ho Hq. destruct (reach_contents _ _ (proj1 L) (proj2 (proj2 L)) _ _ _ (proj1 (proj2 L)) R Hc) as (hb & f & W & Hz).
  destruct (careful_spec ps h d srt L Hs hb c op p f Hz Ho Hq W R) as (r & p' & c' & f' & E & R' & B & W').
  exists r, p', c'. split; [exact E|]. split; [exact R'|]. split; [eapply v_contents; [apply L|apply L|exact W']|]. split; [exact B|].
  rewrite (v_header _ _ (proj1 L) (proj2 (proj2 L)) _ _ _ _ W), (v_header _ _ (proj1 L) (proj2 (proj2 L)) _ _ _ _ W'). reflexivity.
Qed.
Print Assumptions C72_step.

(** the entries of a page always fit *)
Theorem C72_within : forall ps h d p c, limits ps h d -> reachable ps h d p -> contents ps d p = Ok c -> within ps h d c.
Proof.
  intros ps h d p c L R Hc. destruct (reach_contents _ _ (proj1 L) (proj2 (proj2 L)) _ _ _ (proj1 (proj2 L)) R Hc) as (hb & f & W & Hz).
  eapply view_within; eassumption.
Qed.
Print Assumptions C72_within.

(** what the client's operations answer and leave is determined by the list *)
Theorem C72_determined : forall ps h d op c r1 c1 r2 c2, quiet op = false -> bounded_effect ps h d op c r1 c1 -> bounded_effect ps h d op c r2 c2 ->
  r1 = r2 /\ c1 = c2.
Proof.
  intros ps h d op c r1 c1 r2 c2 Q E1 E2.
  destruct op as [x|i x|i x|i| | |i j|srt' ok| |at_ bs]; cbn [quiet] in Q; try discriminate; cbn [bounded_effect effect] in E1, E2; unfold done_if in *;
    try (destruct E1 as [(P1 & -> & ->)|(P1 & -> & ->)], E2 as [(P2 & -> & ->)|(P2 & -> & ->)]; tauto).
  - destruct (i <? zlen c); destruct E1 as [-> ->], E2 as [-> ->]; auto.
  - destruct E1 as [-> ->], E2 as [-> ->]; auto.
  - destruct E1 as [-> ->], E2 as [-> ->]; auto.
  - destruct ((i <? zlen c) && (j <? zlen c)); destruct E1 as [-> ->], E2 as [-> ->]; auto.
Qed.
Print Assumptions C72_determined.

(** any history of such a client, whatever compactions happen in between, is a
    history of the list *)
Theorem C72_history : forall srt ps h d p c l p', limits ps h d -> sorts srt -> reachable ps h d p -> contents ps d p = Ok c ->
  careful_history srt ps h d p l p' ->
  exists c', reachable ps h d p' /\ contents ps d p' = Ok c' /\ bounded_execution ps h d c l c'.
Proof.
  intros srt ps h d p c l p' L Hs R Hc H. revert c R Hc. induction H as [p|p op r p1 l p2 Q Ho E H IH|p op r p1 l p2 Q Ho E H IH]; intros c R Hc.
  - exists c. split; [exact R|]. split; [exact Hc|constructor].
  - pose proof (reachable_op ps h d p op r p1 R Ho E) as R1.
    destruct (reach_contents _ _ (proj1 L) (proj2 (proj2 L)) _ _ _ (proj1 (proj2 L)) R Hc) as (hb & f & W & Hz). rewrite <- Hz in Ho.
    destruct (step_ok ps d (proj1 L) (proj2 (proj2 L)) _ _ _ _ _ W Ho) as (r' & p1' & hb' & c' & f' & E' & W' & F & _). rewrite E in E'. injection E' as <- <-.
    assert (c' = c) as -> by (destruct op; try discriminate Q; cbn [effect] in F; tauto).
    apply (IH c R1). eapply v_contents; [apply L|apply L|exact W'].
  - destruct (C72_step srt ps h d p c op L Hs R Hc Ho Q) as (r' & p1' & c1 & E' & R1 & Hc1 & B & _). rewrite E in E'. injection E' as <- <-.
    destruct (IH c1 R1 Hc1) as (c' & R' & Hc' & X). exists c'. split; [exact R'|]. split; [exact Hc'|]. econstructor; eassumption.
Qed.
Print Assumptions C72_history.

(** so two pages with the same entries cannot be told apart by such clients:
    not by how fragmented they are, nor by what else is done to free space *)
Theorem C72_same_contents : forall srt1 srt2 ps h d p1 p2 c l1 l2 p1' p2', limits ps h d -> sorts srt1 -> sorts srt2 ->
  reachable ps h d p1 -> contents ps d p1 = Ok c -> reachable ps h d p2 -> contents ps d p2 = Ok c ->
  careful_history srt1 ps h d p1 l1 p1' -> careful_history srt2 ps h d p2 l2 p2' -> map fst l1 = map fst l2 ->
  l1 = l2 /\ contents ps d p1' = contents ps d p2'.
Proof.
  intros srt1 srt2 ps h d p1 p2 c l1 l2 p1' p2' L S1 S2 R1 C1 R2 C2 H1 H2 El.
  assert (Qs : forall srt p l p', careful_history srt ps h d p l p' -> Forall (fun a => quiet (fst a) = false) l).
  { intros srt p l p' H. induction H; [constructor|assumption|constructor; assumption]. }
  pose proof (Qs _ _ _ _ H1) as Q1. clear Qs.
  destruct (C72_history _ _ _ _ _ _ _ _ L S1 R1 C1 H1) as (c1 & _ & K1 & X1). destruct (C72_history _ _ _ _ _ _ _ _ L S2 R2 C2 H2) as (c2 & _ & K2 & X2).
  rewrite K1, K2. clear - X1 X2 El Q1. revert l2 c2 X2 El. induction X1 as [c|c op r c1 l1 c1' E1 X1 IH]; intros l2 c2 X2 El.
  - destruct X2; [auto|discriminate El].
  - destruct X2 as [|c op' r' c3 l2 c2 E2 X2]; [discriminate El|]. cbn [map fst] in El. injection El as <- El. inversion Q1; subst.
    destruct (C72_determined _ _ _ _ _ _ _ _ _ H1 E1 E2) as [<- <-]. destruct (IH H2 _ _ X2 El) as [<- K]. auto.
Qed.
Print Assumptions C72_same_contents.

(** which lists of entries a page can have: exactly those that fit *)
Theorem C72_lists : forall ps h d p0 p1 c, limits ps h d -> zlen p0 = ps -> init_page p0 ps h d = Ok (true, p1) ->
  (exists p, reachable ps h d p /\ contents ps d p = Ok c) <-> Forall (ext_ok d) c /\ within ps h d c.
Proof.
  intros ps h d p0 p1 c L Hl E. split.
  - intros (p & R & Hc). split; [|eapply C72_within; eassumption].
    destruct (reach_contents _ _ (proj1 L) (proj2 (proj2 L)) _ _ _ (proj1 (proj2 L)) R Hc) as (hb & f & W & Hz).
    apply Forall_forall. intros x Hx. eapply view_ext_ok; [apply L|apply L|exact W|exact Hx].
  - induction c as [|x c IH] using rev_ind; intros [F W].
    + destruct (v_init ps d (proj1 L) (proj2 (proj2 L)) p0 h Hl (proj1 (proj2 L))) as (p2 & E2 & V2). rewrite E in E2. injection E2 as Eb <-. rewrite <- Eb in V2.
      exists p1. split; [eapply reachable_init; eassumption|]. eapply v_contents; [apply L|apply L|exact V2].
    + apply Forall_app in F as [F Fx]. inversion Fx as [|? ? Hx _]; subst.
      assert (Wc : within (zlen p0) h d c).
      { unfold within in *. destruct (sd_variable d) eqn:Ev.
        - rewrite total_space_app in W. cbn [total_space] in W. unfold entry_space in W at 1. rewrite Ev in W. pose proof (value_size_range (zlen p0)).
          assert (0 <= xlen x) by (destruct x; cbn [xlen]; [apply zlen_nonneg|lia]). lia.
        - destruct W as (n & En & Hn). exists n. split; [exact En|]. rewrite zlen_app, zlen_cons, zlen_nil in Hn. lia. }
      destruct (IH (conj F Wc)) as (p & R & Hc).
      destruct (C72_step isort _ h d p c (Append x) L isort_sorts R Hc Hx eq_refl) as (r & p' & c' & _ & R' & Hc' & B & _). cbn [bounded_effect] in B. unfold done_if in B.
      destruct B as [(_ & _ & ->)|(N & _)]; [|contradiction]. exists p'. auto.
Qed.
Print Assumptions C72_lists.

(** ** cases *)
(** on the page of the examples, 51 of 113 bytes used but only some of the rest
    in one piece: the update of entry 2 fails alone and the careful one is done,
    filling the page; then no tomb stone fits until an entry is discarded *)
Definition b_ops : list page_op := [Update 2 (Some (vt 74 Byte.x7a)); Append None; Discard 0; Append None; Insert 1 None; Update 0 (Some (vt 32 Byte.x61))].
Fixpoint run_careful (ps : Z) (d : size_def) (ops : list page_op) (p : mem) : res (list (page_op * answer) * mem) :=
  match ops with
  | [] => Ok ([], p)
  | op :: l => let* (r, p1) := careful isort ps d op p in let* (rs, p2) := run_careful ps d l p1 in Ok ((op, r) :: rs, p2)
  end.
Lemma run_careful_history ps h d ops : forall p l p', Forall (fun op => quiet op = false /\ op_ok h d op) ops -> run_careful ps d ops p = Ok (l, p') -> careful_history isort ps h d p l p'.
Proof.
  induction ops as [|op ops IH]; intros p l p' F E; cbn [run_careful] in E.
  - injection E as <- <-. constructor.
  - inversion F as [|? ? [Q Ho] F']; subst. apply bind_inv in E as ([r p1] & E1 & E). apply bind_inv in E as ([rs p2] & E2 & E). injection E as <- <-.
    eapply ch_op; try eassumption. eapply IH; eassumption.
Qed.
Definition b_run : list (page_op * answer) * mem := Eval vm_compute in (match run_careful 128 vd b_ops vp with Ok x => x | UB => ([], []) end).
Definition b_c : content := [Some (vt 31 Byte.x65); Some (vt 74 Byte.x7a); Some (vt 3 Byte.x66); None; None].
Example C72_case : limits 128 10 vd /\ sorts isort /\ reachable 128 10 vd vp /\ contents 128 vd vp = Ok vc /\
  careful_history isort 128 10 vd vp (fst b_run) (snd b_run) /\ contents 128 vd (snd b_run) = Ok b_c /\
  map snd (fst b_run) = [(1, false); (0, false); (1, false); (1, false); (0, false); (0, false)] /\
  get_space_to_be_allotted_to_all_tuples_on_page 10 128 vd = 113 /\ total_space 128 vd b_c = 113 /\ total_space 128 vd (replace_at 0 (Some (vt 32 Byte.x61)) b_c) = 114.
Proof.
  split; [exact v_limits|]. split; [exact isort_sorts|]. split; [apply v_reachable|]. split; [apply v_reachable|]. split; [|repeat split; vm_compute; reflexivity].
  apply (run_careful_history 128 10 vd b_ops); [|vm_compute; reflexivity].
  unfold b_ops. repeat constructor; try (apply vt_ok; lia); unfold is_u32; lia.
Qed.
(** a page of tuples of one size: six entries fit *)
Definition b_fixed : list page_op := [Append None; Append (Some (ft Byte.x65)); Append None; Insert 0 None; Update 3 (Some (ft Byte.x66)); Update 6 None].
Definition b_frun : list (page_op * answer) * mem := Eval vm_compute in (match run_careful 128 fd b_fixed fp with Ok x => x | UB => ([], []) end).
Example C72_fixed_case : limits 128 20 fd /\ reachable 128 20 fd fp /\ contents 128 fd fp = Ok fc /\
  careful_history isort 128 20 fd fp (fst b_frun) (snd b_frun) /\
  contents 128 fd (snd b_frun) = Ok [None; Some (ft Byte.x63); Some (ft Byte.x64); Some (ft Byte.x66); None; Some (ft Byte.x65)] /\
  map snd (fst b_frun) = [(1, false); (1, false); (0, false); (0, false); (1, false); (0, false)] /\ get_maximum_tuple_count_on_page 20 128 fd = Ok 6.
Proof.
  split; [exact f_limits|]. split; [apply f_reachable|]. split; [apply f_reachable|]. split; [|repeat split; vm_compute; reflexivity].
  apply (run_careful_history 128 20 fd b_fixed); [|vm_compute; reflexivity].
  unfold b_fixed. repeat constructor; try (unfold tuple_ok, is_u32; cbn; lia).
Qed.
(** two pages with the same entries that the plain operations tell apart *)
Definition b_q : mem := Eval vm_compute in (match run_page_compaction isort true vp 128 vd with Ok (_, p) => p | UB => [] end).
Example C72_plain_operations_differ : reachable 128 10 vd b_q /\ contents 128 vd b_q = Ok vc /\
  (exists r1 r2, append_tuple_on_page vp 128 vd (Some (vt 55 Byte.x61)) = Ok (false, r1) /\ append_tuple_on_page b_q 128 vd (Some (vt 55 Byte.x61)) = Ok (true, r2)).
Proof.
  split. { apply (run_ops_reachable 128 10 vd [Compact isort true] vp); [apply v_reachable|constructor; [exact isort_sorts|constructor]|vm_compute; reflexivity]. }
  split; [vm_compute; reflexivity|]. do 2 eexists. split; vm_compute; reflexivity.
Qed.
