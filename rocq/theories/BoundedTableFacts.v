(** * Lemmas about pages of tuples compacted when needed *)
From Coq Require Import ZifyBool ZifyNat ZifyN Zify.
From Verif Require Import BytesFacts SpecFacts PageReach TreeFacts TableFacts SameFacts SuccessProps BoundedProps BoundedTableSpec.
Ltac Zify.zify_post_hook ::= idtac.
Open Scope list_scope.
Open Scope Z_scope.

(** ** the rows decide what fits *)
Lemma entry_same t ps d x1 x2 y : is_tuple t x1 -> is_tuple t x2 -> row_of t x1 y -> row_of t x2 y -> entry_space ps d x1 = entry_space ps d x2.
Proof.
  destruct x1 as [b1|], x2 as [b2|], y as [T|]; cbn [is_tuple row_of]; try contradiction; [|reflexivity].
  intros [D1 G1] [D2 G2] T1 T2. pose proof (same_size _ _ _ _ _ (trees_same _ _ _ _ _ _ D1 D2 T1 T2)) as E. rewrite G1, G2 in E. injection E as E.
  unfold entry_space. cbn [xlen]. rewrite E. reflexivity.
Qed.
Lemma within_same t ps h d c1 c2 R : tuples_of t c1 R -> tuples_of t c2 R -> within ps h d c1 -> within ps h d c2.
Proof.
  intros [A1 F1] [A2 F2]. assert (TS : total_space ps d c1 = total_space ps d c2).
  { revert c2 A2 F2. induction F1 as [|x1 y c1 R H1 F1 IH]; intros c2 A2 F2; inversion F2 as [|x2 ? c2' ? H2 F2']; subst; [reflexivity|].
    inversion A1; inversion A2; subst. cbn [total_space]. rewrite (IH ltac:(assumption) c2' ltac:(assumption) F2'), (entry_same t ps d x1 x2 y) by assumption. reflexivity. }
  pose proof (f2_zlen _ _ _ F1) as Z1. pose proof (f2_zlen _ _ _ F2) as Z2. unfold within. rewrite TS, Z1, Z2. auto.
Qed.
Lemma fit_iff t ps h d c R : tuples_of t c R -> rows_fit ps h d t R <-> within ps h d c.
Proof. intro H. split; [intros (c' & H' & W); eapply within_same; eassumption|intro W; exists c; auto]. Qed.

Lemma f2_firstn {A B} (Q : A -> B -> Prop) l r n : Forall2 Q l r -> Forall2 Q (firstn n l) (firstn n r).
Proof. intro F. revert n. induction F; intros [|n]; cbn; constructor; auto. Qed.
Lemma f2_skipn {A B} (Q : A -> B -> Prop) l r n : Forall2 Q l r -> Forall2 Q (skipn n l) (skipn n r).
Proof. intro F. revert n. induction F; intros [|n]; cbn; auto. Qed.
Lemma fa_firstn {A} (Q : A -> Prop) l n : Forall Q l -> Forall Q (firstn n l).
Proof. intro F. revert n. induction F; intros [|n]; cbn; constructor; auto. Qed.
Lemma fa_skipn {A} (Q : A -> Prop) l n : Forall Q l -> Forall Q (skipn n l).
Proof. intro F. revert n. induction F; intros [|n]; cbn; auto. Qed.
Lemma tuples_append t c R x y : tuples_of t c R -> is_tuple t x -> row_of t x y -> tuples_of t (c ++ [x]) (R ++ [y]).
Proof. intros [A F] X Y. split; [apply Forall_app; auto|apply Forall2_app; auto]. Qed.
Lemma tuples_insert t c R i x y : tuples_of t c R -> is_tuple t x -> row_of t x y -> tuples_of t (insert_at i x c) (insert_at i y R).
Proof.
  intros [A F] X Y. unfold insert_at. split.
  - apply Forall_app. split; [apply fa_firstn; exact A|constructor; [exact X|apply fa_skipn; exact A]].
  - apply Forall2_app; [apply f2_firstn; exact F|constructor; [exact Y|apply f2_skipn; exact F]].
Qed.
Lemma tuples_replace t c R i x y : tuples_of t c R -> is_tuple t x -> row_of t x y -> tuples_of t (replace_at i x c) (replace_at i y R).
Proof.
  intros [A F] X Y. unfold replace_at. split.
  - apply Forall_app. split; [apply fa_firstn; exact A|constructor; [exact X|apply fa_skipn; exact A]].
  - apply Forall2_app; [apply f2_firstn; exact F|constructor; [exact Y|apply f2_skipn; exact F]].
Qed.
Lemma rows_det t c R R' : Forall2 (row_of t) c R -> Forall2 (row_of t) c R' -> R = R'.
Proof.
  intro F. revert R'. induction F as [|x y c R XY F IH]; intros R' H'; inversion H' as [|? y' ? R1 XY' H1]; subst; [reflexivity|].
  rewrite (row_det _ _ _ _ XY XY'), (IH _ H1). reflexivity.
Qed.
Lemma row_set_det t pa v T b : is_tuple t (Some b) -> has_tree t b 0 [] T -> path_ok pa -> row_settable t pa v T -> exists u, get_type_info t pa = Some u /\ settable t pa b 0 u v 0.
Proof.
  intros [D G] HT PO (b' & u & [D' G'] & HT' & TI & S). exists u. split; [exact TI|].
  eapply same_settable; [exact PO| |exact S]. exact (trees_same _ _ _ _ _ _ D' D HT' HT).
Qed.

Section Table.
Variables (ps h : Z) (d0 d : size_def) (ty t : dti).
Hypothesis Hps : 128 <= ps <= max_bytes.
Hypothesis Hh : 0 <= h <= ps - 32.
Hypothesis TB : type_built ty.
Hypothesis FIN : finalize ty = (true, t).
Hypothesis SD : initialize_size_def d0 ty = Some d.
Let Hdef : def_ok d := table_def_ok d0 d ty t TB FIN SD.
Let L : limits ps h d := conj Hps (conj Hh Hdef).
Notation holdt := (holds_tuples ps h d t).

Lemma entry_tuple p c i x : holdt p c -> 0 <= i -> read_entry ps d p i = Ok x -> is_tuple t x.
Proof.
  intros (hb & f & V & Z0 & FA) I0 Hx. unfold read_entry in Hx.
  destruct (PageFacts.v_get_nth ps d Hps Hdef _ _ _ _ i V I0) as (y & G & Y). rewrite G in Hx. cbn [bind] in Hx. destruct y as [o|]; [|injection Hx as <-; exact I].
  destruct Y as (Hlt & b & En & TS & RD & _). rewrite TS in Hx. cbn [bind] in Hx. rewrite RD in Hx. cbn [bind] in Hx. injection Hx as <-.
  rewrite Forall_forall in FA. apply FA. rewrite <- En. apply nth_In. unfold zlen in Hlt. lia.
Qed.
Lemma place_ok p c i pa v : holdt p c -> table_allowed h t (Set_in_place i pa v) -> in_place_ok ps d p ty t i pa v.
Proof.
  intros H (U & PO & FT & DP). split; [exact TB|]. split; [exact FIN|]. split; [exists d0; exact SD|]. split; [exact U|]. split; [exact PO|]. split; [exact FT|]. split; [exact DP|].
  intros x Hx. exact (proj1 (entry_tuple p c i (Some x) H (proj1 U) Hx)).
Qed.
Lemma table_reachable p : table ps h d t p -> reachable ps h d p.
Proof.
  induction 1 as [p0 p Lp E|p op r p' T R A E]; [exact (reachable_init ps h d p0 p Lp E)|].
  destruct (table_holds ps h d0 d ty t Hps Hh TB FIN SD p T) as (c & S & H & F2). destruct op as [op|i pa v].
  - exact (reachable_op ps h d p op r p' R (page_allowed ps h d0 d ty t Hps Hh TB FIN SD op A) E).
  - cbn [run_table] in E. unfold answer_of in E. apply bind_inv in E as ([b p1] & E & E'). injection E' as <- <-.
    eapply reachable_set; [exact R| |exact E]. eapply place_ok; eassumption.
Qed.
Lemma table_tuples p R : table ps h d t p -> rows_on_page ps d t p R -> exists c, holdt p c /\ tuples_of t c R /\ contents ps d p = Ok c.
Proof.
  intros T RP. destruct (table_holds ps h d0 d ty t Hps Hh TB FIN SD p T) as (c & R0 & H & _).
  apply (shown ps h d0 d ty t Hps TB FIN SD p c R H) in RP. exists c. split; [exact H|]. destruct H as (hb & f & V & Z0 & FA). split; [split; assumption|].
  exact (v_contents ps d Hps Hdef _ _ _ _ V).
Qed.
Lemma tuples_rows p c R : table ps h d t p -> contents ps d p = Ok c -> Forall2 (row_of t) c R -> rows_on_page ps d t p R /\ tuples_of t c R.
Proof.
  intros T C F. destruct (table_holds ps h d0 d ty t Hps Hh TB FIN SD p T) as (c1 & R0 & H & _).
  assert (c1 = c) as ->. { destruct H as (hb & f & V & _). rewrite (v_contents ps d Hps Hdef _ _ _ _ V) in C. congruence. }
  split; [apply (shown ps h d0 d ty t Hps TB FIN SD p c R H), F|]. split; [|exact F]. destruct H as (_ & _ & _ & _ & FA). exact FA.
Qed.

(** ** the client stays within the table operations *)
Lemma tb_op p op r p' : table ps h d t p -> table_allowed h t (Page op) -> run_op ps d op p = Ok (r, p') -> table ps h d t p'.
Proof. intros T A E. exact (table_next ps h d t p (Page op) r p' T A E). Qed.
Lemma tb_update p i x b p' : table ps h d t p -> is_u32 i -> is_tuple t x -> update_tuple_on_page p ps d i x = Ok (b, p') -> table ps h d t p'.
Proof. intros T U X E. eapply (tb_op p (Update i x)); [exact T|split; assumption|]. cbn [run_op]. unfold answer_of. rewrite E. reflexivity. Qed.
Lemma tb_compact srt p b p' : sorts srt -> table ps h d t p -> run_page_compaction srt true p ps d = Ok (b, p') -> table ps h d t p'.
Proof. intros Hs T E. eapply (tb_op p (Compact srt true)); [exact T|exact Hs|]. cbn [run_op]. rewrite E. reflexivity. Qed.
Lemma tb_again srt g p b p' : sorts srt -> (forall q b q', table ps h d t q -> g q = Ok (b, q') -> table ps h d t q') ->
  table ps h d t p -> try_again srt ps d g p = Ok (b, p') -> table ps h d t p'.
Proof.
  intros Hs G T E. unfold try_again in E. apply bind_inv in E as ([b1 p1] & E1 & E). pose proof (G _ _ _ T E1) as T1. destruct b1; [injection E as <- <-; exact T1|].
  apply bind_inv in E as ([b2 p2] & E2 & E). eapply G; [|exact E]. eapply tb_compact; eassumption.
Qed.
Lemma tb_careful srt p op r p' : sorts srt -> table ps h d t p -> table_allowed h t op -> careful_table srt ps d t op p = Ok (r, p') -> table ps h d t p'.
Proof.
  intros Hs T A E. destruct op as [op|i pa v]; [|exact (table_next ps h d t p _ r p' T A E)]. cbn [careful_table] in E.
  destruct op as [x|i x|i x|i| | |i j|srt' ok| |at_ bs]; cbn [careful] in E; try exact (tb_op p _ r p' T A E); unfold answer_of in E; apply bind_inv in E as ([b q] & E & E'); injection E' as <- <-.
  - eapply (tb_again srt _ p); [exact Hs| |exact T|exact E]. intros q0 b0 q1 T0 E0. eapply (tb_op q0 (Append x)); [exact T0|exact A|]. cbn [run_op]. unfold answer_of. rewrite E0. reflexivity.
  - eapply (tb_again srt _ p); [exact Hs| |exact T|exact E]. intros q0 b0 q1 T0 E0. eapply (tb_op q0 (Insert i x)); [exact T0|exact A|]. cbn [run_op]. unfold answer_of. rewrite E0. reflexivity.
  - destruct A as [U X]. unfold careful_update in E. apply bind_inv in E as (old & Eo & E).
    destruct (table_holds ps h d0 d ty t Hps Hh TB FIN SD p T) as (c & R & H & _). pose proof (entry_tuple p c i old H (proj1 U) Eo) as O.
    apply bind_inv in E as ([b1 p1] & E1 & E). pose proof (tb_update _ _ _ _ _ T U X E1) as T1. destruct b1; [injection E as <- <-; exact T1|].
    apply bind_inv in E as ([b2 p2] & E2 & E). pose proof (tb_update p1 i None b2 p2 T1 U I E2) as T2. destruct b2; cbn [negb] in E; [|injection E as <- <-; exact T2].
    apply bind_inv in E as ([b3 p3] & E3 & E). pose proof (tb_compact _ _ _ _ Hs T2 E3) as T3.
    apply bind_inv in E as ([b4 p4] & E4 & E). pose proof (tb_update _ _ _ _ _ T3 U X E4) as T4. destruct b4; [injection E as <- <-; exact T4|].
    apply bind_inv in E as ([b5 p5] & E5 & E). injection E as <- <-. exact (tb_update _ _ _ _ _ T4 U O E5).
Qed.

(** ** one operation *)
Lemma set_step p c R i pa v : holdt p c -> tuples_of t c R -> table_allowed h t (Set_in_place i pa v) ->
  exists r p' R', run_table ps d t (Set_in_place i pa v) p = Ok (r, p') /\ rows_on_page ps d t p' R' /\ bounded_row_effect ps h d t (Set_in_place i pa v) R r R'.
Proof.
  intros H [FA F2] A. pose proof (place_ok p c i pa v H A) as IP.
  destruct (table_step ps h d0 d ty t Hps Hh TB FIN SD (Set_in_place i pa v) p c R H A F2) as (r & p' & c' & R' & E & H' & F' & RE).
  exists r, p', R'. split; [exact E|]. split; [apply (shown ps h d0 d ty t Hps TB FIN SD p' c' R' H'), F'|].
  destruct H as (hb & f & V & Z0 & _). destruct (in_place_step ps d Hps Hdef _ _ _ _ _ _ _ _ _ V IP) as (rb & q & c2 & f2 & E2 & _ & _ & M).
  cbn [run_table] in E. unfold answer_of in E. rewrite E2 in E. cbn [bind] in E. injection E as <- <-.
  destruct A as (U & PO & FT & DP). pose proof (f2_nth _ _ _ F2 (Z.to_nat i)) as N.
  assert (K : forall T, nth_error R (Z.to_nat i) = Some (Some T) -> (rb = true <-> row_settable t pa v T)).
  { intros T ET. rewrite ET in N. destruct (nth_error c (Z.to_nat i)) as [[x|]|] eqn:Ec; try contradiction. cbn [row_of] in N.
    rewrite (nth_error_nth c _ None Ec) in M. destruct M as (b & n & SE & _). rewrite Forall_forall in FA. pose proof (FA _ (nth_error_In _ _ Ec)) as TX.
    destruct (get_type_info t pa) as [u|] eqn:TI.
    - destruct TX as [DX GX]. assert (RM : room t x 0 0) by (split; [lia|]; intros _ s0 Es; rewrite GX in Es; injection Es as <-; lia).
      destruct (C55_set_succeeds t pa u x 0 v 0 DX PO RM TI (FT u eq_refl) (fun vm vo Ev => DP u vm vo eq_refl Ev)) as (r' & m' & E' & Q). rewrite SE in E'. injection E' as <- <-.
      rewrite Q. split; [intro S; exists x, u; split; [split; [exact DX|exact GX]|]; split; [exact N|]; split; [exact TI|exact S]|]. intro S. destruct (row_set_det t pa v T x (conj DX GX) N PO S) as (u' & TI' & S'). congruence.
    - unfold set_element in SE. rewrite TI in SE. injection SE as <- _. split; [discriminate|]. intros (b' & u & _ & _ & TI' & _). congruence. }
  cbn [bounded_row_effect row_effect] in *. destruct RE as [(Er & T & T' & R1 & R2 & -> & ZR & -> & u & TI & AP)|(Er & ->)].
  - assert (rb = true) as -> by (destruct rb; [reflexivity|discriminate Er]).
    assert (ET : nth_error (R1 ++ Some T :: R2) (Z.to_nat i) = Some (Some T)).
    { unfold zlen in ZR. rewrite nth_error_app2 by lia. replace (Z.to_nat i - length R1)%nat with 0%nat by lia. reflexivity. }
    left. exists T, T', u. split; [exact ET|]. split; [apply (K T ET); reflexivity|]. split; [reflexivity|]. split; [|auto].
    unfold replace_at. unfold zlen in ZR. replace (Z.to_nat i) with (length R1) by lia. rewrite firstn_app, firstn_all, Nat.sub_diag. cbn [firstn]. rewrite app_nil_r. f_equal. f_equal.
    replace (skipn (S (length R1)) (R1 ++ Some T :: R2)) with R2; [reflexivity|]. replace (S (length R1)) with (length R1 + 1)%nat by lia. clear. induction R1; cbn; [reflexivity|assumption].
  - right. assert (rb = false) as -> by (destruct rb; [discriminate Er|reflexivity]). split; [|auto]. intros T ET S. apply (K T ET) in S. discriminate.
Qed.

Lemma done_rows (P : Prop) Q c1 c r c' R1 R : (P <-> Q) -> done_if P c1 c r c' -> tuples_of t c1 R1 -> tuples_of t c R ->
  exists R', Forall2 (row_of t) c' R' /\ rows_done_if Q R1 R r R'.
Proof.
  intros PQ [(H & -> & ->)|(H & -> & ->)] [_ F1] [_ F].
  - exists R1. split; [exact F1|]. left. split; [apply PQ; exact H|auto].
  - exists R. split; [exact F|]. right. split; [rewrite <- PQ; exact H|auto].
Qed.
Lemma careful_rows srt p R op : sorts srt -> table ps h d t p -> rows_on_page ps d t p R -> table_allowed h t op -> quiet_table op = false ->
  exists r p' R', careful_table srt ps d t op p = Ok (r, p') /\ table ps h d t p' /\ rows_on_page ps d t p' R' /\ bounded_row_effect ps h d t op R r R'.
Proof.
  intros Hs T RP A Q. destruct (table_tuples p R T RP) as (c & H & TS & C). destruct op as [op|i pa v].
  2: { destruct (set_step p c R i pa v H TS A) as (r & p' & R' & E & RP' & BE). exists r, p', R'. split; [exact E|]. split; [exact (table_next ps h d t p _ r p' T A E)|auto]. }
  destruct (C72_step srt ps h d p c op L Hs (table_reachable p T) C (page_allowed ps h d0 d ty t Hps Hh TB FIN SD op A) Q) as (r & p' & c' & E & _ & C' & BE & _).
  pose proof (tb_careful srt p (Page op) r p' Hs T A E) as T'.
  assert (G : exists R', Forall2 (row_of t) c' R' /\ bounded_row_effect ps h d t (Page op) R r R').
  { pose proof (f2_zlen _ _ _ (proj2 TS)) as ZL.
    destruct op as [x|i x|i x|i| | |i j|srt' ok| |at_ bs]; cbn [quiet_table quiet] in Q; try discriminate Q; cbn [bounded_effect] in BE;
      try (destruct (effect_rows h t _ c r c' R A (proj1 TS) (proj2 TS) BE) as (_ & R' & F' & RE); exists R'; split; [exact F'|exact RE]).
    - destruct (tuple_row t x A) as [y Y]. pose proof (tuples_append t c R x y TS A Y) as TS1.
      destruct (done_rows _ (rows_fit ps h d t (R ++ [y])) _ _ _ _ _ _ (iff_sym (fit_iff t ps h d _ _ TS1)) BE TS1 TS) as (R' & F' & D). exists R'. split; [exact F'|]. exists y. auto.
    - destruct A as [U X]. destruct (tuple_row t x X) as [y Y]. pose proof (tuples_insert t c R i x y TS X Y) as TS1.
      destruct (done_rows (i <= zlen c /\ within ps h d (insert_at i x c)) (i <= zlen R /\ rows_fit ps h d t (insert_at i y R)) _ _ _ _ _ _ ltac:(rewrite (fit_iff t ps h d _ _ TS1), ZL; reflexivity) BE TS1 TS) as (R' & F' & D). exists R'. split; [exact F'|]. exists y. auto.
    - destruct A as [U X]. destruct (tuple_row t x X) as [y Y]. pose proof (tuples_replace t c R i x y TS X Y) as TS1.
      destruct (done_rows (i < zlen c /\ within ps h d (replace_at i x c)) (i < zlen R /\ rows_fit ps h d t (replace_at i y R)) _ _ _ _ _ _ ltac:(rewrite (fit_iff t ps h d _ _ TS1), ZL; reflexivity) BE TS1 TS) as (R' & F' & D). exists R'. split; [exact F'|]. exists y. auto. }
  destruct G as (R' & F' & BR). exists r, p', R'. split; [exact E|]. split; [exact T'|]. split; [|exact BR]. exact (proj1 (tuples_rows p' c' R' T' C' F')).
Qed.
End Table.
