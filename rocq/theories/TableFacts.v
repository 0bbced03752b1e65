(** * Lemmas about pages of tuples *)
From Verif Require Import BytesFacts SpecFacts PageReach TreeFacts TableSpec SizeProps.
From Coq Require Import ZifyBool ZifyNat ZifyN Zify.
Ltac Zify.zify_post_hook ::= Z.div_mod_to_equations.
Open Scope list_scope.
Open Scope Z_scope.

(** ** related lists *)
Section Related.
Context {A B : Type} (R : A -> B -> Prop).
Lemma f2_nth l r : Forall2 R l r -> forall i, match nth_error l i, nth_error r i with Some a, Some b => R a b | None, None => True | _, _ => False end.
Proof. induction 1 as [|a b l r H F IH]; intros [|i]; cbn; auto. apply IH. Qed.
Lemma f2_of l r : (forall i, match nth_error l i, nth_error r i with Some a, Some b => R a b | None, None => True | _, _ => False end) -> Forall2 R l r.
Proof.
  revert r. induction l as [|a l IH]; intros [|b r] H; [constructor|exact (False_ind _ (H 0%nat))|exact (False_ind _ (H 0%nat))|].
  constructor; [exact (H 0%nat)|]. apply IH. intro i. exact (H (Datatypes.S i)).
Qed.
Lemma f2_len l r : Forall2 R l r -> length l = length r.
Proof. induction 1; cbn; congruence. Qed.
Lemma f2_zlen l r : Forall2 R l r -> zlen l = zlen r.
Proof. intro F. unfold zlen. rewrite (f2_len _ _ F). reflexivity. Qed.
Lemma f2_app_l l1 l2 r : Forall2 R (l1 ++ l2) r -> exists r1 r2, r = r1 ++ r2 /\ Forall2 R l1 r1 /\ Forall2 R l2 r2.
Proof.
  revert r. induction l1 as [|a l1 IH]; intros r F; cbn in F.
  - exists [], r. repeat split; auto.
  - inversion F as [|? b ? r' H F']; subst. destruct (IH _ F') as (r1 & r2 & -> & F1 & F2). exists (b :: r1), r2. repeat split; auto.
Qed.
Lemma f2_cons_l a l r : Forall2 R (a :: l) r -> exists b r', r = b :: r' /\ R a b /\ Forall2 R l r'.
Proof. intro F. inversion F; subst. eauto. Qed.
End Related.

Lemma cut_at {A} (l : list A) i : 0 <= i <= zlen l -> l = firstn (Z.to_nat i) l ++ skipn (Z.to_nat i) l /\ zlen (firstn (Z.to_nat i) l) = i.
Proof. intro H. split; [symmetry; apply firstn_skipn|]. unfold zlen in *. rewrite firstn_length_le; lia. Qed.
Lemma cut_elem {A} (l : list A) i : 0 <= i < zlen l -> exists a, l = firstn (Z.to_nat i) l ++ a :: skipn (Datatypes.S (Z.to_nat i)) l /\ zlen (firstn (Z.to_nat i) l) = i /\ nth_error l (Z.to_nat i) = Some a.
Proof.
  intro H. destruct (nth_error l (Z.to_nat i)) as [a|] eqn:E; [|apply nth_error_None in E; unfold zlen in H; lia].
  exists a. split; [|split; [apply cut_at; lia|reflexivity]].
  destruct (nth_error_split l (Z.to_nat i) E) as (l1 & l2 & -> & L). rewrite <- L. rewrite firstn_app, Nat.sub_diag, firstn_all. cbn [firstn].
  rewrite app_nil_r. replace (skipn (Datatypes.S (length l1)) (l1 ++ a :: l2)) with l2; [reflexivity|].
  replace (Datatypes.S (length l1)) with (length l1 + 1)%nat by lia. clear. induction l1; cbn; [reflexivity|assumption].
Qed.

Lemma swap_errors {X} i j (l : list X) : 0 <= i < zlen l -> 0 <= j < zlen l ->
  zlen (swap_at i j l) = zlen l /\ nth_error (swap_at i j l) (Z.to_nat i) = nth_error l (Z.to_nat j) /\ nth_error (swap_at i j l) (Z.to_nat j) = nth_error l (Z.to_nat i)
  /\ forall k, k <> Z.to_nat i -> k <> Z.to_nat j -> nth_error (swap_at i j l) k = nth_error l k.
Proof.
  intros Hi Hj. pose proof (zlen_swap_at i j l Hi Hj) as Z0. split; [exact Z0|].
  assert (N : exists x0 : X, True) by (destruct l as [|x l]; [rewrite zlen_nil in Hi; lia|exists x; exact I]). destruct N as [x0 _].
  assert (K : forall k, 0 <= k < zlen l -> nth_error (swap_at i j l) (Z.to_nat k) = if k =? i then nth_error l (Z.to_nat j) else if k =? j then nth_error l (Z.to_nat i) else nth_error l (Z.to_nat k)).
  { intros k Hk. rewrite (nth_error_nth_z _ _ x0) by lia. rewrite nth_swap_at by lia. rewrite !(nth_error_nth_z l _ x0) by lia. destruct (k =? i), (k =? j); reflexivity. }
  split; [rewrite K, Z.eqb_refl by lia; reflexivity|]. split; [rewrite K, Z.eqb_refl by lia; destruct (Z.eqb_spec j i); [subst; reflexivity|reflexivity]|].
  intros k Ki Kj. destruct (Nat.ltb_spec k (length l)) as [L|L].
  - replace k with (Z.to_nat (Z.of_nat k)) at 1 by lia. rewrite K by (unfold zlen; lia). destruct (Z.eqb_spec (Z.of_nat k) i); [lia|]. destruct (Z.eqb_spec (Z.of_nat k) j); [lia|]. rewrite Nat2Z.id. reflexivity.
  - assert (nth_error l k = None) as -> by (apply nth_error_None; lia). apply nth_error_None. unfold zlen in Z0. lia.
Qed.

(** ** data wherever it lies *)
Lemma tree_moved t m a s T p o : data_at t m a -> get_size t m a = Ok s -> has_tree t m a [] T -> 0 <= o -> o + s <= zlen p -> slice p o s = slice m a s -> has_tree t p o [] T.
Proof.
  intros D G HT Ho Hl S. destruct (data_holds t m a D) as [bs H]. pose proof (holds_size _ _ _ _ H) as Z0. rewrite G in Z0. injection Z0 as Z0.
  destruct (tr_exists_good t bs (h_good _ _ _ _ H)) as [T0 R]. rewrite (has_tree_det _ _ _ _ _ HT _ (holds_tree _ _ _ _ _ H R)).
  apply (holds_tree t p o bs); [|exact R]. eapply holds_copy; [exact H|exact Ho|lia|]. rewrite <- Z0. exact S.
Qed.
Lemma tuple_row t x : is_tuple t x -> exists y, row_of t x y.
Proof.
  destruct x as [b|]; cbn; [|exists None; exact I]. intros [D _]. destruct (data_holds t b 0 D) as [bs H]. destruct (tr_exists_good t bs (h_good _ _ _ _ H)) as [T R].
  exists (Some T). exact (holds_tree _ _ _ _ _ H R).
Qed.
Lemma row_det t x y y' : row_of t x y -> row_of t x y' -> y = y'.
Proof. destruct x, y, y'; cbn; try tauto. intros H H'. f_equal. exact (has_tree_det _ _ _ _ _ H _ H'). Qed.

Section Table.
Variables (ps h : Z) (d0 d : size_def) (ty t : dti).
Hypothesis Hps : 128 <= ps <= max_bytes.
Hypothesis Hh : 0 <= h <= ps - 32.
Hypothesis TB : type_built ty.
Hypothesis FIN : finalize ty = (true, t).
Hypothesis SD : initialize_size_def d0 ty = Some d.
Local Notation view := (view ps d).

Lemma table_def_ok : def_ok d.
Proof.
  destruct (size_def_of_type d0 ty t d TB FIN SD) as (W & NB & EV & ES & EM & _).
  pose proof (wf_node t W) as (_ & _ & MX & _ & SZ & VM & _).
  assert (BF : is_bit_field t = false) by (unfold is_bit_field; destruct (type t); try reflexivity; congruence). specialize (SZ BF).
  unfold def_ok, max_tuple_size. rewrite ES, EV. destruct (is_variable_sized_ t) eqn:V; cbn [negb]; [|lia]. destruct (EM eq_refl) as (-> & _). specialize (VM eq_refl). lia.
Qed.
Let Hdef : def_ok d := table_def_ok.
Lemma tuple_is_ok x : is_tuple t x -> ext_ok d x.
Proof.
  destruct x as [b|]; cbn; [|trivial]. intros [D G]. split; [rewrite (C29_same_size d0 ty t d TB FIN SD); exact G|].
  destruct (size_def_of_type d0 ty t d TB FIN SD) as (W & NB & EV & ES & EM & _).
  destruct (data_holds t b 0 D) as [bs H]. pose proof (holds_size _ _ _ _ H) as Z0. rewrite G in Z0. injection Z0 as Z0.
  destruct (DataFacts.good_size _ _ (h_good _ _ _ _ H)) as (_ & _ & _ & _ & M & F).
  unfold max_tuple_size. rewrite EV. destruct (is_variable_sized_ t); cbn [negb]; [destruct (EM eq_refl) as (-> & _); specialize (M eq_refl)|rewrite ES; specialize (F eq_refl)]; lia.
Qed.

(** the entries of the page are tuples of type [t] *)
Definition holds_tuples (p : mem) (c : content) : Prop :=
  exists hb f, view p hb c f /\ zlen hb = h /\ Forall (is_tuple t) c.

Lemma shown p c r : holds_tuples p c -> (Forall2 (row_of t) c r <-> rows_on_page ps d t p r).
Proof.
  intros (hb & f & V & Z0 & FA). split.
  - intro F2. split.
    + rewrite (v_count ps d Hps Hdef _ _ _ _ V), (f2_zlen _ _ _ F2). reflexivity.
    + intros i [I0 I1]. destruct (v_get_nth ps d Hps Hdef _ _ _ _ i V I0) as (x & G & X). exists x. split; [exact G|].
      pose proof (f2_nth _ _ _ F2 (Z.to_nat i)) as N. pose proof (zlen_nonneg hb). pose proof (value_size_range ps).
      destruct x as [o|].
      * destruct X as (Hlt & b & En & TS & RD & B1 & B2 & OK).
        assert (Ne : nth_error c (Z.to_nat i) = Some (Some b)) by (rewrite <- En; apply nth_error_nth'; unfold zlen in Hlt; lia).
        rewrite Ne in N. destruct (nth_error r (Z.to_nat i)) as [[T|]|]; try contradiction. cbn in N. exists o. split; [reflexivity|].
        rewrite Forall_forall in FA. destruct (FA _ (nth_error_In _ _ Ne)) as [D S]. pose proof (view_len ps d Hps _ _ _ _ V).
        apply (tree_moved t b 0 (zlen b)); auto; try lia. apply rd_inv in RD. destruct RD as (_ & _ & _ & RD). rewrite <- RD. symmetry. apply slice_all. reflexivity.
      * destruct (nth_error c (Z.to_nat i)) as [[b|]|] eqn:Ne, (nth_error r (Z.to_nat i)) as [[T|]|]; try contradiction; try reflexivity.
        exfalso. rewrite (nth_error_nth c _ None Ne) in X. destruct X as [X|X]; [|discriminate].
        assert (nth_error c (Z.to_nat i) <> None) by congruence. apply nth_error_Some in H1. unfold zlen in X. lia.
  - intros [CN GN]. rewrite (v_count ps d Hps Hdef _ _ _ _ V) in CN. injection CN as CN.
    apply f2_of. intro i.
    destruct (Nat.ltb_spec i (length c)) as [L|L].
    2: { assert (nth_error c i = None) as -> by (apply nth_error_None; lia). assert (nth_error r i = None) as -> by (apply nth_error_None; unfold zlen in CN; lia). exact I. }
    assert (U : is_u32 (Z.of_nat i)).
    { split; [lia|]. destruct (v_bounds ps d Hps Hdef _ _ _ _ V) as (_ & _ & _ & _ & _ & _ & B & _). unfold zlen, max_bytes in *. lia. }
    destruct (GN (Z.of_nat i) U) as (x & G & X). rewrite Nat2Z.id in X.
    destruct (v_get_nth ps d Hps Hdef _ _ _ _ (Z.of_nat i) V (proj1 U)) as (x' & G' & X'). rewrite G in G'. injection G' as <-. rewrite Nat2Z.id in X'.
    destruct (nth_error c i) as [y|] eqn:Ne; [|apply nth_error_None in Ne; lia].
    destruct (nth_error r i) as [z|] eqn:Nr; [|apply nth_error_None in Nr; unfold zlen in CN; lia].
    rewrite (nth_error_nth c i None Ne) in X'. pose proof (zlen_nonneg hb). pose proof (value_size_range ps). pose proof (view_len ps d Hps _ _ _ _ V).
    rewrite Forall_forall in FA. specialize (FA _ (nth_error_In _ _ Ne)).
    destruct z as [T|].
    + destruct X as (o & -> & HT). destruct X' as (_ & b & -> & TS & RD & B1 & B2 & OK). cbn in FA |- *. destruct FA as [D S].
      destruct (tuple_row t (Some b) (conj D S)) as [[T0|] R0]; [|contradiction]. cbn in R0.
      assert (HT0 : has_tree t p o [] T0). { apply (tree_moved t b 0 (zlen b)); auto; try lia. apply rd_inv in RD. destruct RD as (_ & _ & _ & RD). rewrite <- RD. symmetry. apply slice_all. reflexivity. }
      rewrite (has_tree_det _ _ _ _ _ HT _ HT0). exact R0.
    + subst x. destruct X' as [X'| ->]; [unfold zlen in X'; lia|exact I].
Qed.

Lemma is_tuple_fa c c' : (forall x, In x c' -> In x c) -> Forall (is_tuple t) c -> Forall (is_tuple t) c'.
Proof. rewrite !Forall_forall. auto. Qed.

(** the specification on entries and the one on rows *)
Lemma effect_rows op c r c' R : table_allowed h t (Page op) -> Forall (is_tuple t) c -> Forall2 (row_of t) c R -> effect op c r c' ->
  Forall (is_tuple t) c' /\ exists R', Forall2 (row_of t) c' R' /\ row_effect t (Page op) R r R'.
Proof.
  intros A FA F2 E. pose proof (f2_zlen _ _ _ F2) as LZ. pose proof (zlen_nonneg c) as NN.
  destruct op as [x|i x|i x|i| | |i j|srt ok| |at_ bs]; cbn [table_allowed effect row_effect] in *.
  - destruct E as [[-> ->]|[-> ->]].
    + destruct (tuple_row t x A) as [y Y]. split; [apply Forall_app; auto|]. exists (R ++ [y]). split; [apply Forall2_app; auto|]. left. split; [reflexivity|]. exists y. auto.
    + split; [exact FA|]. exists R. auto.
  - destruct A as [[I0 _] A]. destruct E as [(-> & Le & ->)|[-> ->]].
    + destruct (tuple_row t x A) as [y Y]. destruct (cut_at c i ltac:(lia)) as [Ec Z1]. unfold insert_at. rewrite Ec in F2, FA.
      apply Forall_app in FA. destruct FA as [FA1 FA2]. destruct (f2_app_l _ _ _ _ F2) as (R1 & R2 & -> & G1 & G2). split; [apply Forall_app; auto|].
      exists (R1 ++ y :: R2). split; [apply Forall2_app; auto|]. left. split; [reflexivity|]. exists y, R1, R2. repeat split; auto. rewrite <- (f2_zlen _ _ _ G1). exact Z1.
    + split; [exact FA|]. exists R. auto.
  - destruct A as [[I0 _] A]. destruct E as [(-> & Lt & ->)|(-> & NX & ->)].
    + destruct (tuple_row t x A) as [y Y]. destruct (cut_elem c i ltac:(lia)) as (a & Ec & Z1 & _). unfold replace_at. rewrite Ec in F2, FA.
      apply Forall_app in FA. destruct FA as [FA1 FA2]. inversion FA2; subst.
      destruct (f2_app_l _ _ _ _ F2) as (R1 & R2 & -> & G1 & G2). destruct (f2_cons_l _ _ _ _ G2) as (z & R3 & -> & _ & G3). split; [apply Forall_app; auto|].
      exists (R1 ++ y :: R3). split; [apply Forall2_app; auto|]. left. split; [reflexivity|]. exists y, z, R1, R3. repeat split; auto. rewrite <- (f2_zlen _ _ _ G1). exact Z1.
    + split; [exact FA|]. exists R. split; [exact F2|]. right. rewrite <- LZ. auto.
  - destruct A as [I0 _]. destruct (Z.ltb_spec i (zlen c)) as [Lt|Ge]; destruct E as [-> ->].
    + destruct (cut_elem c i ltac:(lia)) as (a & Ec & Z1 & _). unfold remove_at. rewrite Ec in F2, FA.
      apply Forall_app in FA. destruct FA as [FA1 FA2]. inversion FA2; subst.
      destruct (f2_app_l _ _ _ _ F2) as (R1 & R2 & -> & G1 & G2). destruct (f2_cons_l _ _ _ _ G2) as (z & R3 & -> & _ & G3). split; [apply Forall_app; auto|].
      exists (R1 ++ R3). split; [apply Forall2_app; auto|]. left. split; [reflexivity|]. exists z, R1, R3. repeat split; auto. rewrite <- (f2_zlen _ _ _ G1). exact Z1.
    + split; [exact FA|]. exists R. split; [exact F2|]. right. repeat split. lia.
  - destruct E as [-> ->]. split; [constructor|]. exists []. auto.
  - destruct E as [-> ->].
    assert (TR : exists k, c = drop_last (trailing_tomb_stones c) c ++ repeat None k /\ (forall c0, drop_last (trailing_tomb_stones c) c <> c0 ++ [None]) /\ trailing_tomb_stones c = Z.of_nat k).
    { clear.
      assert (K : forall l : content, exists k r, l = repeat None k ++ r /\ (forall r0, r <> None :: r0) /\ leading_tomb_stones l = Z.of_nat k).
      { induction l as [|[a|] l (k & r & -> & N & L)]; [exists 0%nat, []; repeat split; auto; discriminate| |].
        - exists 0%nat, (Some a :: repeat None k ++ r). repeat split; auto. discriminate.
        - exists (Datatypes.S k), r. repeat split; auto. cbn [leading_tomb_stones]. lia. }
      destruct (K (rev c)) as (k & r & E & N & L). unfold trailing_tomb_stones, drop_last. exists k. rewrite L, Nat2Z.id.
      assert (RR : rev (repeat None k) = repeat (@None (list byte)) k).
      { clear. induction k; [reflexivity|]. cbn. rewrite IHk. clear. induction k; [reflexivity|]. cbn. f_equal. exact IHk. }
      apply (f_equal (@rev _)) in E. rewrite rev_involutive, rev_app_distr, RR in E. subst c.
      rewrite app_length, repeat_length. replace (length (rev r) + k - k)%nat with (length (rev r)) by lia.
      rewrite firstn_app, Nat.sub_diag, firstn_all, app_nil_r. repeat split; auto.
      intros c0 E. apply (f_equal (@rev _)) in E. rewrite rev_involutive, rev_app_distr in E. exact (N _ E). }
    destruct TR as (k & Ec & NN' & L). rewrite L. rewrite L in Ec, NN'. set (c' := drop_last (Z.of_nat k) c) in *. clearbody c'. subst c.
    apply Forall_app in FA. destruct FA as [FA1 FA2]. split; [exact FA1|].
    destruct (f2_app_l _ _ _ _ F2) as (R1 & R2 & -> & G1 & G2). exists R1. split; [exact G1|]. exists k. split; [f_equal|split; [|reflexivity]].
    + clear - G2. revert R2 G2. induction k as [|k IH]; intros R2 G2; cbn in G2; inversion G2 as [|? y ? ? H G]; subst; [reflexivity|]. destruct y; [contradiction|]. cbn. f_equal. apply IH. exact G.
    + intros c0 ->. apply Forall2_app_inv_r in G1. destruct G1 as (c1 & c2 & _ & G & ->). inversion G as [|x ? ? ? H G0]; subst. inversion G0; subst. destruct x; [contradiction|]. exact (NN' c1 eq_refl).
  - destruct A as [[I0 _] [J0 _]]. rewrite <- LZ. destruct ((i <? zlen c) && (j <? zlen c)) eqn:B; destruct E as [-> ->]; [|split; [exact FA|]; exists R; auto].
    assert (W : forall {X} (l : list X), i < zlen l -> j < zlen l -> zlen (swap_at i j l) = zlen l /\ nth_error (swap_at i j l) (Z.to_nat i) = nth_error l (Z.to_nat j) /\ nth_error (swap_at i j l) (Z.to_nat j) = nth_error l (Z.to_nat i)
        /\ forall k, k <> Z.to_nat i -> k <> Z.to_nat j -> nth_error (swap_at i j l) k = nth_error l k).
    { intros X l Hi Hj. exact (swap_errors i j l (conj I0 Hi) (conj J0 Hj)). }
    destruct (W _ c ltac:(lia) ltac:(lia)) as (W1 & W2 & W3 & W4). destruct (W _ R ltac:(lia) ltac:(lia)) as (V1 & V2 & V3 & V4).
    assert (F2' : Forall2 (row_of t) (swap_at i j c) (swap_at i j R)).
    { apply f2_of. intro k. pose proof (f2_nth _ _ _ F2) as N.
      destruct (Nat.eq_dec k (Z.to_nat i)) as [->|Ni]; [rewrite W2, V2; apply N|]. destruct (Nat.eq_dec k (Z.to_nat j)) as [->|Nj]; [rewrite W3, V3; apply N|]. rewrite W4, V4 by auto. apply N. }
    split; [|exists (swap_at i j R); split; [exact F2'|]; split; [reflexivity|]; split; [rewrite LZ; exact V1|]; auto].
    apply Forall_forall. intros x Hx. apply In_nth_error in Hx. destruct Hx as [k Hk]. rewrite Forall_forall in FA. apply FA.
    destruct (Nat.eq_dec k (Z.to_nat i)) as [->|Ni]; [rewrite W2 in Hk; eapply nth_error_In; eassumption|]. destruct (Nat.eq_dec k (Z.to_nat j)) as [->|Nj]; [rewrite W3 in Hk; eapply nth_error_In; eassumption|].
    rewrite W4 in Hk by auto. eapply nth_error_In; eassumption.
  - destruct E as [E ->]. split; [exact FA|]. exists R. auto.
  - destruct E as [E ->]. split; [exact FA|]. exists R. auto.
  - destruct E as [E ->]. split; [exact FA|]. exists R. auto.
Qed.

Lemma page_allowed op : table_allowed h t (Page op) -> op_ok h d op.
Proof. destruct op; cbn; try tauto; [apply tuple_is_ok|intros [U A]; split; [exact U|apply tuple_is_ok; exact A]|intros [U A]; split; [exact U|apply tuple_is_ok; exact A]]. Qed.

Lemma table_step op p c R : holds_tuples p c -> table_allowed h t op -> Forall2 (row_of t) c R ->
  exists r p' c' R', run_table ps d t op p = Ok (r, p') /\ holds_tuples p' c' /\ Forall2 (row_of t) c' R' /\ row_effect t op R r R'.
Proof.
  intros (hb & f & V & Z0 & FA) A F2. destruct op as [op|i pa v].
  - pose proof (page_allowed op A) as OK. rewrite <- Z0 in OK.
    destruct (step_ok ps d Hps Hdef _ _ _ _ _ V OK) as (r & p' & hb' & c' & f' & E & V' & EF & Z1 & _).
    destruct (effect_rows op c r c' R A FA F2 EF) as (FA' & R' & F2' & RE).
    exists r, p', c', R'. split; [exact E|]. split; [exists hb', f'; split; [exact V'|]; split; [congruence|exact FA']|]. auto.
  - cbn [table_allowed run_table] in *. destruct A as (U & PO & FT & DP).
    assert (NT : forall x, nth (Z.to_nat i) c None = Some x -> nth_error c (Z.to_nat i) = Some (Some x)).
    { intros x Hx. destruct (nth_error c (Z.to_nat i)) as [y|] eqn:Ne; [rewrite (nth_error_nth c _ None Ne) in Hx; congruence|]. apply nth_error_None in Ne. rewrite nth_overflow in Hx by lia. discriminate. }
    assert (IP : in_place_ok ps d p ty t i pa v).
    { split; [exact TB|]. split; [exact FIN|]. split; [exists d0; exact SD|]. split; [exact U|]. split; [exact PO|]. split; [exact FT|]. split; [exact DP|].
      intros x Hx. unfold is_u32 in U. unfold read_entry in Hx.
      destruct (v_get_nth ps d Hps Hdef _ _ _ _ i V ltac:(lia)) as (y & G & Y). rewrite G in Hx. cbn [bind] in Hx. destruct y as [o|]; [|discriminate].
      destruct Y as (_ & b & En & TS & RD & _). rewrite TS in Hx. cbn [bind] in Hx. rewrite RD in Hx. cbn [bind] in Hx. injection Hx as <-.
      rewrite Forall_forall in FA. exact (proj1 (FA _ (nth_error_In _ _ (NT _ En)))). }
    destruct (in_place_step ps d Hps Hdef _ _ _ _ _ _ _ _ _ V IP) as (r & p' & c' & f' & E & V' & NO & M).
    rewrite E. unfold answer_of. cbn [bind].
    destruct r.
    2: { destruct (NO eq_refl) as [-> ->]. eexists _, p, c, R. split; [reflexivity|]. split; [exists hb, f; auto|]. split; [exact F2|]. right. auto. }
    destruct (nth (Z.to_nat i) c None) as [x|] eqn:En; [|discriminate].
    destruct M as (b & n & S1 & S2 & G & Ln & D & Ec). specialize (Ec eq_refl). subst c'. unfold is_u32 in U.
    specialize (NT x eq_refl). assert (Hlt : i < zlen c) by (assert (K : nth_error c (Z.to_nat i) <> None) by congruence; apply nth_error_Some in K; unfold zlen; lia).
    destruct (cut_elem c i ltac:(lia)) as (a & Ec & Z1 & Ea). rewrite NT in Ea. injection Ea as <-. rewrite Ec in F2, FA.
    pose proof FA as FA0. apply Forall_app in FA. destruct FA as [FA1 FA2]. inversion FA2 as [|? ? TX FA3]; subst.
    destruct (f2_app_l _ _ _ _ F2) as (R1 & R2 & -> & G1 & G2). destruct (f2_cons_l _ _ _ _ G2) as ([T|] & R3 & -> & HT & G3); [|contradiction].
    cbn in HT, TX. destruct TX as [DX GX].
    destruct (step_tree t (Set_element pa v 0) x 0 T DX) as (r' & b' & T' & E' & DB & HT' & TS); [|exact HT|].
    { cbn [allowed]. split; [exact PO|]. split; [split; [lia|]; intros _ s0 Es; rewrite GX in Es; injection Es as <-; lia|]. split; [exact FT|exact DP]. }
    cbn [run] in E'. rewrite S1 in E'. injection E' as <- <-.
    destruct (data_holds t b 0 DB) as [bs HB]. pose proof (holds_size _ _ _ _ HB) as Gb. rewrite G in Gb. injection Gb as Gb. pose proof (h_in _ _ _ _ HB) as Lb.
    assert (Ls : zlen (slice b 0 n) = n) by (apply zlen_slice; lia).
    assert (SL : slice (slice b 0 n) 0 n = slice b 0 n) by (apply slice_all; lia).
    assert (GS : get_size t (slice b 0 n) 0 = Ok (zlen (slice b 0 n))).
    { assert (HC : holds t (slice b 0 n) 0 bs) by (eapply holds_copy; [exact HB|lia|lia|]; rewrite <- Gb; exact SL). rewrite (holds_size _ _ _ _ HC). congruence. }
    assert (HS : has_tree t (slice b 0 n) 0 [] T') by (apply (tree_moved t b 0 n); auto; lia).
    unfold replace_at in V'. 
    eexists _, p', (firstn (Z.to_nat i) c ++ Some (slice b 0 n) :: skipn (Datatypes.S (Z.to_nat i)) c), (R1 ++ Some T' :: R3). split; [reflexivity|]. split; [|split].
    + exists hb, f'. split; [exact V'|]. split; [exact Z0|]. apply Forall_app. split; [exact FA1|]. constructor; [split; [exact D|exact GS]|exact FA3].
    + apply Forall2_app; [exact G1|]. constructor; [exact HS|exact G3].
    + left. split; [reflexivity|]. exists T, T', R1, R3. repeat split; auto. rewrite <- (f2_zlen _ _ _ G1). exact Z1.
Qed.

Lemma table_holds p : table ps h d t p -> exists c R, holds_tuples p c /\ Forall2 (row_of t) c R.
Proof.
  induction 1 as [p0 p L E|p op r p' T (c & R & H & F2) A E].
  - destruct (v_init ps d Hps Hdef p0 h L Hh) as (p1 & E1 & V). rewrite E1 in E. injection E as Eb Ep. rewrite Eb in V. subst p1.
    exists [], []. split; [|constructor]. eexists _, _. split; [exact V|]. split; [rewrite zlen_repeat; lia|constructor].
  - destruct (table_step op p c R H A F2) as (r1 & p1 & c1 & R1 & E1 & H1 & F1 & _). rewrite E in E1. injection E1 as <- <-. eauto.
Qed.
End Table.
