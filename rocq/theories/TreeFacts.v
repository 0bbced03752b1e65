(** * The tree of well formed data *)
From Verif Require Export OpFacts TreeSpec.
From Coq Require Import ZifyBool ZifyNat ZifyN Zify.
Ltac Zify.zify_post_hook ::= Z.div_mod_to_equations.

Inductive tr : dti -> celem -> tree -> Prop :=
| tr_null t : tr t CNull TNull
| tr_bits t z : tr t (CBits z) (TNum (OBits z))
| tr_leaf t c : is_container_type_info t = false -> good t c -> tr t (CBytes c) (TNum (obs_self t c))
| tr_node t c es l : container t -> good t c -> cv t c 0 (zlen c) es -> length l = length es ->
    (forall i e T, nth_error es i = Some e -> nth_error l i = Some T -> tr (etype t (Z.of_nat i)) e T) ->
    tr t (CBytes c) (TNode l).

Lemma pick {A} (P : nat -> A -> Prop) n : (forall i, (i < n)%nat -> exists a, P i a) ->
  exists l, length l = n /\ forall i a, nth_error l i = Some a -> P i a.
Proof.
  induction n as [|n IH]; intro H.
  - exists []. split; [reflexivity|]. intros [|i]; discriminate.
  - destruct IH as (l & L & K); [intros; apply H; lia|]. destruct (H n ltac:(lia)) as (a & p).
    exists (l ++ [a]). rewrite app_length. cbn [length]. split; [lia|]. intros i x X.
    assert (i < n \/ i = n)%nat as [I|I].
    { assert (nth_error (l ++ [a]) i <> None) as Q by congruence. apply nth_error_Some in Q. rewrite app_length in Q. cbn in Q. lia. }
    + rewrite nth_error_app1 in X by lia. eauto.
    + rewrite nth_error_app2 in X by lia. replace (i - length l)%nat with O in X by lia. injection X as <-. subst i. exact p.
Qed.
Lemma nth_len {A B} (l : list A) (k : list B) i x : length l = length k -> nth_error l i = Some x -> exists y, nth_error k i = Some y.
Proof.
  intros L E. destruct (nth_error k i) as [y|] eqn:K; [eauto|]. apply nth_error_None in K.
  assert (nth_error l i <> None) as Q by congruence. apply nth_error_Some in Q. lia.
Qed.

Lemma tr_exists_good t c : good t c -> exists T, tr t (CBytes c) T.
Proof.
  induction 1 as [t c W C B L | t c es CT V GE IH].
  - eexists. apply tr_leaf; auto. apply good_leaf; auto.
  - destruct (pick (fun i T => forall e, nth_error es i = Some e -> tr (etype t (Z.of_nat i)) e T) (length es)) as (l & L & K).
    { intros i I. destruct (nth_error es i) as [e|] eqn:En; [|exists TNull; discriminate].
      assert (En' : nth_error es (Z.to_nat (Z.of_nat i)) = Some e) by (rewrite Nat2Z.id; exact En). destruct e as [|z|b].
      - exists TNull. intros e E. injection E as <-. constructor.
      - exists (TNum (OBits z)). intros e E. injection E as <-. constructor.
      - destruct (IH (Z.of_nat i) b ltac:(lia) En') as [T HT]. exists T. intros e E. injection E as <-. exact HT. }
    exists (TNode l). apply (tr_node t c es l CT); auto. apply (good_con t c es CT V GE).
Qed.
Lemma tr_exists t e : goodel t e -> exists T, tr t e T.
Proof. destruct e as [|z|c]; cbn; intro G; [eexists; constructor|eexists; constructor|apply tr_exists_good; exact G]. Qed.
Lemma tr_good t e T : tr t e T -> goodel t e.
Proof. destruct 1; cbn; auto. Qed.

Lemma list_eq {A} (l : list A) : forall k, length l = length k -> (forall i x y, nth_error l i = Some x -> nth_error k i = Some y -> x = y) -> l = k.
Proof.
  induction l as [|a l IH]; intros [|b k] L H; try discriminate; [reflexivity|]. f_equal; [apply (H O); reflexivity|]. apply IH; [cbn in L; lia|]. intros i. apply (H (S i)).
Qed.
Lemma tr_det t e T : tr t e T -> forall T', tr t e T' -> T = T'.
Proof.
  induction 1 as [t|t z|t c C G|t c es l CT G V L K IH]; intros T' H'; inversion H'; subst; try reflexivity.
  - match goal with K : container t |- _ => destruct K; congruence end.
  - destruct CT; congruence.
  - match goal with K : cv t c 0 (zlen c) ?es' |- _ => pose proof (cv_same0 t c es es' CT V K) end. subst.
    f_equal. apply list_eq; [congruence|]. intros i x y X Y. destruct (nth_len l _ i x L X) as [e E]. eapply IH; eauto.
Qed.
Lemma tr_node_inv t c es T : container t -> cv t c 0 (zlen c) es -> tr t (CBytes c) T ->
  exists l, T = TNode l /\ length l = length es /\ good t c /\ forall i e x, nth_error es i = Some e -> nth_error l i = Some x -> tr (etype t (Z.of_nat i)) e x.
Proof.
  intros CT V H. inversion H; subst; [destruct CT; congruence|].
  match goal with K : cv t c 0 (zlen c) ?es' |- _ => pose proof (cv_same0 t c es es' CT V K) end. subst. eauto.
Qed.

Lemma obs_leaf t c : is_container_type_info t = false -> is_bit_field t = false -> is_number (obs_self t c) = true.
Proof. unfold is_container_type_info, is_bit_field, obs_self. destruct (type t); cbn; try discriminate; try reflexivity. intros _ _. destruct (size t =? 4); reflexivity. Qed.
Lemma obs_list t c : is_container_type_info t = true -> is_list (obs_self t c) = true.
Proof. unfold is_container_type_info, obs_self. destruct (type t); cbn; try discriminate; reflexivity. Qed.
Lemma tr_has t e T : tr t e T -> forall d m o pa,
  (forall pb, path_ok pb -> observe d (pa ++ pb) m o = oel t pb e /\ element_count_of d (pa ++ pb) m o = cel t pb e) -> has_tree d m o pa T.
Proof.
  induction 1 as [t|t z|t c C G|t c es l CT G V L K IH]; intros d m o pa H; destruct (H [] (Forall_nil _)) as [O N]; rewrite app_nil_r in O, N; cbn [oel cel] in O, N.
  - apply ht_null. exact O.
  - apply ht_num; [exact O|reflexivity].
  - rewrite (observe_self t c 0 c (holds_self _ _ G)) in O. apply ht_num; [exact O|]. apply obs_leaf; [exact C|]. apply (good_size _ _ G).
  - rewrite (observe_self t c 0 c (holds_self _ _ G)) in O. apply (ht_node _ _ _ _ _ _ O); [apply obs_list; apply CT| |].
    + rewrite N. cbn [element_count_of]. rewrite (cv_get_count t c 0 _ es CT V). unfold zlen. congruence.
    + intros i T E. destruct (nth_len l es i T L E) as [e En]. apply (IH i e T En E). intros pb PB. rewrite <- app_assoc. cbn [app].
      pose proof (proj1 (cv_n _ _ _ _ _ V)) as R. assert (I : (i < length es)%nat) by (apply nth_error_Some; congruence).
      assert (En' : nth_error es (Z.to_nat (Z.of_nat i)) = Some e) by (rewrite Nat2Z.id; exact En).
      destruct (H (Z.of_nat i :: pb)) as [-> ->]; [constructor; [unfold zlen in R; lia|exact PB]|]. cbn [oel cel].
      rewrite (observe_step t c es (Z.of_nat i) e pb CT G V ltac:(lia) En' PB), (count_step t c es (Z.of_nat i) e pb CT G V ltac:(lia) En' PB). auto.
Qed.
Lemma holds_tree d m o bs T : holds d m o bs -> tr d (CBytes bs) T -> has_tree d m o [] T.
Proof.
  intros H R. apply (tr_has d _ _ R). intros pb PB. cbn [app oel cel]. rewrite (observe_local pb d m o bs PB H), (count_local pb d m o bs PB H). auto.
Qed.
Lemma has_tree_det d m o pa T : has_tree d m o pa T -> forall T', has_tree d m o pa T' -> T = T'.
Proof.
  induction 1 as [pa O|pa r O N|pa r l O N C K IH]; intros T' H'; inversion H' as [pa' O'|pa' r' O' N'|pa' r' l' O' N' C' K']; subst; rewrite O in O'; try (injection O' as <-); try discriminate; try reflexivity;
    try (destruct r; discriminate).
  f_equal. rewrite C in C'. injection C' as C'. unfold zlen in C'. apply list_eq; [lia|]. intros i x y X Y. eapply IH; eauto.
Qed.

(** ** unset elements *)
Lemma zelem_tr t : wf t -> (is_nullable_type_info t = false -> is_bit_field t = false -> exists T, tr t (CBytes (min_data t)) T /\ fresh t T) ->
  exists T, tr t (zelem t) T /\ unset t T.
Proof.
  intros W H. unfold zelem. destruct (is_nullable_type_info t) eqn:N.
  - exists TNull. split; [constructor|]. apply unset_null. rewrite nullable_spec; auto.
  - pose proof N as N'. rewrite <- nullable_spec in N' by exact W. destruct (nullable_false t W N') as [VF _]. destruct (is_bit_field t) eqn:B.
    + exists (TNum (OBits 0)). split; [constructor|]. apply unset_value; [exact N'|]. apply is_bit_field_spec in B.
      replace (OBits 0) with (zero_value t) by (unfold zero_value; rewrite B; reflexivity). apply fresh_num. unfold is_container_type_info. rewrite B. reflexivity.
    + destruct (H eq_refl eq_refl) as (T & T1 & T2). rewrite zeros_min in T1 by exact VF. exists T. split; [exact T1|]. apply unset_value; auto.
Qed.
Lemma tr_fresh_good t c : good t c -> c = min_data t -> exists T, tr t (CBytes c) T /\ fresh t T.
Proof.
  induction 1 as [t c W C B L | t c es CT V GE IH]; intros ->.
  - exists (TNum (obs_self t (min_data t))). split; [apply tr_leaf; auto; apply good_min; auto|].
    rewrite unset_self; auto; [apply fresh_num; exact C|]. unfold is_container_type_info in C. intros [T|T]; rewrite T in C; discriminate.
  - pose proof CT as [W C]. pose proof (container_nb t C) as B. pose proof (good_con t _ es CT V GE) as G.
    assert (V' : cv t (min_data t) 0 (zlen (min_data t)) (zes t (min_count t))) by (rewrite zlen_min_data by auto; apply cv_min; exact CT).
    pose proof (cv_same0 t _ es _ CT V V'). subst es. pose proof (min_count_ok t W C) as MC. pose proof MC as [MC0 _].
    pose proof (zlen_zes t (min_count t) ltac:(lia)) as ZL.
    destruct (pick (fun i T => tr (etype t (Z.of_nat i)) (zelem (etype t (Z.of_nat i))) T /\ unset (etype t (Z.of_nat i)) T) (length (zes t (min_count t)))) as (l & L & K).
    { intros i I. unfold zlen in ZL. pose proof (etype_wf t _ (Z.of_nat i) W C MC ltac:(lia)) as Wt. apply zelem_tr; [exact Wt|]. intros N Bt.
      assert (En : nth_error (zes t (min_count t)) (Z.to_nat (Z.of_nat i)) = Some (zelem (etype t (Z.of_nat i)))) by (unfold zes; rewrite Nat2Z.id, nth_seq_map by lia; reflexivity).
      rewrite <- nullable_spec in N by exact Wt. destruct (nullable_false _ Wt N) as [VF N']. unfold zelem in En. rewrite N', Bt in En.
      rewrite (zeros_min _ VF). destruct (IH (Z.of_nat i) (zeros (size (etype t (Z.of_nat i)))) ltac:(lia) En) as (T & T1 & T2); [symmetry; apply zeros_min; exact VF|]. eauto. }
    exists (TNode l). split.
    + apply (tr_node t _ (zes t (min_count t)) l CT G V L). intros i e T E X.
      assert (E' : nth_error (zes t (min_count t)) (Z.to_nat (Z.of_nat i)) = Some e) by (rewrite Nat2Z.id; exact E).
      destruct (zes_nth t _ (Z.of_nat i) e ltac:(lia) E') as [_ ->]. apply K. exact X.
    + apply fresh_list; [exact C| |].
      * rewrite min_elements_spec by auto. unfold zlen in *. lia.
      * intros i T X. exists (etype t (Z.of_nat i)). destruct (nth_len l _ i T L X) as [e E]. assert (I : (i < length (zes t (min_count t)))%nat) by (apply nth_error_Some; congruence).
        split; [|apply K; exact X]. cbn [get_type_info]. rewrite (ctype_some t (min_count t) (Z.of_nat i) CT MC); [reflexivity|]. unfold zlen in ZL. lia.
Qed.
Lemma tr_fresh t : wf t -> is_bit_field t = false -> exists T, tr t (CBytes (min_data t)) T /\ fresh t T.
Proof. intros W B. apply tr_fresh_good; [apply good_min; auto|reflexivity]. Qed.
Lemma tr_unset t : wf t -> exists T, tr t (zelem t) T /\ unset t T.
Proof. intro W. apply zelem_tr; [exact W|]. intros _ B. apply tr_fresh; auto. Qed.

(** ** strings *)
Lemma tr_string t c T : string_type t -> tr t (CBytes c) T -> T = bytes_tree (slice c (pbo t) (zlen c - pbo t)).
Proof.
  intros ST H. pose proof (tr_good _ _ _ H) as G. cbn in G.
  destruct (string_bytes t c 0 c (holds_self _ _ G) ST) as (n & _ & E2 & E3 & E4 & _ & es & CT & V & L & K).
  destruct (tr_node_inv t c es T CT V H) as (l & -> & L' & _ & KT). unfold bytes_tree. f_equal. replace (zlen c - pbo t) with n by lia.
  assert (LS : length (slice c (pbo t) n) = length l) by (pose proof (zlen_slice c (pbo t) n ltac:(lia) ltac:(lia) ltac:(lia)); unfold zlen in *; lia).
  apply list_eq; [rewrite map_length; lia|]. intros i x y X Y.
  assert (I : (i < length l)%nat) by (apply nth_error_Some; congruence).
  assert (Ki : nth_error es i = Some (CBytes [bat c (pbo t + Z.of_nat i)])) by (rewrite <- K by (unfold zlen in L; lia); rewrite Nat2Z.id; reflexivity).
  rewrite nth_error_map in Y. destruct (nth_error (slice c (pbo t) n) i) as [b|] eqn:Eb; [|discriminate]. injection Y as <-.
  pose proof (nth_bat _ _ _ Eb) as Nb. rewrite bat_slice in Nb by (unfold zlen in *; lia).
  specialize (KT i _ x Ki X). pose proof (string_layout t (proj1 CT) ST) as (_ & _ & _ & _ & _ & ET & _). rewrite ET in KT.
  inversion KT as [| |? ? C0 G0|? ? ? ? CT0]; subst; [|destruct CT0; discriminate].
  unfold obs_self. cbn [type uint8_type dec]. f_equal. f_equal. lia.
Qed.

(** ** storing *)
Lemma zlen_bytes_eq (l : list byte) : Z.to_nat (zlen l) = length l.
Proof. unfold zlen. lia. Qed.
Lemma slice_app_r (a b : list byte) : slice (a ++ b) (zlen a) (zlen b) = b.
Proof. unfold slice. rewrite !zlen_bytes_eq, skipn_app, skipn_all, Nat.sub_diag. cbn [skipn app]. apply firstn_all. Qed.
Lemma slice_app_tail (a b : list byte) k : zlen a = k -> slice (a ++ b) k (zlen (a ++ b) - k) = b.
Proof. intros <-. rewrite zlen_app. replace (zlen a + zlen b - zlen a) with (zlen b) by lia. apply slice_app_r. Qed.
Lemma stored_tr t v x T : wf t -> fits t v -> points_good t v -> stored_elem t v x -> tr t x T -> stores t v T.
Proof.
  intros W FT PG SE H. pose proof (wf_spec t W) as [TV _].
  destruct (match v with DNull => true | _ => false end) eqn:NV.
  { destruct v; try discriminate. cbn in SE. subst x. inversion H; subst; reflexivity. }
  assert (SE' : if is_bit_field t then x = CBits (num_of v mod 2 ^ size t) else exists old, x = CBytes (sbytes t v old) /\ good t (sbytes t v old)).
  { destruct v; try discriminate NV; exact SE. }
  assert (RB : (match type t with
    | STRING | BINARY => exists bs, string_of t v bs /\ T = bytes_tree bs
    | TUPLE | ARRAY => match v with DPtr vm vo => has_tree t vm vo [] T | _ => fresh t T end
    | _ => exists r, reads_back t v r /\ T = TNum r
    end) -> stores t v T).
  { intro R. destruct v; try discriminate NV; exact R. }
  apply RB. clear RB. destruct (is_container_type_info t) eqn:C.
  2: { destruct (stored_reads t v x W FT PG SE) as (r & R1 & R2).
       assert (E : T = TNum r).
       { destruct (is_bit_field t) eqn:B; [subst x; cbn in R1; injection R1 as <-; inversion H; subst; reflexivity|].
         destruct SE' as (old & -> & G). inversion H as [| |? ? C0 G0|? ? ? ? CT0]; subst; [|destruct CT0; congruence].
         cbn [oel] in R1. rewrite (observe_self _ _ _ _ (holds_self _ _ G)) in R1. injection R1 as <-. reflexivity. }
       unfold is_container_type_info in C. destruct (type t); try discriminate C; eauto. }
  rewrite (container_nb t C) in SE'. destruct SE' as (old & -> & G).
  pose proof (good_size _ _ G) as (_ & _ & _ & _ & _ & G6).
  pose proof (zlen_nonneg (str_of v)). pose proof (zlen_nonneg (cut0 (str_of v))).
  unfold is_container_type_info in C. destruct (type t) eqn:T0; try discriminate C.
  - pose proof (tr_string t _ _ (or_introl T0) H) as E. destruct (string_layout t W (or_introl T0)) as (_ & _ & _ & LV & LF & _).
    eexists. split; [|exact E]. unfold string_of. rewrite T0, TV. unfold sbytes in *. rewrite T0 in *. destruct (is_variable_sized_ t).
    + destruct (LV eq_refl) as [-> _]. apply slice_app_tail. apply zlen_enc_vs.
    + destruct (LF eq_refl) as [-> _]. rewrite Z.sub_0_r, slice_all by reflexivity. eexists. split; [reflexivity|]. apply G6. reflexivity.
  - pose proof (tr_string t _ _ (or_intror T0) H) as E. destruct (string_layout t W (or_intror T0)) as (_ & _ & _ & LV & LF & _).
    eexists. split; [|exact E]. unfold string_of. rewrite T0, TV. unfold sbytes in *. rewrite T0 in *. destruct (is_variable_sized_ t).
    + destruct (LV eq_refl) as [-> _]. apply slice_app_tail. apply zlen_enc_vs.
    + destruct (LF eq_refl) as [-> _]. rewrite Z.sub_0_r, slice_all by reflexivity. eexists. split; [reflexivity|]. apply G6. reflexivity.
  - assert (FR : (forall vm vo, v <> DPtr vm vo) -> fresh t T).
    { intro NP. assert (E : sbytes t v old = min_data t) by (unfold sbytes; rewrite T0; destruct v as [| | | | | | | | | |vm vo]; try reflexivity; destruct (NP vm vo); reflexivity). rewrite E in *.
      destruct (tr_fresh t W) as (T' & H' & F); [apply (good_size _ _ G)|]. rewrite (tr_det _ _ _ H _ H'). exact F. }
    destruct v as [| | | | | | | | | |vm vo]; try (apply FR; discriminate). destruct PG as (s & P1 & P2 & P3 & P4 & P5).
    unfold sbytes in *. rewrite T0, P3 in *. apply (holds_tree t _ _ (slice vm vo s)); [|exact H]. constructor; auto; rewrite ?P5; auto.
  - assert (FR : (forall vm vo, v <> DPtr vm vo) -> fresh t T).
    { intro NP. assert (E : sbytes t v old = min_data t) by (unfold sbytes; rewrite T0; destruct v as [| | | | | | | | | |vm vo]; try reflexivity; destruct (NP vm vo); reflexivity). rewrite E in *.
      destruct (tr_fresh t W) as (T' & H' & F); [apply (good_size _ _ G)|]. rewrite (tr_det _ _ _ H _ H'). exact F. }
    destruct v as [| | | | | | | | | |vm vo]; try (apply FR; discriminate). destruct PG as (s & P1 & P2 & P3 & P4 & P5).
    unfold sbytes in *. rewrite T0, P3 in *. apply (holds_tree t _ _ (slice vm vo s)); [|exact H]. constructor; auto; rewrite ?P5; auto.
Qed.

(** ** operations on a path *)
Lemma lset_split {A} (l1 : list A) x l2 y : lset (l1 ++ x :: l2) (length l1) y = l1 ++ y :: l2.
Proof. induction l1 as [|a l1 IH]; [reflexivity|]. cbn. rewrite IH. reflexivity. Qed.
Lemma upd_tree r P pa : forall t e e' T, path_ok pa -> upd_el r P t pa e e' -> goodel t e' -> tr t e T ->
  exists T', tr t e' T' /\ (r = false -> T' = T)
    /\ (r = true -> exists t', get_type_info t pa = Some t' /\ at_path (fun x x' => exists y y', P t' y y' /\ tr t' y x /\ tr t' y' x') pa T T').
Proof.
  induction pa as [|i pa IH]; intros t e e' T PO U G' H.
  - destruct U as [[-> ->]|[-> U]]; [exists T; split; [exact H|]; split; [reflexivity|discriminate]|].
    destruct (tr_exists t e' G') as [T' H']. exists T'. split; [exact H'|]. split; [discriminate|]. intros _. exists t. split; [reflexivity|]. cbn. eauto.
  - destruct U as [[-> ->]|(c & c' & es & x & x' & -> & -> & CT & V & I & En & V' & U)]; [exists T; split; [exact H|]; split; [reflexivity|discriminate]|].
    destruct (tr_node_inv t c es T CT V H) as (l & -> & L & G & K). cbn in G'.
    assert (IL : (Z.to_nat i < length es)%nat) by (apply nth_error_Some; congruence).
    destruct (nth_len es l _ x (eq_sym L) En) as [X Ex]. pose proof (K _ _ _ En Ex) as HX. rewrite Z2Nat.id in HX by exact I.
    assert (En' : nth_error (lset es (Z.to_nat i) x') (Z.to_nat i) = Some x') by (apply lset_same; lia).
    pose proof (goodel_nth t c' _ i x' CT G' V' I En') as Gx'.
    destruct (IH (etype t i) x x' X (Forall_inv_tail PO) U Gx' HX) as (X' & HX' & RF & RT).
    exists (TNode (lset l (Z.to_nat i) X')). split; [|split].
    + apply (tr_node t c' (lset es (Z.to_nat i) x') _ CT G' V'); [rewrite !lset_len; exact L|].
      intros j e T Ej Tj. destruct (Nat.eq_dec (Z.to_nat i) j) as [<-|N].
      * rewrite lset_same in Tj by lia. rewrite En' in Ej. injection Ej as <-. injection Tj as <-. rewrite Z2Nat.id by exact I. exact HX'.
      * rewrite lset_other in Ej by auto. rewrite lset_other in Tj by auto. eapply K; eauto.
    + intro R. rewrite (RF R). rewrite lset_id by exact Ex. reflexivity.
    + intro R. destruct (RT R) as (t' & TI & AP). exists t'. split.
      { rewrite (step_type t c 0 _ es i pa CT V); [exact TI|]. unfold zlen. lia. }
      destruct (nth_error_split l _ Ex) as (l1 & l2 & -> & L1). exists l1, X, X', l2. split; [reflexivity|]. rewrite <- L1, lset_split. split; [reflexivity|]. split; [unfold zlen; lia|exact AP].
Qed.
Lemma at_path_mono (R R' : tree -> tree -> Prop) pa : (forall x x', R x x' -> R' x x') -> forall T T', at_path R pa T T' -> at_path R' pa T T'.
Proof.
  intro M. induction pa as [|i pa IH]; intros T T' H; [apply M; exact H|]. destruct H as (l1 & x & x' & l2 & E1 & E2 & E3 & H). exists l1, x, x', l2. auto.
Qed.

(** ** arrays *)
Lemma map_nth_ins t es l index slots u : length l = length es -> 0 <= index <= zlen es -> 0 <= slots ->
  (forall i e x, nth_error es i = Some e -> nth_error l i = Some x -> tr t e x) -> tr t (zelem t) u ->
  length (ins l index slots u) = length (ins es index slots (zelem t))
  /\ forall i e x, nth_error (ins es index slots (zelem t)) i = Some e -> nth_error (ins l index slots u) i = Some x -> tr t e x.
Proof.
  intros L IN HS K U. assert (LZ : zlen l = zlen es) by (unfold zlen; lia).
  pose proof (zlen_ins es index slots (zelem t) IN HS). pose proof (zlen_ins l index slots u ltac:(lia) HS). split; [unfold zlen in *; lia|].
  intros i e x E X. rewrite <- (Nat2Z.id i) in E, X. rewrite nth_ins in E by lia. rewrite nth_ins in X by lia.
  destruct (Z.of_nat i <? index); [eapply K; eauto|]. destruct (Z.of_nat i <? index + slots); [congruence|]. eapply K; eauto.
Qed.
Lemma map_nth_del t es l index slots : length l = length es -> 0 <= index -> 0 <= slots -> index + slots <= zlen es ->
  (forall i e x, nth_error es i = Some e -> nth_error l i = Some x -> tr t e x) ->
  length (del l index slots) = length (del es index slots)
  /\ forall i e x, nth_error (del es index slots) i = Some e -> nth_error (del l index slots) i = Some x -> tr t e x.
Proof.
  intros L IN HS HN K. assert (LZ : zlen l = zlen es) by (unfold zlen; lia).
  pose proof (zlen_del es index slots IN HS HN). pose proof (zlen_del l index slots IN HS ltac:(lia)). split; [unfold zlen in *; lia|].
  intros i e x E X. rewrite <- (Nat2Z.id i) in E, X. rewrite nth_del in E by lia. rewrite nth_del in X by lia.
  destruct (Z.of_nat i <? index); eapply K; eauto.
Qed.
Lemma vcount_etype t : is_variable_element_count t = true -> type t <> TUPLE /\ forall k, etype t k = containee t.
Proof.
  intro VC. assert (NT : type t <> TUPLE) by (intro T; unfold is_variable_element_count in VC; rewrite T in VC; destruct (is_container_type_info t), (is_variable_sized_type_info t); discriminate).
  split; [exact NT|]. intro k. unfold etype. destruct (type t); congruence || reflexivity.
Qed.
Lemma expanded_tree t y y' x x' index slots : is_variable_element_count t = true -> 0 <= index -> 0 <= slots -> expanded index slots t y y' -> tr t y x -> tr t y' x' ->
  forall u, tr (containee t) (zelem (containee t)) u -> exists l1 l2, x = TNode (l1 ++ l2) /\ zlen l1 = index /\ x' = TNode (l1 ++ repeat u (Z.to_nat slots) ++ l2).
Proof.
  intros VC HI HS (c & c' & es & -> & -> & CT & V & IN & V') H H' u HU. destruct (vcount_etype t VC) as [NT ET].
  destruct (tr_node_inv t c es x CT V H) as (l & -> & L & G & K). destruct (tr_node_inv t c' _ x' CT V' H') as (l' & -> & L' & G' & K').
  assert (LZ : zlen l = zlen es) by (unfold zlen; lia).
  destruct (map_nth_ins (containee t) es l index slots u L ltac:(lia) HS) as [M1 M2]; [intros i e T E X; rewrite <- (ET (Z.of_nat i)); eapply K; eauto|exact HU|].
  exists (firstn (Z.to_nat index) l), (skipn (Z.to_nat index) l). split; [rewrite firstn_skipn; reflexivity|]. split; [unfold zlen in *; rewrite firstn_length; lia|].
  f_equal. change (l' = ins l index slots u). apply list_eq; [lia|]. intros i a b A B.
  destruct (nth_len l' _ i a L' A) as [e E]. specialize (K' i e a E A). rewrite ET in K'. apply (tr_det _ _ _ K'). eapply M2; eauto.
Qed.
Lemma discarded_tree t y y' x x' index slots : is_variable_element_count t = true -> 0 <= index -> 0 <= slots -> discarded index slots t y y' -> tr t y x -> tr t y' x' ->
  exists l1 l l2, x = TNode (l1 ++ l ++ l2) /\ zlen l1 = index /\ zlen l = slots /\ x' = TNode (l1 ++ l2).
Proof.
  intros VC HI HS (c & c' & es & -> & -> & CT & V & IN & V') H H'. destruct (vcount_etype t VC) as [NT ET].
  destruct (tr_node_inv t c es x CT V H) as (l & -> & L & G & K). destruct (tr_node_inv t c' _ x' CT V' H') as (l' & -> & L' & G' & K').
  assert (LZ : zlen l = zlen es) by (unfold zlen; lia).
  destruct (map_nth_del (containee t) es l index slots L ltac:(lia) HS IN) as [M1 M2]; [intros i e T E X; rewrite <- (ET (Z.of_nat i)); eapply K; eauto|].
  exists (firstn (Z.to_nat index) l), (firstn (Z.to_nat slots) (skipn (Z.to_nat index) l)), (skipn (Z.to_nat (index + slots)) l).
  split. { f_equal. replace (Z.to_nat (index + slots)) with (Z.to_nat slots + Z.to_nat index)%nat by lia.
    rewrite <- (firstn_skipn (Z.to_nat index) l) at 1. f_equal. rewrite <- (firstn_skipn (Z.to_nat slots) (skipn (Z.to_nat index) l)) at 1. f_equal.
    clear. revert l. generalize (Z.to_nat slots) as a, (Z.to_nat index) as b. intros a b. revert a. induction b as [|b IH]; intros a l; [rewrite Nat.add_0_r; reflexivity|].
    replace (a + S b)%nat with (S (a + b)) by lia. destruct l as [|z l]; [rewrite !skipn_nil; reflexivity|]. cbn [skipn]. apply IH. }
  split; [unfold zlen in *; rewrite firstn_length; lia|]. split; [unfold zlen in *; rewrite firstn_length, skipn_length; lia|].
  f_equal. change (l' = del l index slots). apply list_eq; [lia|]. intros i a b A B.
  destruct (nth_len l' _ i a L' A) as [e E]. specialize (K' i e a E A). rewrite ET in K'. apply (tr_det _ _ _ K'). eapply M2; eauto.
Qed.

(** ** one operation *)
Lemma done_tree d pa P f inc m o bs r m' T : path_ok pa -> holds d m o bs -> has_tree d m o [] T -> op_done d pa P f inc m o bs r m' ->
  exists T', has_tree d m' o [] T' /\ (r = false -> T' = T)
    /\ (r = true -> exists t, get_type_info d pa = Some t /\ at_path (fun x x' => exists y y', P t y y' /\ tr t y x /\ tr t y' x') pa T T').
Proof.
  intros PO H HT (bs' & H' & _ & _ & _ & _ & U). destruct (tr_exists_good d bs (h_good _ _ _ _ H)) as [T0 R0].
  pose proof (has_tree_det _ _ _ _ _ HT _ (holds_tree _ _ _ _ _ H R0)). subst T0.
  destruct (upd_tree r P pa d _ _ T PO U (h_good _ _ _ _ H') R0) as (T' & R' & F & S0). exists T'. split; [apply (holds_tree _ _ _ _ _ H' R')|]. auto.
Qed.
Lemma refused_tree d op m o T : has_tree d m o [] T -> exists T', has_tree d m o [] T' /\ tree_step d op false T T'.
Proof. intro H. exists T. split; [exact H|reflexivity]. Qed.

Theorem step_tree d op m o T : data_at d m o -> allowed d op m o -> has_tree d m o [] T ->
  exists r m' T', run d op m o = Ok (r, m') /\ data_at d m' o /\ has_tree d m' o [] T' /\ tree_step d op r T T'.
Proof.
  intros D A HT. destruct (data_holds d m o D) as [bs H]. destruct op as [pa v inc|pa index slots inc|pa index slots]; cbn [allowed run] in *.
  - destruct A as (PO & RM & FT & DP). destruct (set_element_ok d pa m o v inc D PO RM FT DP) as (r & m' & E & _ & D' & _). exists r, m'.
    enough (X : exists T', has_tree d m' o [] T' /\ tree_step d (Set_element pa v inc) r T T') by (destruct X as (T' & X1 & X2); exists T'; auto).
    pose proof E as E0. unfold set_element in E. destruct (get_type_info d pa) as [t|] eqn:TI; [|injection E as <- <-; apply refused_tree; exact HT].
    destruct (room_bytes d m o inc bs RM H) as [RI RR].
    assert (PG : points_good t v) by (apply holds_points; intros vm vo EV; apply data_holds; apply (DP t); auto).
    destruct (nested_set pa d m o bs inc v t PO H TI (FT t eq_refl) PG RI RR) as (r1 & m1 & E1 & OD & _).
    change (is_variable_sized_type_info t) with (is_variable_sized_ t) in E. rewrite E1 in E. injection E as -> ->.
    destruct (done_tree _ _ _ _ _ _ _ _ _ _ _ PO H HT OD) as (T' & HT' & F & S0). exists T'. split; [exact HT'|]. unfold tree_step.
    destruct r; cbn [negb]; [|auto]. destruct (S0 eq_refl) as (t' & TI' & AP). assert (t' = t) by congruence. subst t'. exists t. split; [exact TI|].
    destruct (good_size _ _ (h_good _ _ _ _ H)) as (W & _). destruct (type_info_wf pa d t PO W TI) as [Wt _].
    eapply at_path_mono; [|exact AP]. intros x x' (y & y' & ST & _ & Y'). apply (stored_tr t v y'); auto.
  - destruct A as (PO & RM & HI & LIM). destruct (expand_element_ok d pa m o index slots inc D PO RM HI LIM) as (r & m' & E & _ & D' & _ & _ & OK). exists r, m'.
    enough (X : exists T', has_tree d m' o [] T' /\ tree_step d (Expand_element pa index slots inc) r T T') by (destruct X as (T' & X1 & X2); exists T'; auto).
    pose proof E as E0. unfold expand_element, is_expandable in E. destruct (get_type_info d pa) as [t|] eqn:TI; [|injection E as <- <-; apply refused_tree; exact HT].
    destruct (is_variable_element_count t) eqn:VC; [|injection E as <- <-; apply refused_tree; exact HT]. cbn [negb] in E.
    destruct (room_bytes d m o inc bs RM H) as [RI RR].
    destruct (good_size _ _ (h_good _ _ _ _ H)) as (W & _). destruct (vcount_container t VC) as [Ct Vt]. destruct (type_info_wf pa d t PO W TI) as [Wt VU].
    pose proof (limits_bytes d pa m o bs t slots PO H TI VC LIM) as LB.
    destruct (nested_expand pa d m o bs index slots inc t PO H TI VC ltac:(lia) RI LB (RR (VU Vt))) as (r1 & m1 & E1 & OD & _).
    rewrite E1 in E. injection E as -> ->.
    destruct (done_tree _ _ _ _ _ _ _ _ _ _ _ PO H HT OD) as (T' & HT' & F & S0). exists T'. split; [exact HT'|]. unfold tree_step.
    destruct r; cbn [negb]; [|auto]. destruct (S0 eq_refl) as (t' & TI' & AP). assert (t' = t) by congruence. subst t'.
    destruct (vcount_etype t VC) as [NT ET]. destruct (wf_containee t Wt Ct NT) as [Wc _]. destruct (tr_unset (containee t) Wc) as (u & U1 & U2).
    exists (containee t), u. split. { rewrite (cat_type d pa t index TI). cbn [get_type_info].
      unfold containee_type_without_data. rewrite Ct, VC. cbn [negb andb].
      destruct (is_container_cases t Ct) as [T0|[_ [T0|[T0|T0]]]]; [congruence| | |]; rewrite T0; try reflexivity; rewrite (containee_string t Wt) by auto; reflexivity. }
    split; [exact U2|].
    assert (HS : 0 <= slots).
    { destruct (done_element _ _ _ _ _ _ _ _ _ PO H OD) as (t' & y & y' & TI2 & (c & c' & es & -> & -> & CT & V & IN & V') & R & _). assert (t' = t) by congruence. subst t'. destruct (LB t c es R V) as (LS & _). lia. }
    eapply at_path_mono; [|exact AP]. intros x x' (y & y' & EX & Y & Y'). apply (expanded_tree t y y'); auto. lia.
  - destruct A as (PO & HI & HS). destruct (discard_elements_ok d pa m o index slots D PO HI HS) as (r & m' & E & _ & D' & _). exists r, m'.
    enough (X : exists T', has_tree d m' o [] T' /\ tree_step d (Discard_elements pa index slots) r T T') by (destruct X as (T' & X1 & X2); exists T'; auto).
    pose proof E as E0. unfold discard_elements, is_expandable in E. destruct (get_type_info d pa) as [t|] eqn:TI; [|injection E as <- <-; apply refused_tree; exact HT].
    destruct (is_variable_element_count t) eqn:VC; [|injection E as <- <-; apply refused_tree; exact HT]. cbn [negb] in E.
    destruct (nested_discard pa d m o bs index slots t PO H TI VC HI HS) as (r1 & m1 & E1 & OD & _).
    rewrite E1 in E. injection E as -> ->.
    destruct (done_tree _ _ _ _ _ _ _ _ _ _ _ PO H HT OD) as (T' & HT' & F & S0). exists T'. split; [exact HT'|]. unfold tree_step.
    destruct r; cbn [negb]; [|auto]. destruct (S0 eq_refl) as (t' & TI' & AP). assert (t' = t) by congruence. subst t'.
    eapply at_path_mono; [|exact AP]. intros x x' (y & y' & EX & Y & Y'). apply (discarded_tree t y y'); auto; lia.
Qed.

(** ** reading in the tree *)
Lemma tr_look pa : forall t e T, path_ok pa -> tr t e T ->
  match look T pa with
  | None => oel t pa e = Ok None
  | Some x => exists r, oel t pa e = Ok (Some r) /\ ((exists t', get_type_info t pa = Some t' /\ shows t' x r) \/ (x = TNull /\ r = ONull))
  end /\ cel t pa e = Ok (match look T pa with Some (TNode l) => zlen l | _ => 0 end).
Proof.
  induction pa as [|i pa IH]; intros t e T PO H.
  - cbn [look get_type_info]. destruct H as [t|t z|t c C G|t c es l CT G V L K]; cbn [oel cel].
    + split; [|reflexivity]. exists ONull. split; [reflexivity|]. left. exists t. split; reflexivity.
    + split; [|reflexivity]. exists (OBits z). split; [reflexivity|]. left. exists t. split; reflexivity.
    + split; [|apply count_leaf; exact C]. exists (obs_self t c). split; [apply (observe_self _ _ _ _ (holds_self _ _ G))|]. left. exists t. split; reflexivity.
    + split; [|cbn [element_count_of]; rewrite (cv_get_count t c 0 _ es CT V); unfold zlen; congruence].
      exists (obs_self t c). split; [apply (observe_self _ _ _ _ (holds_self _ _ G))|]. left. exists t. split; [reflexivity|].
      pose proof (tr_node t c es l CT G V L K) as HN. pose proof (proj2 CT) as C. unfold shows, obs_self. unfold is_container_type_info in C.
      destruct (type t) eqn:T0; try discriminate C; try (eexists; reflexivity); eexists; split; try reflexivity; apply tr_string; auto; [left|right]; exact T0.
  - pose proof (Forall_inv PO) as I. pose proof (Forall_inv_tail PO) as PO'. cbn beta in I.
    destruct H as [t|t z|t c C G|t c es l CT G V L K]; cbn [oel cel look].
    + split; [|reflexivity]. exists ONull. split; [reflexivity|]. right. auto.
    + split; reflexivity.
    + split; [apply observe_leaf; exact C|apply count_leaf; exact C].
    + destruct (nth_error l (Z.to_nat i)) as [x|] eqn:Ex.
      * destruct (nth_len l es _ x L Ex) as [e En]. pose proof (K _ _ _ En Ex) as HX. rewrite Z2Nat.id in HX by lia.
        pose proof (znth_some _ _ _ En) as IL. rewrite (observe_step t c es i e pa CT G V ltac:(lia) En PO'), (count_step t c es i e pa CT G V ltac:(lia) En PO').
        rewrite (step_type t c 0 _ es i pa CT V) by lia. apply IH; auto.
      * apply nth_error_None in Ex. assert (X : zlen es <= i) by (unfold zlen; lia).
        split; [apply (observe_out t c 0 _ es i pa CT V X)|apply (count_out t c 0 _ es i pa CT V X)].
Qed.
