(** * Slotted pages: representation relation and one-step lemmas *)
From Coq Require Import ZifyBool ZifyNat ZifyN Zify Permutation.
From Verif Require Import BytesFacts Spec.
From Verif Require Export PageSpec.
Ltac Zify.zify_post_hook ::= Z.div_mod_to_equations.


(** ** tuples *)

Lemma read_value_at t m o ps v : read_value t 0 ps = Ok v ->
  slice m o (zlen t) = t -> 0 <= o -> o + zlen t <= zlen m -> read_value m o ps = Ok v.
Proof.
  unfold read_value. intros H Hs Ho Hl.
  apply bind_inv in H as (bs & Hr & Hd). inversion Hd; subst v; clear Hd.
  apply rd_inv in Hr as (_ & Hn & Hk & ->).
  rewrite rd_ok by lia. cbn [bind]. do 2 f_equal. transitivity (slice (slice m o (zlen t)) 0 (value_size ps)); [|rewrite Hs; reflexivity].
  rewrite slice_slice by lia. rewrite Z.add_0_r. reflexivity.
Qed.

Lemma tuple_size_at d t m o n : tuple_size d t 0 = Ok n ->
  slice m o (zlen t) = t -> 0 <= o -> o + zlen t <= zlen m -> tuple_size d m o = Ok n.
Proof.
  unfold tuple_size. intros H Hs Ho Hl.
  destruct (negb (sd_variable d)); [exact H|].
  destruct (sd_has_size d).
  - apply bind_inv in H as (v & Hr & Hv). rewrite (read_value_at t m o _ v) by assumption. exact Hv.
  - apply bind_inv in H as (v & Hr & Hv). rewrite (read_value_at t m o _ v) by assumption. exact Hv.
Qed.

Lemma tuple_ok_variable_pos d t : sd_variable d = true -> tuple_ok d t -> 1 <= zlen t.
Proof.
  intros Hv [H _]. unfold tuple_size in H. rewrite Hv in H. cbn [negb] in H.
  assert (exists v, read_value t 0 (sd_max_size d) = Ok v) as [v Hr].
  { destruct (sd_has_size d); apply bind_inv in H as (v & Hr & _); exists v; exact Hr. }
  unfold read_value in Hr. apply bind_inv in Hr as (bs & Hr & _). apply rd_inv in Hr.
  pose proof (value_size_range (sd_max_size d)). lia.
Qed.

(** ** entries *)
Notation sentry := (option (Z * list byte)) (only parsing).
Definition soff (e : sentry) : Z := match e with Some (o, _) => o | None => 0 end.
Definition slen (e : sentry) : Z := match e with Some (_, t) => zlen t | None => 0 end.
Definition content_of (es : list sentry) : content := map (option_map snd) es.

Fixpoint dsum (es : list sentry) : Z :=
  match es with [] => 0 | e :: r => slen e + dsum r end.
Fixpoint tombs (es : list sentry) : Z :=
  match es with [] => 0 | None :: r => 1 + tombs r | Some _ :: r => tombs r end.
Fixpoint eofs (ps : Z) (es : list sentry) : Z :=
  match es with [] => ps | Some (o, _) :: r => Z.min o (eofs ps r) | None :: r => eofs ps r end.

Definition disj (e1 e2 : sentry) : Prop :=
  match e1, e2 with
  | Some (o1, t1), Some (o2, t2) => o1 + zlen t1 <= o2 \/ o2 + zlen t2 <= o1
  | _, _ => True
  end.
Fixpoint pd (es : list sentry) : Prop :=
  match es with [] => True | e :: r => (forall e', In e' r -> disj e e') /\ pd r end.

Lemma disj_sym a b : disj a b -> disj b a.
Proof. destruct a as [[? ?]|], b as [[? ?]|]; cbn; tauto. Qed.

Lemma slen_nonneg e : 0 <= slen e.
Proof. destruct e as [[o t]|]; cbn; [apply zlen_nonneg|lia]. Qed.
Lemma dsum_nonneg es : 0 <= dsum es.
Proof. induction es as [|e r IH]; cbn; [lia|pose proof (slen_nonneg e); lia]. Qed.
Lemma tombs_range es : 0 <= tombs es <= zlen es.
Proof.
  induction es as [|[[o t]|] r IH]; cbn [tombs]; [unfold zlen; cbn; lia| |]; rewrite zlen_cons; lia.
Qed.

Lemma dsum_app a b : dsum (a ++ b) = dsum a + dsum b.
Proof. induction a as [|e a IH]; cbn [app dsum]; lia. Qed.
Lemma tombs_app a b : tombs (a ++ b) = tombs a + tombs b.
Proof. induction a as [|[[o t]|] a IH]; cbn [app tombs eofs]; lia. Qed.

Lemma eofs_le_ps ps es : eofs ps es <= ps.
Proof. induction es as [|[[o t]|] r IH]; cbn [eofs]; lia. Qed.
Lemma eofs_le_in ps es o t : In (Some (o, t)) es -> eofs ps es <= o.
Proof.
  induction es as [|[[o' t']|] r IH]; cbn [eofs In]; [tauto| |].
  - intros [H|H]; [inversion H; lia|apply IH in H; lia].
  - intros [H|H]; [discriminate|apply IH in H; lia].
Qed.
Lemma eofs_lower ps es m : m <= ps -> (forall o t, In (Some (o, t)) es -> m <= o) -> m <= eofs ps es.
Proof.
  intros Hm. induction es as [|[[o' t']|] r IH]; cbn [eofs In]; intro H; [lia| |].
  - specialize (H o' t' (or_introl eq_refl)) as H'. assert (m <= eofs ps r) by (apply IH; eauto). lia.
  - apply IH; eauto.
Qed.
Lemma eofs_witness ps es : eofs ps es = ps \/ exists t, In (Some (eofs ps es, t)) es.
Proof.
  induction es as [|[[o' t']|] r IH]; cbn [eofs In]; [auto| |].
  - destruct (Z.min_spec o' (eofs ps r)) as [[H ->]|[H ->]].
    + right; exists t'; auto.
    + destruct IH as [IH|[t IH]]; [auto|right; exists t; auto].
  - destruct IH as [IH|[t IH]]; [auto|right; exists t; auto].
Qed.
Lemma eofs_unique ps es m : m <= ps -> (forall o t, In (Some (o, t)) es -> m <= o) ->
  (m = ps \/ exists t, In (Some (m, t)) es) -> eofs ps es = m.
Proof.
  intros Hm Hl Hw. pose proof (eofs_lower ps es m Hm Hl) as H1.
  destruct Hw as [->|[t Ht]]; [pose proof (eofs_le_ps ps es); lia|pose proof (eofs_le_in ps es m t Ht); lia].
Qed.
Lemma eofs_perm ps a b : Permutation a b -> eofs ps a = eofs ps b.
Proof.
  intro P. apply eofs_unique.
  - apply eofs_le_ps.
  - intros o t H. apply eofs_le_in with t. apply Permutation_in with a; assumption.
  - destruct (eofs_witness ps b) as [H|[t H]]; [auto|right; exists t].
    apply Permutation_in with b; [apply Permutation_sym|]; assumption.
Qed.
Lemma dsum_perm a b : Permutation a b -> dsum a = dsum b.
Proof. induction 1; cbn [dsum]; lia. Qed.
Lemma tombs_perm a b : Permutation a b -> tombs a = tombs b.
Proof. induction 1; cbn [tombs]; try lia; repeat match goal with |- context [match ?e with _ => _ end] => destruct e end; lia. Qed.
Lemma pd_perm a b : Permutation a b -> pd a -> pd b.
Proof.
  induction 1 as [|x a b P IH|x y a|a b c P1 IH1 P2 IH2]; cbn; auto.
  - intros [H1 H2]; split; [|auto]. intros e He. apply H1. apply Permutation_in with b; [apply Permutation_sym|]; assumption.
  - intros [H1 [H2 H3]]. repeat split; auto.
    intros e [<-|He]; [|auto]. apply disj_sym. apply H1; auto.
Qed.
Lemma pd_app a b : pd (a ++ b) <-> pd a /\ pd b /\ (forall x y, In x a -> In y b -> disj x y).
Proof.
  induction a as [|e a IH]; cbn [app pd].
  - split; [intro H; repeat split; auto; intros ? ? []|tauto].
  - rewrite IH. split.
    + intros [H1 (H2 & H3 & H4)]. repeat split; auto.
      * intros e' He. apply H1. apply in_or_app; auto.
      * intros x y [<-|Hx] Hy; [apply H1; apply in_or_app; auto|auto].
    + intros [[H1 H2] [H3 H4]]. repeat split; auto.
      * intros e' He. apply in_app_or in He as [He|He]; [auto|apply H4; [left; reflexivity|assumption]].
      * intros x y Hx Hy. apply H4; [right|]; assumption.
Qed.

(** pairwise disjoint tuples inside [a, b) have total length at most b - a *)
Lemma dsum_bound_aux n : forall es a b, (length es <= n)%nat -> a <= b -> pd es ->
  (forall o t, In (Some (o, t)) es -> a <= o /\ o + zlen t <= b) -> dsum es <= b - a.
Proof.
  induction n as [|n IH]; intros es a b Hn Hab Hp Hin.
  - destruct es; [cbn; lia|cbn in Hn; lia].
  - destruct es as [|[[o t]|] r]; [cbn; lia| |].
    + cbn [pd] in Hp. destruct Hp as [Hd Hp]. cbn [dsum slen].
      destruct (Hin o t (or_introl eq_refl)) as [Ho1 Ho2].
      pose (before := fun e : sentry => match e with Some (o', t') => o' + zlen t' <=? o | None => true end).
      assert (Hsplit : dsum r = dsum (filter before r) + dsum (filter (fun e => negb (before e)) r)).
      { clear. induction r as [|e r IHr]; cbn; [reflexivity|]. destruct (before e); cbn; lia. }
      rewrite Hsplit.
      assert (Hpf : forall f (l : list sentry), pd l -> pd (filter f l)).
      { clear. intros f l. induction l as [|e l IHl]; cbn; [auto|]. intros [H1 H2].
        destruct (f e); cbn; [split|]; auto. intros e' He. apply H1. apply filter_In in He. tauto. }
      assert (Hlf : forall f (l : list sentry), (length (filter f l) <= length l)%nat).
      { clear. intros f l. induction l as [|e l IHl]; cbn; [lia|]. destruct (f e); cbn; lia. }
      pose proof (zlen_nonneg t) as Ht.
      assert (H1 : dsum (filter before r) <= o - a).
      { apply IH; [pose proof (Hlf before r); cbn in Hn; lia|lia|apply Hpf; assumption|].
        intros o' t' H'. apply filter_In in H' as [H' Hb]. unfold before in Hb.
        destruct (Hin o' t' (or_intror H')). lia. }
      assert (H2 : dsum (filter (fun e => negb (before e)) r) <= b - (o + zlen t)).
      { apply IH; [pose proof (Hlf (fun e => negb (before e)) r); cbn in Hn; lia|lia|apply Hpf; assumption|].
        intros o' t' H'. apply filter_In in H' as [H' Hb]. unfold before in Hb.
        destruct (Hin o' t' (or_intror H')). specialize (Hd _ H'). cbn in Hd. lia. }
      lia.
    + cbn [pd] in Hp. destruct Hp as [_ Hp]. cbn [dsum slen]. rewrite Z.add_0_l.
      apply IH; [cbn in Hn; lia|assumption|assumption|]. intros o t H. apply Hin; right; assumption.
Qed.
Lemma dsum_bound es a b : a <= b -> pd es ->
  (forall o t, In (Some (o, t)) es -> a <= o /\ o + zlen t <= b) -> dsum es <= b - a.
Proof. apply dsum_bound_aux with (n := length es). lia. Qed.

Section Page.
Variable ps : Z.
Variable d : size_def.
Hypothesis Hps : 128 <= ps <= max_bytes.
Notation vs := (value_size ps).
Notation vsn := (Z.to_nat (value_size ps)).

Lemma vs_r : 1 <= vs <= 4. Proof. apply value_size_range. Qed.
Lemma ps_lt : ps <= 256 ^ vs. Proof. apply value_size_enough. unfold max_bytes in Hps; lia. Qed.

Ltac ar := pose proof vs_r; pose proof ps_lt; unfold max_bytes in *; lia.

Lemma zlen_encv v : zlen (enc vsn v) = vs.
Proof. rewrite zlen_enc. pose proof vs_r. lia. Qed.

Lemma rv_ok m o v : 0 <= o -> o + vs <= zlen m -> slice m o vs = enc vsn v -> 0 <= v < ps ->
  read_value m o ps = Ok v.
Proof.
  intros. unfold read_value. pose proof vs_r. rewrite rd_ok by lia. cbn [bind]. rewrite H1.
  rewrite dec_enc_id; [reflexivity|]. pose proof ps_lt. rewrite Z2Nat.id by lia. lia.
Qed.

Lemma wv_ok m o v : 0 <= o -> o + vs <= zlen m -> write_value m o ps v = Ok (upd m o (enc vsn v)).
Proof. intros. unfold write_value. apply wr_ok; rewrite ?zlen_encv; lia. Qed.

(** the bytes at or above [lo] did not change *)
Definition sameD (lo : Z) (p p' : mem) : Prop :=
  zlen p' = zlen p /\
  forall o n, lo <= o -> 0 <= n -> o + n <= zlen p -> slice p' o n = slice p o n.

Lemma sameD_refl lo p : sameD lo p p.
Proof. split; auto. Qed.
Lemma sameD_trans lo a b c : sameD lo a b -> sameD lo b c -> sameD lo a c.
Proof. intros [H1 H2] [H3 H4]. split; [lia|]. intros. rewrite H4 by lia. apply H2; lia. Qed.
Lemma sameD_mono lo lo' a b : lo <= lo' -> sameD lo a b -> sameD lo' a b.
Proof. intros H [H1 H2]. split; [lia|]. intros. apply H2; lia. Qed.
Lemma sameD_upd lo p o bs : 0 <= o -> o + zlen bs <= zlen p -> o + zlen bs <= lo -> sameD lo p (upd p o bs).
Proof.
  intros. pose proof (zlen_nonneg bs). split; [apply zlen_upd; lia|]. intros. apply slice_upd_dis; lia.
Qed.

(** raw metadata of a slotted page: header bytes, the four counters and the
    array of slot values *)
Record raw (p : mem) (hb : list byte) (so tc ts eo : Z) (sls : list Z) : Prop := {
  r_len : zlen p = ps;
  r_bound : 5 * vs + zlen hb + zlen sls * vs <= ps;
  r_hsize : slice p 0 vs = enc vsn (zlen hb);
  r_hdr : slice p vs (zlen hb) = hb;
  r_so : slice p (vs + zlen hb) vs = enc vsn so;
  r_tc : slice p (2 * vs + zlen hb) vs = enc vsn tc;
  r_ts : slice p (3 * vs + zlen hb) vs = enc vsn ts;
  r_eo : slice p (4 * vs + zlen hb) vs = enc vsn eo;
  r_sl : forall i, 0 <= i < zlen sls ->
           slice p (5 * vs + zlen hb + i * vs) vs = enc vsn (nth (Z.to_nat i) sls 0)
}.

(** everything except the tuple data region *)
Section Raw.
Variables (p : mem) (hb : list byte) (so tc ts eo : Z) (sls : list Z).
Hypothesis R : raw p hb so tc ts eo sls.

Local Ltac rr := pose proof (r_len _ _ _ _ _ _ _ R); pose proof (r_bound _ _ _ _ _ _ _ R);
  pose proof (zlen_nonneg hb); pose proof (zlen_nonneg sls); pose proof vs_r; pose proof ps_lt; unfold max_bytes in *.

Lemma sls_vs_nonneg : 0 <= zlen sls * vs.
Proof. pose proof (zlen_nonneg sls). pose proof vs_r. nia. Qed.

Lemma raw_header_size : get_page_header_size p ps = Ok (zlen hb).
Proof. rr. pose proof sls_vs_nonneg. unfold get_page_header_size. apply rv_ok; try lia. apply R. Qed.
Lemma raw_off1 : sl_off_space_occupied p ps = Ok (vs + zlen hb).
Proof. rr. pose proof sls_vs_nonneg. unfold sl_off_space_occupied, offset_end_of_header. rewrite raw_header_size. cbn [bind]. rewrite u32_id by lia. reflexivity. Qed.
Lemma raw_off2 : sl_off_tuple_count p ps = Ok (2 * vs + zlen hb).
Proof. rr. pose proof sls_vs_nonneg. unfold sl_off_tuple_count. rewrite raw_off1. cbn [bind]. rewrite u32_id by lia. f_equal; lia. Qed.
Lemma raw_off3 : sl_off_tomb_stone_count p ps = Ok (3 * vs + zlen hb).
Proof. rr. pose proof sls_vs_nonneg. unfold sl_off_tomb_stone_count. rewrite raw_off2. cbn [bind]. rewrite u32_id by lia. f_equal; lia. Qed.
Lemma raw_off4 : sl_off_end_of_free_space_offset p ps = Ok (4 * vs + zlen hb).
Proof. rr. pose proof sls_vs_nonneg. unfold sl_off_end_of_free_space_offset. rewrite raw_off3. cbn [bind]. rewrite u32_id by lia. f_equal; lia. Qed.
Lemma raw_off5 : sl_off_tuple_offsets p ps = Ok (5 * vs + zlen hb).
Proof. rr. pose proof sls_vs_nonneg. unfold sl_off_tuple_offsets. rewrite raw_off4. cbn [bind]. rewrite u32_id by lia. f_equal; lia. Qed.
Lemma raw_slot i : 0 <= i -> 5 * vs + zlen hb + i * vs <= ps ->
  sl_off_ith_slot p ps i = Ok (5 * vs + zlen hb + i * vs).
Proof. intros Hi Hb. rr. unfold sl_off_ith_slot. rewrite raw_off5. cbn [bind]. assert (0 <= i * vs) by nia. rewrite u32_id by lia. reflexivity. Qed.

Lemma raw_read_so : 0 <= so < ps -> read_value p (vs + zlen hb) ps = Ok so.
Proof. intro. rr. pose proof sls_vs_nonneg. apply rv_ok; try lia. apply R. Qed.
Lemma raw_read_tc : 0 <= tc < ps -> read_value p (2 * vs + zlen hb) ps = Ok tc.
Proof. intro. rr. pose proof sls_vs_nonneg. apply rv_ok; try lia. apply R. Qed.
Lemma raw_read_ts : 0 <= ts < ps -> read_value p (3 * vs + zlen hb) ps = Ok ts.
Proof. intro. rr. pose proof sls_vs_nonneg. apply rv_ok; try lia. apply R. Qed.
Lemma slot_bound i : 0 <= i < zlen sls -> i * vs + vs <= zlen sls * vs /\ 0 <= i * vs.
Proof. pose proof vs_r. nia. Qed.
Lemma raw_read_slot i : 0 <= i < zlen sls -> 0 <= nth (Z.to_nat i) sls 0 < ps ->
  read_value p (5 * vs + zlen hb + i * vs) ps = Ok (nth (Z.to_nat i) sls 0).
Proof. intros. rr. pose proof (slot_bound i ltac:(lia)). apply rv_ok; try lia. apply R; lia. Qed.

Lemma raw_tuple_count : 0 <= tc < ps -> sl_tuple_count p ps = Ok tc.
Proof. intro. unfold sl_tuple_count. rewrite raw_off2. cbn [bind]. apply raw_read_tc; assumption. Qed.
Lemma raw_tomb_stone_count : 0 <= ts < ps -> sl_tomb_stone_count p ps = Ok ts.
Proof. intro. unfold sl_tomb_stone_count. rewrite raw_off3. cbn [bind]. apply raw_read_ts; assumption. Qed.
Lemma raw_eofs : 0 < eo <= ps -> sl_end_of_free_space p ps = Ok eo.
Proof.
  intro H. rr. pose proof sls_vs_nonneg. unfold sl_end_of_free_space. rewrite raw_off4. cbn [bind].
  unfold read_value. rewrite rd_ok by lia. cbn [bind]. rewrite (r_eo _ _ _ _ _ _ _ R).
  rewrite dec_enc. rewrite Z2Nat.id by lia.
  destruct (Z.eq_dec eo (256 ^ vs)) as [E|E].
  - rewrite E, Z.mod_same by lia. cbn. f_equal; lia.
  - rewrite Z.mod_small by lia. destruct (Z.eqb_spec eo 0); [lia|reflexivity].
Qed.
Lemma raw_ith_tuple i : 0 <= i < zlen sls -> 0 <= nth (Z.to_nat i) sls 0 < ps ->
  sl_ith_tuple p ps i = Ok (nth (Z.to_nat i) sls 0).
Proof.
  intros. rr. pose proof (slot_bound i ltac:(lia)). unfold sl_ith_tuple. rewrite raw_slot by lia. cbn [bind].
  apply raw_read_slot; assumption.
Qed.
Lemma raw_start : 0 <= tc < ps -> 5 * vs + zlen hb + tc * vs <= ps ->
  sl_start_of_free_space p ps = Ok (5 * vs + zlen hb + tc * vs).
Proof. intros. unfold sl_start_of_free_space. rewrite raw_tuple_count by assumption. cbn [bind]. apply raw_slot; lia. Qed.
Lemma raw_free : 0 <= tc < ps -> 0 < eo <= ps -> 5 * vs + zlen hb + tc * vs <= eo ->
  sl_free_space p ps = Ok (eo - (5 * vs + zlen hb + tc * vs)).
Proof.
  intros. rr. assert (0 <= tc * vs) by nia. unfold sl_free_space. rewrite raw_eofs by assumption. cbn [bind].
  rewrite raw_start by lia. cbn [bind]. rewrite u32_id by lia. reflexivity.
Qed.

(** a store into the metadata *)
Lemma raw_wr_so v : exists p', write_value p (vs + zlen hb) ps v = Ok p' /\
  raw p' hb v tc ts eo sls /\ sameD (5 * vs + zlen hb) p p'.
Proof.
  rr. pose proof sls_vs_nonneg. eexists. split; [apply wv_ok; lia|]. split; [|apply sameD_upd; rewrite ?zlen_encv; lia].
  constructor; rewrite ?zlen_upd; rewrite ?zlen_encv; try lia.
  all: try (rewrite slice_upd_dis by (rewrite ?zlen_encv; lia); apply R).
  - apply slice_upd_same'; rewrite ?zlen_encv; lia.
  - intros i Hi. pose proof (slot_bound i Hi). rewrite slice_upd_dis by (rewrite ?zlen_encv; lia). apply R; lia.
Qed.
Lemma raw_wr_tc v : exists p', write_value p (2 * vs + zlen hb) ps v = Ok p' /\
  raw p' hb so v ts eo sls /\ sameD (5 * vs + zlen hb) p p'.
Proof.
  rr. pose proof sls_vs_nonneg. eexists. split; [apply wv_ok; lia|]. split; [|apply sameD_upd; rewrite ?zlen_encv; lia].
  constructor; rewrite ?zlen_upd; rewrite ?zlen_encv; try lia.
  all: try (rewrite slice_upd_dis by (rewrite ?zlen_encv; lia); apply R).
  - apply slice_upd_same'; rewrite ?zlen_encv; lia.
  - intros i Hi. pose proof (slot_bound i Hi). rewrite slice_upd_dis by (rewrite ?zlen_encv; lia). apply R; lia.
Qed.
Lemma raw_wr_ts v : exists p', write_value p (3 * vs + zlen hb) ps v = Ok p' /\
  raw p' hb so tc v eo sls /\ sameD (5 * vs + zlen hb) p p'.
Proof.
  rr. pose proof sls_vs_nonneg. eexists. split; [apply wv_ok; lia|]. split; [|apply sameD_upd; rewrite ?zlen_encv; lia].
  constructor; rewrite ?zlen_upd; rewrite ?zlen_encv; try lia.
  all: try (rewrite slice_upd_dis by (rewrite ?zlen_encv; lia); apply R).
  - apply slice_upd_same'; rewrite ?zlen_encv; lia.
  - intros i Hi. pose proof (slot_bound i Hi). rewrite slice_upd_dis by (rewrite ?zlen_encv; lia). apply R; lia.
Qed.
Lemma raw_wr_eo v : exists p', write_value p (4 * vs + zlen hb) ps v = Ok p' /\
  raw p' hb so tc ts v sls /\ sameD (5 * vs + zlen hb) p p'.
Proof.
  rr. pose proof sls_vs_nonneg. eexists. split; [apply wv_ok; lia|]. split; [|apply sameD_upd; rewrite ?zlen_encv; lia].
  constructor; rewrite ?zlen_upd; rewrite ?zlen_encv; try lia.
  all: try (rewrite slice_upd_dis by (rewrite ?zlen_encv; lia); apply R).
  - apply slice_upd_same'; rewrite ?zlen_encv; lia.
  - intros i Hi. pose proof (slot_bound i Hi). rewrite slice_upd_dis by (rewrite ?zlen_encv; lia). apply R; lia.
Qed.

Lemma raw_wr_slot i v : 0 <= i < zlen sls ->
  exists p', write_value p (5 * vs + zlen hb + i * vs) ps v = Ok p' /\
  raw p' hb so tc ts eo (upd sls i [v]) /\ sameD (5 * vs + zlen hb + zlen sls * vs) p p'.
Proof.
  intro Hi. rr. pose proof (slot_bound i Hi). eexists. split; [apply wv_ok; lia|].
  split; [|apply sameD_upd; rewrite ?zlen_encv; lia].
  assert (Hl : zlen (upd sls i [v]) = zlen sls) by (apply zlen_upd; rewrite ?zlen_cons, ?zlen_nil; lia).
  constructor; rewrite ?Hl; rewrite ?zlen_upd; rewrite ?zlen_encv; try lia.
  all: try (rewrite slice_upd_dis by (rewrite ?zlen_encv; lia); apply R).
  intros j Hj. pose proof (slot_bound j Hj).
  rewrite nth_upd by (rewrite ?zlen_cons, ?zlen_nil; lia). rewrite zlen_cons, zlen_nil.
  destruct (Z.eq_dec j i) as [->|Hne].
  - rewrite slice_upd_same' by (rewrite ?zlen_encv; lia).
    destruct (Z.leb_spec i i); [|lia]. destruct (Z.ltb_spec i (i + (1 + 0))); [|lia]. cbn [andb].
    rewrite Z.sub_diag. reflexivity.
  - assert (j < i \/ i < j) as [Hlt|Hlt] by lia.
    + assert (j * vs + vs <= i * vs) by nia.
      rewrite slice_upd_dis by (rewrite ?zlen_encv; lia).
      destruct (Z.leb_spec i j); [lia|]. cbn [andb]. apply R; lia.
    + assert (i * vs + vs <= j * vs) by nia.
      rewrite slice_upd_dis by (rewrite ?zlen_encv; lia).
      destruct (Z.ltb_spec j (i + (1 + 0))); [lia|]. rewrite andb_false_r. apply R; lia.
Qed.

(** the bytes behind the last slot can be seen as one more (arbitrary) slot *)
Lemma raw_extend : 5 * vs + zlen hb + (zlen sls + 1) * vs <= ps ->
  exists x, raw p hb so tc ts eo (sls ++ [x]).
Proof.
  intro Hb. rr. pose proof sls_vs_nonneg.
  exists (dec (slice p (5 * vs + zlen hb + zlen sls * vs) vs)).
  constructor; try apply R.
  - rewrite zlen_app, zlen_cons, zlen_nil. lia.
  - intros i Hi. rewrite zlen_snoc in Hi.
    destruct (Z.eq_dec i (zlen sls)) as [->|Hne].
    + rewrite app_nth2 by (unfold zlen; lia).
      replace (Z.to_nat (zlen sls) - length sls)%nat with 0%nat by (unfold zlen; lia). cbn [nth].
      set (l := slice p _ vs). assert (E : length l = vsn).
      { assert (zlen l = vs) by (apply zlen_slice; lia). unfold zlen in *; lia. }
      rewrite <- E. symmetry. apply enc_dec.
    + rewrite app_nth1 by (unfold zlen in *; lia). apply R. lia.
Qed.

(** forgetting trailing slots *)
Lemma raw_shrink sls' x : sls = sls' ++ x -> raw p hb so tc ts eo sls'.
Proof.
  intro E. rr. pose proof (zlen_nonneg x).
  assert (El : zlen sls = zlen sls' + zlen x) by (rewrite E; apply zlen_app).
  constructor; try apply R.
  - assert (zlen sls' * vs <= zlen sls * vs) by (apply Z.mul_le_mono_nonneg_r; lia). lia.
  - intros i Hi. rewrite (r_sl _ _ _ _ _ _ _ R) by lia. rewrite E. rewrite app_nth1 by (unfold zlen in *; lia). reflexivity.
Qed.

(** a store behind the slot array leaves the metadata alone *)
Lemma raw_wr_data o bs : 5 * vs + zlen hb + zlen sls * vs <= o -> o + zlen bs <= ps ->
  raw (upd p o bs) hb so tc ts eo sls.
Proof.
  intros. rr. pose proof sls_vs_nonneg. pose proof (zlen_nonneg bs).
  constructor; rewrite ?zlen_upd; try lia.
  all: try (rewrite slice_upd_dis by lia; apply R).
  intros i Hi. pose proof (slot_bound i Hi). rewrite slice_upd_dis by lia. apply R; lia.
Qed.

End Raw.

(** ** tuple data *)
Definition sdata (p : mem) (es : list sentry) : Prop :=
  forall o t, In (Some (o, t)) es -> slice p o (zlen t) = t /\ tuple_ok d t /\ 1 <= zlen t /\ o + zlen t <= ps.

(** the representation relation *)
Record srep (p : mem) (hb : list byte) (es : list sentry) : Prop := {
  s_raw : raw p hb (zlen es * vs + dsum es) (zlen es) (tombs es) (eofs ps es) (map soff es);
  s_fit : 5 * vs + zlen hb + zlen es * vs <= eofs ps es;
  s_data : sdata p es;
  s_pd : pd es
}.

Lemma srep_bounds p hb es : srep p hb es ->
  zlen p = ps /\ 0 <= zlen es * vs /\ 0 <= dsum es /\ 5 * vs + zlen hb + zlen es * vs + dsum es <= ps /\
  zlen es <= zlen es * vs /\ eofs ps es <= ps /\ 0 < eofs ps es /\ dsum es <= ps - eofs ps es.
Proof.
  intro S. pose proof vs_r. pose proof (zlen_nonneg hb). pose proof (zlen_nonneg es).
  pose proof (s_fit _ _ _ S). pose proof (eofs_le_ps ps es). pose proof (dsum_nonneg es).
  assert (dsum es <= ps - eofs ps es).
  { apply dsum_bound; [lia|apply S|]. intros o t Hin. split; [eapply eofs_le_in; eassumption|].
    apply (s_data _ _ _ S) in Hin. tauto. }
  pose proof (r_len _ _ _ _ _ _ _ (s_raw _ _ _ S)).
  assert (0 <= zlen es * vs) by nia. assert (zlen es <= zlen es * vs) by nia. lia.
Qed.

Lemma sdata_same lo p p' es : sameD lo p p' -> zlen p = ps ->
  (forall o t, In (Some (o, t)) es -> lo <= o) -> sdata p es -> sdata p' es.
Proof.
  intros [Hl Hs] Hz Hlo Hd o t Hin. destruct (Hd o t Hin) as (H1 & H2 & H3 & H4). split; [|auto].
  rewrite Hs; [assumption|eauto|apply zlen_nonneg|lia].
Qed.

Lemma sdata_incl p es es' : (forall e, In e es' -> In e es) -> sdata p es -> sdata p es'.
Proof. intros Hi Hd o t Hin. apply Hd, Hi, Hin. Qed.

Lemma entry_pos p hb es o t : srep p hb es -> In (Some (o, t)) es ->
  5 * vs + zlen hb + zlen es * vs <= o /\ o + zlen t <= ps /\ 0 < o < ps /\ slice p o (zlen t) = t /\ tuple_ok d t /\ 1 <= zlen t.
Proof.
  intros S Hin. pose proof (srep_bounds _ _ _ S) as B. pose proof (s_fit _ _ _ S).
  destruct (s_data _ _ _ S o t Hin) as (H1 & H2 & H3 & H4). pose proof (eofs_le_in ps es o t Hin).
  pose proof vs_r. pose proof (zlen_nonneg hb). repeat (split; [first [assumption|lia]|]); assumption.
Qed.

Lemma nth_soff es i : nth i (map soff es) 0 = soff (nth i es None).
Proof. change 0 with (soff None) at 1. apply map_nth. Qed.

Lemma nth_in_or_None (es : list sentry) i : In (nth i es None) es \/ nth i es None = None.
Proof. destruct (nth_in_or_default i es None); auto. Qed.

Lemma soff_range p hb es i : srep p hb es -> 0 <= soff (nth i es None) < ps.
Proof.
  intro S. destruct (nth i es None) as [[o t]|] eqn:E; cbn [soff]; [|lia].
  destruct (nth_in_or_None es i) as [H|H]; [|congruence]. rewrite E in H.
  apply (entry_pos _ _ _ _ _ S) in H. lia.
Qed.

(** queries *)
Section Queries.
Variables (p : mem) (hb : list byte) (es : list sentry).
Hypothesis S : srep p hb es.
Local Ltac sb := pose proof (srep_bounds _ _ _ S) as (? & ? & ? & ? & ? & ? & ? & ?);
  pose proof (s_fit _ _ _ S); pose proof vs_r; pose proof (zlen_nonneg hb); pose proof (zlen_nonneg es); pose proof (tombs_range es);
  pose proof (eq_refl : max_bytes = 2147483520).

Lemma s_header_size : get_page_header_size p ps = Ok (zlen hb).
Proof. exact (raw_header_size _ _ _ _ _ _ _ (s_raw _ _ _ S)). Qed.
Lemma s_tuple_count : sl_tuple_count p ps = Ok (zlen es).
Proof. sb. apply (raw_tuple_count _ _ _ _ _ _ _ (s_raw _ _ _ S)). lia. Qed.
Lemma s_tomb_stone_count : sl_tomb_stone_count p ps = Ok (tombs es).
Proof. sb. apply (raw_tomb_stone_count _ _ _ _ _ _ _ (s_raw _ _ _ S)). lia. Qed.
Lemma s_eofs : sl_end_of_free_space p ps = Ok (eofs ps es).
Proof. sb. apply (raw_eofs _ _ _ _ _ _ _ (s_raw _ _ _ S)). lia. Qed.
Lemma s_start : sl_start_of_free_space p ps = Ok (5 * vs + zlen hb + zlen es * vs).
Proof. sb. apply (raw_start _ _ _ _ _ _ _ (s_raw _ _ _ S)); lia. Qed.
Definition sfree : Z := eofs ps es - (5 * vs + zlen hb + zlen es * vs).
Lemma s_free : sl_free_space p ps = Ok sfree.
Proof. sb. apply (raw_free _ _ _ _ _ _ _ (s_raw _ _ _ S)); lia. Qed.
Lemma s_ith i : 0 <= i < zlen es -> sl_ith_tuple p ps i = Ok (soff (nth (Z.to_nat i) es None)).
Proof.
  intro Hi. rewrite <- nth_soff. apply (raw_ith_tuple _ _ _ _ _ _ _ (s_raw _ _ _ S)); [rewrite zlen_map; lia|].
  rewrite nth_soff. eapply soff_range; eassumption.
Qed.
Lemma s_soff_zero i : 0 <= i < zlen es -> (soff (nth (Z.to_nat i) es None) =? 0) = is_tomb_stone (option_map snd (nth (Z.to_nat i) es None)).
Proof.
  intro Hi. destruct (nth (Z.to_nat i) es None) as [[o t]|] eqn:E; [|reflexivity]. cbn.
  destruct (nth_in_or_None es (Z.to_nat i)) as [H|H]; [|congruence]. rewrite E in H.
  apply (entry_pos _ _ _ _ _ S) in H. lia.
Qed.
Lemma s_exists i : 0 <= i -> sl_exists p ps i =
  Ok (if i <? zlen es then negb (is_tomb_stone (option_map snd (nth (Z.to_nat i) es None))) else false).
Proof.
  intro Hi. unfold sl_exists. rewrite s_tuple_count. cbn [bind].
  destruct (Z.leb_spec (zlen es) i); destruct (Z.ltb_spec i (zlen es)); try lia; [reflexivity|].
  rewrite s_ith by lia. cbn [bind]. rewrite s_soff_zero by lia. reflexivity.
Qed.
Lemma s_get_nth i : 0 <= i -> sl_get_nth p ps i =
  Ok (if i <? zlen es then option_map fst (nth (Z.to_nat i) es None) else None).
Proof.
  intro Hi. unfold sl_get_nth. rewrite s_tuple_count. cbn [bind].
  destruct (Z.leb_spec (zlen es) i); destruct (Z.ltb_spec i (zlen es)); try lia; [reflexivity|].
  rewrite s_ith by lia. cbn [bind]. rewrite s_soff_zero by lia.
  destruct (nth (Z.to_nat i) es None) as [[o t]|]; reflexivity.
Qed.
Lemma s_tuple_size o t : In (Some (o, t)) es -> tuple_size d p o = Ok (zlen t).
Proof.
  intro Hin. sb. destruct (entry_pos _ _ _ _ _ S Hin) as (? & ? & ? & ? & [Hok _] & ?).
  apply tuple_size_at with t; try assumption; lia.
Qed.
Lemma s_space_all : sl_space_occupied_all p ps = Ok (zlen es * vs + dsum es).
Proof.
  sb. unfold sl_space_occupied_all. rewrite (raw_off1 _ _ _ _ _ _ _ (s_raw _ _ _ S)). cbn [bind].
  apply (raw_read_so _ _ _ _ _ _ _ (s_raw _ _ _ S)). lia.
Qed.
Lemma s_space_allotted : sl_space_allotted p ps = Ok (ps - (5 * vs + zlen hb)).
Proof.
  sb. unfold sl_space_allotted. rewrite (raw_off5 _ _ _ _ _ _ _ (s_raw _ _ _ S)). cbn [bind].
  rewrite u32_id by lia. reflexivity.
Qed.
End Queries.
End Page.

(** convenient implicit arguments for the proofs to come *)
Arguments raw_header_size {ps} Hps {p hb so tc ts eo sls} R.
Arguments raw_off1 {ps} Hps {p hb so tc ts eo sls} R.
Arguments raw_off2 {ps} Hps {p hb so tc ts eo sls} R.
Arguments raw_off3 {ps} Hps {p hb so tc ts eo sls} R.
Arguments raw_off4 {ps} Hps {p hb so tc ts eo sls} R.
Arguments raw_off5 {ps} Hps {p hb so tc ts eo sls} R.
Arguments raw_slot {ps} Hps {p hb so tc ts eo sls} R.
Arguments raw_read_so {ps} Hps {p hb so tc ts eo sls} R.
Arguments raw_read_tc {ps} Hps {p hb so tc ts eo sls} R.
Arguments raw_read_ts {ps} Hps {p hb so tc ts eo sls} R.
Arguments raw_read_slot {ps} Hps {p hb so tc ts eo sls} R.
Arguments raw_tuple_count {ps} Hps {p hb so tc ts eo sls} R.
Arguments raw_tomb_stone_count {ps} Hps {p hb so tc ts eo sls} R.
Arguments raw_eofs {ps} Hps {p hb so tc ts eo sls} R.
Arguments raw_ith_tuple {ps} Hps {p hb so tc ts eo sls} R.
Arguments raw_start {ps} Hps {p hb so tc ts eo sls} R.
Arguments raw_free {ps} Hps {p hb so tc ts eo sls} R.
Arguments raw_wr_so {ps} Hps {p hb so tc ts eo sls} R.
Arguments raw_wr_tc {ps} Hps {p hb so tc ts eo sls} R.
Arguments raw_wr_ts {ps} Hps {p hb so tc ts eo sls} R.
Arguments raw_wr_eo {ps} Hps {p hb so tc ts eo sls} R.
Arguments raw_wr_slot {ps} Hps {p hb so tc ts eo sls} R.
Arguments raw_extend {ps} Hps {p hb so tc ts eo sls} R.
Arguments raw_shrink {ps} Hps {p hb so tc ts eo sls} R.
Arguments raw_wr_data {ps} Hps {p hb so tc ts eo sls} R.
Arguments s_header_size {ps d} Hps {p hb es} S.
Arguments s_tuple_count {ps d} Hps {p hb es} S.
Arguments s_tomb_stone_count {ps d} Hps {p hb es} S.
Arguments s_eofs {ps d} Hps {p hb es} S.
Arguments s_start {ps d} Hps {p hb es} S.
Arguments s_free {ps d} Hps {p hb es} S.
Arguments s_ith {ps d} Hps {p hb es} S.
Arguments s_soff_zero {ps d} Hps {p hb es} S.
Arguments s_exists {ps d} Hps {p hb es} S.
Arguments s_get_nth {ps d} Hps {p hb es} S.
Arguments s_tuple_size {ps d} Hps {p hb es} S.
Arguments s_space_all {ps d} Hps {p hb es} S.
Arguments s_space_allotted {ps d} Hps {p hb es} S.
Arguments s_raw {ps d p hb es} _.
Arguments s_fit {ps d p hb es} _.
Arguments s_data {ps d p hb es} _.
Arguments s_pd {ps d p hb es} _.
Arguments r_len {ps p hb so tc ts eo sls} _.
Arguments r_bound {ps p hb so tc ts eo sls} _.
Arguments r_sl {ps p hb so tc ts eo sls} _.
Arguments r_hsize {ps p hb so tc ts eo sls} _.
Arguments r_hdr {ps p hb so tc ts eo sls} _.
Arguments srep_bounds {ps d} Hps {p hb es} _.
Arguments entry_pos {ps d} Hps {p hb es o t} _ _.
