(** * Pages: overwriting the bytes of one entry where they lie *)
From Coq Require Import ZifyBool ZifyNat ZifyN Zify Permutation.
From Verif Require Import BytesFacts SpecFacts.
From Verif Require Export PageFacts.
Ltac Zify.zify_post_hook ::= Z.div_mod_to_equations.

Section Page.
Variable ps : Z.
Variable d : size_def.
Hypothesis Hps : 128 <= ps <= max_bytes.
Hypothesis Hdef : def_ok d.
Local Notation vs := (value_size ps).
Local Notation raw := (raw ps).
Local Notation srep := (srep ps d).
Local Notation sdata := (sdata ps d).

Lemma sl_rewrite p hb l1 o t l2 b n : srep p hb (l1 ++ Some (o, t) :: l2) -> zlen b = zlen t -> 1 <= n <= zlen t -> tuple_ok d (slice b 0 n) ->
  exists p2, bump (upd p o b) (vs + zlen hb) ps (n - zlen t) = Ok p2 /\ sl_off_space_occupied (upd p o b) ps = Ok (vs + zlen hb)
    /\ srep p2 hb (l1 ++ Some (o, slice b 0 n) :: l2).
Proof.
  intros S Lb Hn Tok. pose proof (srep_bounds Hps S) as (H1 & H2 & H3 & H4 & H5 & H6 & H7 & H8).
  pose proof (s_fit S). pose proof (value_size_range ps). pose proof (zlen_nonneg hb).
  set (es := l1 ++ Some (o, t) :: l2) in *. set (es' := l1 ++ Some (o, slice b 0 n) :: l2).
  pose proof (zlen_nonneg es). pose proof (tombs_range es).
  assert (Hin : In (Some (o, t)) es) by (apply in_or_app; right; left; reflexivity).
  destruct (entry_pos Hps S Hin) as (P1 & P2 & P3 & P4 & P5 & P6).
  pose proof (eofs_le_in ps es o t Hin) as Po.
  pose proof (s_raw S) as R. pose proof (eq_refl : max_bytes = 2147483520).
  assert (Zb : zlen (slice b 0 n) = n) by (apply zlen_slice; lia).
  assert (R1 : raw (upd p o b) hb (zlen es * vs + dsum es) (zlen es) (tombs es) (eofs ps es) (map soff es)).
  { apply (raw_wr_data Hps R); rewrite ?zlen_map; lia. }
  assert (Eds : dsum es = zlen t + dsum (l1 ++ l2)) by (unfold es; apply dsum_mid).
  assert (Eds' : dsum es' = n + dsum (l1 ++ l2)) by (unfold es'; rewrite dsum_mid; cbn [slen]; lia).
  pose proof (dsum_nonneg (l1 ++ l2)).
  destruct (raw_bump_so Hps (n - zlen t) R1) as (p2 & E2 & R2 & D2); [lia|lia|].
  exists p2. split; [exact E2|]. split; [exact (raw_off1 Hps R1)|].
  assert (Zes : zlen es' = zlen es) by (unfold es, es'; rewrite !zlen_app, !zlen_cons; lia).
  assert (Ets : tombs es' = tombs es) by (unfold es, es'; rewrite !tombs_mid; reflexivity).
  assert (Eeo : eofs ps es' = eofs ps es) by (unfold es, es'; rewrite !eofs_mid; reflexivity).
  assert (Ems : map soff es' = map soff es) by (unfold es, es'; rewrite !map_app; reflexivity).
  pose proof (s_pd S) as PD. unfold es in PD. apply pd_mid in PD as [PD1 PD2].
  constructor.
  - rewrite Zes, Ets, Eeo, Ems. eapply (raw_eq R2); try reflexivity. lia.
  - rewrite Zes, Eeo. lia.
  - destruct D2 as [L2 D2]. rewrite zlen_upd in L2, D2 by lia.
    intros o' t' Hin'. unfold es' in Hin'. apply in_mid in Hin' as [Hin'|Hin'].
    + injection Hin' as -> ->. rewrite Zb. split; [|split; [exact Tok|lia]].
      rewrite D2 by lia. transitivity (slice (slice (upd p o b) o (zlen b)) 0 n); [rewrite slice_slice by lia; f_equal; lia|rewrite slice_upd_same' by lia; reflexivity].
    + assert (Hin2 : In (Some (o', t')) es) by (unfold es; apply in_mid; right; exact Hin').
      destruct (s_data S _ _ Hin2) as (Q1 & Q2 & Q3 & Q4). pose proof (eofs_le_in ps es o' t' Hin2).
      split; [|auto]. rewrite D2 by lia. specialize (PD1 _ Hin'). cbn [disj] in PD1. rewrite slice_upd_dis by lia. exact Q1.
  - unfold es'. apply pd_mid. split; [|exact PD2]. intros [[o' t']|] Hin'; [|exact I]. specialize (PD1 _ Hin'). cbn [disj] in PD1 |- *. lia.
Qed.

Lemma fa_rewrite p hb c i t b : sd_variable d = false -> frep ps d p hb c -> 0 <= i < zlen c -> nth (Z.to_nat i) c None = Some t -> zlen b = sd_size d ->
  frep ps d (upd p (ftup ps (zlen hb) (sd_size d) + i * sd_size d) b) hb (replace_at i (Some b) c).
Proof.
  intros Hfix [Hc (B & D & R & [Hl Hn])] Hi Et Lb.
  destruct (f_copy ps d Hps Hdef Hfix _ _ _ _ _ _ R i b ltac:(lia) Lb) as (p' & E & R').
  assert (p' = upd p (ftup ps (zlen hb) (sd_size d) + i * sd_size d) b) as <-.
  { unfold memcopy in E. apply bind_inv in E as (bs & E1 & E2). apply rd_inv in E1 as (_ & _ & _ & ->). rewrite slice_all in E2 by lia.
    unfold wr in E2. destruct (_ && _); [|discriminate]. congruence. }
  assert (Lc : zlen (replace_at i (Some b) c) = zlen c) by (apply zlen_replace_at; lia).
  split; [lia|]. exists B, (fun j => if j =? i then b else D j). split.
  - rewrite Lc. replace (tomb_stones (replace_at i (Some b) c)) with (tomb_stones c); [exact R'|].
    destruct (split_at c i None ltac:(lia)) as (l1 & l2 & E' & Z1 & F1 & F2).
    unfold replace_at. rewrite F1, F2. rewrite E' at 1. rewrite Et. unfold tomb_stones. rewrite !filter_app. reflexivity.
  - split; [reflexivity|]. rewrite Lc. intros j Hj. rewrite nth_replace_at by lia.
    specialize (Hn j Hj). destruct (Z.eqb_spec j i) as [->|N]; [|exact Hn].
    rewrite Et in Hn. destruct (B i); [reflexivity|discriminate].
Qed.
End Page.
