(** * Reachable pages, and the arithmetic of page capacities *)
From Coq Require Import ZifyBool ZifyNat ZifyN Zify Permutation Sorted.
From Verif Require Import BytesFacts SpecFacts.
From Verif Require Export PageFacts.
From Verif Require PageElementFacts.
Ltac Zify.zify_post_hook ::= Z.div_mod_to_equations.

Section Page.
Variable ps : Z.
Variable d : size_def.
Hypothesis Hps : 128 <= ps <= max_bytes.
Hypothesis Hdef : def_ok d.
Local Notation vs := (value_size ps).
Local Notation s := (sd_size d).
Local Notation view := (view ps d).
Local Notation allot := (allot ps d).
Local Notation room := (room ps d).

Lemma step_ok p hb c f op : view p hb c f -> op_ok (zlen hb) d op ->
  exists r p' hb' c' f', run_op ps d op p = Ok (r, p') /\ view p' hb' c' f' /\ effect op c r c' /\
    zlen hb' = zlen hb /\ (writes_header op = false -> hb' = hb) /\
    (can_fail op = true -> fst r = 0 -> p' = p).
Proof.
  intros V Ho. destruct op as [x|i x|i x|i| | |i j|srt ok| |at_ bs]; cbn [op_ok] in Ho; cbn [run_op writes_header can_fail].
  - destruct (v_append ps d Hps Hdef _ _ _ _ _ V Ho) as (p' & E & _ & R). unfold answer_of. rewrite E. cbn [bind].
    destruct (room (zlen hb) c f x); cbn [b2n] in *.
    + do 5 eexists. split; [reflexivity|]. split; [exact R|]. split; [left; auto|]. repeat split. discriminate.
    + subst p'. do 5 eexists. split; [reflexivity|]. split; [exact V|]. split; [right; auto|]. repeat split.
  - destruct Ho as [Hi Hx].
    destruct (v_insert ps d Hps Hdef _ _ _ _ _ _ V Hx Hi) as (p' & E & _ & R). unfold answer_of. rewrite E. cbn [bind].
    destruct (Z.leb_spec i (zlen c)); cbn [andb] in *; [destruct (room (zlen hb) c f x)|]; cbn [b2n] in *.
    + do 5 eexists. split; [reflexivity|]. split; [exact R|]. split; [left; auto|]. repeat split. discriminate.
    + subst p'. do 5 eexists. split; [reflexivity|]. split; [exact V|]. split; [right; auto|]. repeat split.
    + subst p'. do 5 eexists. split; [reflexivity|]. split; [exact V|]. split; [right; auto|]. repeat split.
  - destruct Ho as [Hi Hx].
    destruct (v_update ps d Hps Hdef _ _ _ _ _ _ V Hx Hi) as (b & p' & E & _ & B1 & B2 & _ & _ & _ & R). unfold answer_of. rewrite E. cbn [bind].
    destruct b; cbn [b2n] in *.
    + destruct R as [f' R]. do 5 eexists. split; [reflexivity|]. split; [exact R|]. split; [left; auto|]. repeat split. discriminate.
    + subst p'. do 5 eexists. split; [reflexivity|]. split; [exact V|]. split; [right|repeat split].
      split; [reflexivity|]. split; [|reflexivity]. intros Hlt ->. specialize (B2 Hlt (or_introl eq_refl)). discriminate.
  - destruct (v_discard ps d Hps Hdef _ _ _ _ _ V Ho) as (p' & E & R). unfold answer_of. rewrite E. cbn [bind].
    destruct (i <? zlen c) eqn:Ei; cbn [b2n] in *.
    + destruct R as [f' R]. do 5 eexists. split; [reflexivity|]. split; [exact R|]. split; [cbn [effect]; rewrite Ei; auto|]. repeat split. discriminate.
    + subst p'. do 5 eexists. split; [reflexivity|]. split; [exact V|]. split; [cbn [effect]; rewrite Ei; auto|]. repeat split.
  - destruct (v_discard_all ps d Hps Hdef _ _ _ _ V) as (p' & E & R). rewrite E. cbn [bind].
    do 5 eexists. split; [reflexivity|]. split; [exact R|]. repeat split. discriminate.
  - destruct (v_discard_trailing ps d Hps Hdef _ _ _ _ V) as (p' & f' & E & R). rewrite E. cbn [bind].
    do 5 eexists. split; [reflexivity|]. split; [exact R|]. repeat split. discriminate.
  - destruct Ho as [Hi Hj].
    destruct (v_swap ps d Hps Hdef _ _ _ _ _ _ V Hi Hj) as (p' & E & R). unfold answer_of. rewrite E. cbn [bind].
    destruct ((i <? zlen c) && (j <? zlen c)) eqn:Ei; cbn [b2n] in *.
    + destruct R as [f' R]. do 5 eexists. split; [reflexivity|]. split; [exact R|]. split; [cbn [effect]; rewrite Ei; auto|]. repeat split. discriminate.
    + subst p'. do 5 eexists. split; [reflexivity|]. split; [exact V|]. split; [cbn [effect]; rewrite Ei; auto|]. repeat split.
  - destruct ok.
    + destruct (v_compact ps d Hps _ _ _ _ _ V Ho) as (p' & E & R). rewrite E. cbn [bind fst snd].
      do 5 eexists. split; [reflexivity|]. split; [exact R|]. split; [|repeat split; discriminate]. split; [|reflexivity].
      cbn [fst]. destruct (total_space ps d c + f =? allot (zlen hb)); auto.
    + rewrite (v_compact_nomem ps d Hps _ _ _ _ _ V). cbn [bind fst snd].
      do 5 eexists. split; [reflexivity|]. split; [exact V|]. repeat split; auto.
  - destruct (v_zero_out ps d Hps Hdef _ _ _ _ V) as (p' & a & E & R & _). unfold answer_of. rewrite E. cbn [bind].
    do 5 eexists. split; [reflexivity|]. split; [exact R|]. split; [|repeat split; discriminate]. split; [|reflexivity].
    cbn [fst]. destruct (f =? 0); auto.
  - destruct Ho as [Ha Hb].
    destruct (v_write_header ps d Hps Hdef _ _ _ _ at_ bs V Ha Hb) as (p' & E & R). rewrite E. cbn [bind].
    do 5 eexists. split; [reflexivity|]. split; [exact R|]. repeat split; try discriminate. apply zlen_upd; pose proof (zlen_nonneg bs); lia.
Qed.

Lemma in_place_step p hb c f ty t i pa v : view p hb c f -> in_place_ok ps d p ty t i pa v ->
  exists r p' c' f', PageElement.set_element_in_place p ps t d i pa v = Ok (r, p') /\ view p' hb c' f'
    /\ (r = false -> p' = p /\ c' = c)
    /\ match nth (Z.to_nat i) c None with
       | None => r = false
       | Some x => exists b n, Tuple.set_element t pa x 0 v 0 = Ok (r, b) /\ Tuple.can_set_element t pa x 0 v 0 = Ok r
           /\ DataType.get_size t b 0 = Ok n /\ 1 <= n <= zlen x
           /\ TupleSpec.data_at t (slice b 0 n) 0 /\ (r = true -> c' = replace_at i (Some (slice b 0 n)) c)
       end.
Proof.
  intros V (TB & FIN & [d0 SD] & Hi & PO & FT & DP & HD). unfold is_u32 in Hi.
  assert (HD' : forall x, i < zlen c -> nth (Z.to_nat i) c None = Some x -> TupleSpec.data_at t x 0).
  { intros x Hlt En. apply HD. rewrite (v_entry ps d Hps Hdef _ _ _ _ i V ltac:(lia)), En. reflexivity. }
  pose proof (PageElementFacts.v_set_in_place ps d0 d ty t Hps Hdef TB FIN SD p hb c f i pa v V ltac:(lia) PO FT DP HD') as K.
  destruct (nth (Z.to_nat i) c None) as [x|].
  - destruct K as (r & b & n & p' & E1 & E2 & E3 & E4 & Ln & D & F & T). exists r, p'. destruct r.
    + destruct (T eq_refl) as [f' V']. do 2 eexists. split; [exact E3|]. split; [exact V'|]. split; [discriminate|]. exists b, n. auto 10.
    + destruct (F eq_refl). exists c, f. split; [exact E3|]. split; [exact V|]. split; [auto|]. exists b, n.
      repeat (split; [assumption|]). discriminate.
  - exists false, p, c, f. auto.
Qed.

Lemma reach_view h p : 0 <= h <= ps - 32 -> reachable ps h d p ->
  exists hb c f, view p hb c f /\ zlen hb = h.
Proof.
  intros Hh R. induction R as [p0 p Hl E|p op r p' R IH Ho E|p ty t i pa v r p' R IH Ho E].
  - destruct (v_init ps d Hps Hdef p0 h Hl Hh) as (p1 & E1 & V). rewrite E1 in E. inversion E as [[Eb Ep]]. rewrite Eb in V. subst p1.
    do 3 eexists. split; [exact V|]. rewrite zlen_repeat. lia.
  - destruct IH as (hb & c & f & V & <-).
    destruct (step_ok _ _ _ _ _ V Ho) as (r1 & p1 & hb1 & c1 & f1 & E1 & V1 & _ & Z1 & _).
    rewrite E1 in E. inversion E; subst. eauto.
  - destruct IH as (hb & c & f & V & <-). destruct (in_place_step _ _ _ _ _ _ _ _ _ V Ho) as (r1 & p1 & c1 & f1 & E1 & V1 & _).
    rewrite E1 in E. inversion E; subst. eauto.
Qed.

Lemma reach_contents h p c : 0 <= h <= ps - 32 -> reachable ps h d p -> contents ps d p = Ok c ->
  exists hb f, view p hb c f /\ zlen hb = h.
Proof.
  intros Hh R Hc. destruct (reach_view h p Hh R) as (hb & c' & f & V & Hz).
  pose proof (v_contents ps d Hps Hdef _ _ _ _ V) as E. rewrite Hc in E. inversion E; subst c'. eauto.
Qed.

Lemma view_ext_ok p hb c f : view p hb c f -> forall x, In x c -> ext_ok d x.
Proof.
  intros V [t|] Hin; [|exact I]. apply In_nth with (d := None) in Hin as (n & Hn & En).
  destruct (v_get_nth ps d Hps Hdef _ _ _ _ (Z.of_nat n) V ltac:(lia)) as (x & _ & Hx). rewrite Nat2Z.id, En in Hx.
  destruct x as [o|].
  - destruct Hx as (_ & t' & Et & _ & _ & _ & _ & Ok'). inversion Et; subst. exact Ok'.
  - destruct Hx as [Hx|Hx]; [unfold zlen in Hx; lia|discriminate].
Qed.

(** ** two pages with the same entries at the same places *)
Definition twin (p p' : mem) : Prop :=
  if sd_variable d
  then exists hb hb' es, srep ps d p hb es /\ srep ps d p' hb' es /\ zlen hb = zlen hb'
  else exists hb hb' c, frep ps d p hb c /\ frep ps d p' hb' c /\ zlen hb = zlen hb'.
Lemma twin_queries p p' q : twin p p' -> query_ok d q -> run_query ps d q p' = run_query ps d q p.
Proof.
  intros T Hq.
  assert (exists hb hb' c f, view p hb c f /\ view p' hb' c f /\ zlen hb = zlen hb') as (hb & hb' & c & f & V & V' & Hz).
  { revert T. unfold twin, PageFacts.view. destruct (sd_variable d).
    - intros (hb & hb' & es & S & S' & Hz). exists hb, hb'. do 2 eexists. split; [exists es; split; [exact S|split; reflexivity]|].
      split; [|exact Hz]. exists es. split; [exact S'|]. split; [reflexivity|]. unfold sfree. rewrite Hz. reflexivity.
    - intros (hb & hb' & c & S & S' & Hz). exists hb, hb'. do 2 eexists. split; [split; [exact S|reflexivity]|]. rewrite Hz. auto. }
  destruct q as [| | |i|i|x|i x|i x| |a b| | |x| | |]; cbn [query_ok] in Hq; cbn [run_query].
  - rewrite (v_count ps d Hps Hdef _ _ _ _ V), (v_count ps d Hps Hdef _ _ _ _ V'). reflexivity.
  - rewrite (v_tombs ps d Hps Hdef _ _ _ _ V), (v_tombs ps d Hps Hdef _ _ _ _ V'). reflexivity.
  - rewrite (v_trailing ps d Hps Hdef _ _ _ _ V), (v_trailing ps d Hps Hdef _ _ _ _ V'). reflexivity.
  - unfold is_u32 in Hq. rewrite (v_exists ps d Hps Hdef _ _ _ _ _ V), (v_exists ps d Hps Hdef _ _ _ _ _ V') by lia. reflexivity.
  - assert (E : get_nth_tuple_on_page p' ps d i = get_nth_tuple_on_page p ps d i); [|rewrite E; reflexivity].
    unfold is_u32 in Hq. revert T. unfold twin, get_nth_tuple_on_page, get_page_layout_type, is_variable_sized. destruct (sd_variable d) eqn:Ev.
    + intros (h1 & h2 & es & S & S' & _). rewrite (s_get_nth Hps S), (s_get_nth Hps S') by lia. reflexivity.
    + intros (h1 & h2 & c1 & S & S' & Hz1).
      rewrite (proj1 (fr_get_nth ps d Hps Hdef Ev _ _ _ i S ltac:(lia))), (proj1 (fr_get_nth ps d Hps Hdef Ev _ _ _ i S' ltac:(lia))), Hz1. reflexivity.
  - destruct (v_append ps d Hps Hdef _ _ _ _ _ V Hq) as (_ & _ & E & _), (v_append ps d Hps Hdef _ _ _ _ _ V' Hq) as (_ & _ & E' & _).
    rewrite E, E', Hz. reflexivity.
  - destruct Hq as [Hi Hx]. destruct (v_insert ps d Hps Hdef _ _ _ _ _ _ V Hx Hi) as (_ & _ & E & _), (v_insert ps d Hps Hdef _ _ _ _ _ _ V' Hx Hi) as (_ & _ & E' & _).
    rewrite E, E', Hz. reflexivity.
  - destruct Hq as [Hi Hx]. unfold is_u32 in Hi. f_equal. revert T. unfold twin, can_update_tuple_on_page, get_page_layout_type, is_variable_sized. destruct (sd_variable d) eqn:Ev.
    + intros (h1 & h2 & es & S & S' & Hz1).
      rewrite (sl_can_update_spec ps d Hps _ _ _ _ _ S Hx), (sl_can_update_spec ps d Hps _ _ _ _ _ S' Hx) by lia.
      unfold can_upd, sfree. rewrite Hz1. reflexivity.
    + intros (h1 & h2 & c1 & S & S' & _).
      rewrite (fa_can_update_spec ps d Hps Hdef Ev _ _ _ _ S), (fa_can_update_spec ps d Hps Hdef Ev _ _ _ _ S'). reflexivity.
  - rewrite (v_free ps d Hps Hdef _ _ _ _ V), (v_free ps d Hps Hdef _ _ _ _ V'). reflexivity.
  - destruct Hq as [Ha Hb]. unfold is_u32 in *.
    rewrite (v_occupied_range ps d Hps Hdef _ _ _ _ _ _ V), (v_occupied_range ps d Hps Hdef _ _ _ _ _ _ V') by lia. reflexivity.
  - rewrite (v_occupied ps d Hps Hdef _ _ _ _ V), (v_occupied ps d Hps Hdef _ _ _ _ V'). reflexivity.
  - rewrite (v_occupied_tombs ps d Hps Hdef _ _ _ _ V), (v_occupied_tombs ps d Hps Hdef _ _ _ _ V'). reflexivity.
  - reflexivity.
  - rewrite (v_allotted ps d Hps Hdef _ _ _ _ V), (v_allotted ps d Hps Hdef _ _ _ _ V'), Hz. reflexivity.
  - rewrite (v_frag ps d Hps Hdef _ _ _ _ V), (v_frag ps d Hps Hdef _ _ _ _ V'), Hz. reflexivity.
  - rewrite (v_header_size ps d Hps Hdef _ _ _ _ V), (v_header_size ps d Hps Hdef _ _ _ _ V'), Hz. reflexivity.
Qed.
Lemma query_safe p hb c f q : view p hb c f -> query_ok d q -> exists v, run_query ps d q p = Ok v.
Proof.
  intros V Hq. destruct q as [| | |i|i|x|i x|i x| |a b| | |x| | |]; cbn [query_ok] in Hq; cbn [run_query].
  - rewrite (v_count ps d Hps Hdef _ _ _ _ V). eauto.
  - rewrite (v_tombs ps d Hps Hdef _ _ _ _ V). eauto.
  - rewrite (v_trailing ps d Hps Hdef _ _ _ _ V). eauto.
  - unfold is_u32 in Hq. rewrite (v_exists ps d Hps Hdef _ _ _ _ _ V) by lia. cbn. eauto.
  - unfold is_u32 in Hq. destruct (v_get_nth ps d Hps Hdef _ _ _ _ i V ltac:(lia)) as (x & E & _). rewrite E. cbn. eauto.
  - destruct (v_append ps d Hps Hdef _ _ _ _ _ V Hq) as (_ & _ & E & _). rewrite E. cbn. eauto.
  - destruct Hq as [Hi Hx]. destruct (v_insert ps d Hps Hdef _ _ _ _ _ _ V Hx Hi) as (_ & _ & E & _). rewrite E. cbn. eauto.
  - destruct Hq as [Hi Hx]. destruct (v_update ps d Hps Hdef _ _ _ _ _ _ V Hx Hi) as (b & _ & _ & E & _). rewrite E. cbn. eauto.
  - rewrite (v_free ps d Hps Hdef _ _ _ _ V). eauto.
  - destruct Hq as [Ha Hb]. unfold is_u32 in *. rewrite (v_occupied_range ps d Hps Hdef _ _ _ _ _ _ V) by lia. eauto.
  - rewrite (v_occupied ps d Hps Hdef _ _ _ _ V). eauto.
  - rewrite (v_occupied_tombs ps d Hps Hdef _ _ _ _ V). eauto.
  - rewrite (v_to_be_occupied ps d Hdef x Hq). eauto.
  - rewrite (v_allotted ps d Hps Hdef _ _ _ _ V). eauto.
  - rewrite (v_frag ps d Hps Hdef _ _ _ _ V). eauto.
  - rewrite (v_header_size ps d Hps Hdef _ _ _ _ V). eauto.
Qed.

Lemma write_header_twin p hb c f at_ bs : view p hb c f -> 0 <= at_ -> at_ + zlen bs <= zlen hb ->
  exists p', write_page_header p ps at_ bs = Ok p' /\ twin p p'.
Proof.
  intros V Ha Hb. assert (Zh : zlen (upd hb at_ bs) = zlen hb) by (apply zlen_upd; pose proof (zlen_nonneg bs); lia).
  revert V. unfold PageFacts.view, twin. destruct (sd_variable d) eqn:Ev.
  - intros (es & S & <- & ->). destruct (sl_write_header_spec ps d Hps p hb es at_ bs S Ha Hb) as (p' & E & R). eauto 10.
  - intros [F ->]. destruct (fa_write_header_spec ps d Hps Hdef Ev p hb c at_ bs F Ha Hb) as (p' & E & R). eauto 10.
Qed.
Lemma zero_out_twin p hb c f : view p hb c f ->
  exists b p', zero_out_free_space_on_page p ps d = Ok (b, p') /\ twin p p'.
Proof.
  unfold PageFacts.view, twin, zero_out_free_space_on_page, get_page_layout_type, is_variable_sized. destruct (sd_variable d) eqn:Ev.
  - intros (es & S & <- & ->). destruct (sl_zero_out_spec ps d Hps p hb es S) as (p' & E & R & _). eauto 10.
  - intros [F ->]. destruct (fa_zero_out_spec ps d Hps Hdef Ev p hb c F) as (p' & E & R & _). eauto 10.
Qed.

(** ** capacities *)
Lemma fcap_spec h n : sd_variable d = false -> 0 <= h <= ps - 32 -> 0 <= n ->
  (n <= fcap ps h s <-> 3 * vs + h + bitmap_size_in_bytes n + n * s <= ps).
Proof.
  intros Ev Hh Hn. pose proof (value_size_range ps). unfold fcap, bitmap_size_in_bytes.
  assert (Hs : 1 <= s) by (destruct Hdef; lia).
  set (sp := ps - (3 * vs + h)). assert (0 <= sp) by lia.
  split; intro L.
  - assert (n * (8 * s + 1) <= sp * 8).
    { apply Z.le_trans with (sp * 8 / (s * 8 + 1) * (8 * s + 1)); [nia|].
      replace (8 * s + 1) with (s * 8 + 1) by lia. rewrite Z.mul_comm. apply Z.mul_div_le. lia. }
    nia.
  - apply Z.div_le_lower_bound; [lia|]. nia.
Qed.

(** bytes a page must have for [n] tuples of the minimal size *)
Definition need (q h n : Z) : Z :=
  if sd_variable d then 5 * value_size q + h + n * (value_size q + s)
  else 3 * value_size q + h + bitmap_size_in_bytes n + n * s.

Lemma min_page_size_spec h n : 0 <= h -> 0 <= n -> h + n * (s + 4) + 64 <= max_bytes ->
  get_minimum_page_size h d n = need (get_minimum_page_size h d n) h n /\
  forall q, q < get_minimum_page_size h d n -> q < need q h n.
Proof.
  intros Hh Hn Hb. assert (Hs : 1 <= s) by (destruct Hdef; lia). pose proof (eq_refl : max_bytes = 2147483520).
  pose proof (Z.mul_nonneg_nonneg n s Hn ltac:(lia)) as Hns. set (X := n * s) in *.
  assert (Hb' : h + X + n * 4 + 64 <= max_bytes) by (unfold X; lia). clear Hb.
  assert (HB : 0 <= bitmap_size_in_bytes n <= n + 1) by (unfold bitmap_size_in_bytes; lia).
  unfold need, get_minimum_page_size, get_page_layout_type, is_variable_sized. destruct (sd_variable d).
  - unfold sl_min_page_size, min_tuple_size. fold X.
    assert (Nd : forall q, 5 * value_size q + h + n * (value_size q + s) = 5 * value_size q + h + n * value_size q + X) by (intro; unfold X; lia).
    assert (V : forall q, q <= 256 /\ value_size q = 1 \/ 256 < q <= 65536 /\ value_size q = 2 \/
       65536 < q <= 16777216 /\ value_size q = 3 \/ 16777216 < q /\ value_size q = 4).
    { intro q. unfold value_size. destruct (Z.leb_spec q 16777216), (Z.leb_spec q 65536), (Z.leb_spec q 256); lia. }
    rewrite !u32_id by lia.
    destruct (Z.leb_spec (1 + h + (4 + n) * 1 + X) 256);
      [|destruct (Z.leb_spec (2 + h + (4 + n) * 2 + X) 65536);
         [|destruct (Z.leb_spec (3 + h + (4 + n) * 3 + X) 16777216)]].
    all: split; [rewrite Nd; match goal with |- ?M = _ => destruct (V M) as [[? ->]|[[? ->]|[[? ->]|[? ->]]]] end; lia|].
    all: intros q Hq; rewrite Nd; destruct (V q) as [[? ->]|[[? ->]|[[? ->]|[? ->]]]]; lia.
  - unfold fa_min_page_size. fold X. set (bm := bitmap_size_in_bytes n) in *.
    assert (V : forall q, q <= 256 /\ value_size q = 1 \/ 256 < q <= 65536 /\ value_size q = 2 \/
       65536 < q <= 16777216 /\ value_size q = 3 \/ 16777216 < q /\ value_size q = 4).
    { intro q. unfold value_size. destruct (Z.leb_spec q 16777216), (Z.leb_spec q 65536), (Z.leb_spec q 256); lia. }
    rewrite !u32_id by lia.
    destruct (Z.leb_spec (1 + h + 1 * 2 + bm + X) 256);
      [|destruct (Z.leb_spec (2 + h + 2 * 2 + bm + X) 65536);
         [|destruct (Z.leb_spec (3 + h + 3 * 2 + bm + X) 16777216)]].
    all: split; [match goal with |- ?M = _ => destruct (V M) as [[? ->]|[[? ->]|[[? ->]|[? ->]]]] end; lia|].
    all: intros q Hq; destruct (V q) as [[? ->]|[[? ->]|[[? ->]|[? ->]]]]; lia.
Qed.

(** entries on a page against the bytes of the page *)
Lemma total_ge c : sd_variable d = true -> big_enough d c ->
  (zlen c - tomb_stones c) * (vs + s) + tomb_stones c * vs <= total_space ps d c.
Proof.
  intros Ev B. pose proof (value_size_range ps). induction B as [|e c He B IH]; [reflexivity|].
  rewrite zlen_cons, ts_cons. cbn [total_space]. unfold entry_space. rewrite Ev. unfold min_tuple_size in He.
  destruct e as [t|]; unfold t1; cbn [is_tomb_stone xlen]; lia.
Qed.

Lemma view_count_bound p hb c f : view p hb c f -> big_enough d c ->
  need ps (zlen hb) (zlen c - tomb_stones c) <= ps /\ (sd_variable d = false -> zlen c <= fcap ps (zlen hb) s).
Proof.
  intros V B. pose proof (v_bounds ps d Hps Hdef _ _ _ _ V) as Bd. pose proof (ts_range c). pose proof (value_size_range ps).
  unfold need. unfold PageFacts.allot in Bd. destruct (sd_variable d) eqn:Ev.
  - pose proof (total_ge c Ev B). pose proof (Z.mul_nonneg_nonneg (tomb_stones c) vs ltac:(lia) ltac:(lia)). split; [lia|discriminate].
  - unfold PageFacts.view in V. rewrite Ev in V. destruct V as [[Hc _] _]. split; [|auto].
    set (n := zlen c - tomb_stones c).
    assert (Hn : 0 <= n <= fcap ps (zlen hb) s) by lia.
    pose proof (proj1 Hdef). destruct (fcap_facts ps d Hps Hdef Ev (zlen hb)) as (C0 & C1 & C2 & C3); [lia|lia|].
    assert (Hb : bitmap_size_in_bytes n <= bitmap_size_in_bytes (fcap ps (zlen hb) s)) by (unfold bitmap_size_in_bytes; lia).
    pose proof (Z.mul_le_mono_nonneg_r n (fcap ps (zlen hb) s) s ltac:(lia) ltac:(lia)).
    unfold ftup in C1. lia.
Qed.

Lemma max_count_spec h : 0 <= h <= ps - 32 ->
  exists n, get_maximum_tuple_count_on_page h ps d = Ok n /\ 0 <= n /\
    (forall k, 0 <= k -> k <= n <-> need ps h k <= ps) /\ (sd_variable d = false -> n = fcap ps h s).
Proof.
  intros Hh. pose proof (value_size_range ps). assert (Hs : 1 <= s <= max_bytes) by (destruct Hdef; lia).
  pose proof (eq_refl : max_bytes = 2147483520).
  unfold get_maximum_tuple_count_on_page, need, get_page_layout_type, is_variable_sized. destruct (sd_variable d) eqn:Ev.
  - unfold sl_max_tuple_count, sl_space_to_be_allotted, sl_overhead, min_tuple_size. rewrite !u32_id by lia.
    replace (s + vs =? 0) with false by lia. eexists. split; [reflexivity|]. split; [apply Z.div_pos; lia|]. split; [|discriminate].
    intros k Hk. split; intro L.
    + pose proof (Z.mul_div_le (ps - (vs + h + 4 * vs)) (s + vs) ltac:(lia)).
      pose proof (Z.mul_le_mono_nonneg_l _ _ (s + vs) ltac:(lia) L). lia.
    + apply Z.div_le_lower_bound; lia.
  - destruct (fr_to_be_allotted ps d Hps Hdef Ev h) as [_ E]; [lia|lia|]. rewrite E. eexists. split; [reflexivity|].
    destruct (fcap_facts ps d Hps Hdef Ev h) as (C0 & _); [lia|lia|]. split; [exact C0|]. split; [|auto].
    intros k Hk. apply (fcap_spec h k Ev); lia.
Qed.

(** appending [k] minimal tuples *)
Lemma append_times_ok t : tuple_ok d t -> zlen t = s -> forall k p hb c f, view p hb c f ->
  (if sd_variable d then Z.of_nat k * (vs + s) <= f else zlen c + Z.of_nat k <= fcap ps (zlen hb) s) ->
  exists p', append_times ps d k t p = Ok (true, p') /\
    view p' hb (c ++ repeat (Some t) k) (f - Z.of_nat k * entry_space ps d (Some t)).
Proof.
  intros Ht Hz. pose proof (value_size_range ps). pose proof (proj1 Hdef). induction k as [|k IH]; intros p hb c f V Hk; cbn [append_times].
  - exists p. split; [reflexivity|]. cbn [repeat]. rewrite app_nil_r, Z.mul_0_l, Z.sub_0_r. exact V.
  - destruct (v_append ps d Hps Hdef _ _ _ _ (Some t) V Ht) as (p1 & E & _ & R). rewrite E. cbn [bind].
    assert (Rm : room (zlen hb) c f (Some t) = true).
    { unfold PageFacts.room, entry_space. destruct (sd_variable d); [cbn [xlen]; rewrite Hz; nia|lia]. }
    rewrite Rm in *. destruct (IH p1 hb (c ++ [Some t]) _ R) as (p2 & E2 & R2).
    { unfold entry_space. destruct (sd_variable d); [cbn [xlen]; rewrite Hz; lia|rewrite zlen_snoc; lia]. }
    exists p2. split; [exact E2|]. rewrite <- app_assoc in R2. cbn [app] in R2. cbn [repeat].
    replace (f - Z.of_nat (S k) * entry_space ps d (Some t)) with (f - entry_space ps d (Some t) - Z.of_nat k * entry_space ps d (Some t)) by lia. exact R2.
Qed.

Lemma fresh_appends h p0 p t n : 0 <= h <= ps - 32 -> zlen p0 = ps -> init_page p0 ps h d = Ok (true, p) ->
  tuple_ok d t -> zlen t = s -> 0 <= n -> need ps h n <= ps ->
  exists p' f, append_times ps d (Z.to_nat n) t p = Ok (true, p') /\
    view p' (repeat Byte.x00 (Z.to_nat h)) (repeat (Some t) (Z.to_nat n)) f /\
    (sd_variable d = true -> f = ps - (5 * vs + h) - n * (vs + s)).
Proof.
  intros Hh Hl E Ht Hz Hn Hneed. destruct (v_init ps d Hps Hdef p0 h Hl Hh) as (p1 & E1 & V). rewrite E1 in E.
  injection E as Eb Ep. rewrite Eb in V. subst p1.
  destruct (append_times_ok t Ht Hz (Z.to_nat n) _ _ _ _ V) as (p' & E' & V').
  - rewrite Z2Nat.id by lia. unfold need in Hneed. unfold PageFacts.allot. destruct (sd_variable d) eqn:Ev; [lia|].
    rewrite zlen_repeat, Z2Nat.id, zlen_nil by lia. apply (fcap_spec h n Ev) in Hneed; lia.
  - exists p'. eexists. split; [exact E'|]. split; [exact V'|]. intro Ev. unfold PageFacts.allot, entry_space. rewrite Ev. cbn [xlen]. rewrite Z2Nat.id by lia. lia.
Qed.
End Page.
