(** * Both layouts behind one abstract view of a page *)
From Coq Require Import ZifyBool ZifyNat ZifyN Zify Permutation Sorted.
From Verif Require Import BytesFacts SpecFacts.
From Verif Require Export SlottedOps3 FixedOps.
Ltac Zify.zify_post_hook ::= Z.div_mod_to_equations.

(** ** list operations and [map] *)
Lemma map_insert_at {A B} (f : A -> B) i x l : map f (insert_at i x l) = insert_at i (f x) (map f l).
Proof. unfold insert_at. rewrite map_app, firstn_map. cbn [map]. rewrite skipn_map. reflexivity. Qed.
Lemma map_replace_at {A B} (f : A -> B) i x l : map f (replace_at i x l) = replace_at i (f x) (map f l).
Proof. unfold replace_at. rewrite map_app, firstn_map. cbn [map]. rewrite skipn_map. reflexivity. Qed.
Lemma map_remove_at {A B} (f : A -> B) i l : map f (remove_at i l) = remove_at i (map f l).
Proof. unfold remove_at. rewrite map_app, firstn_map, skipn_map. reflexivity. Qed.
Lemma map_swap_at {A B} (f : A -> B) i j l : map f (swap_at i j l) = swap_at i j (map f l).
Proof.
  unfold swap_at. rewrite !nth_error_map. destruct (nth_error l (Z.to_nat i)), (nth_error l (Z.to_nat j)); cbn [option_map]; try reflexivity.
  rewrite !map_replace_at. reflexivity.
Qed.

Lemma nth_content es i : nth i (content_of es) None = option_map snd (nth i es None).
Proof. unfold content_of. rewrite <- (map_nth (option_map snd)). reflexivity. Qed.

(** ** space of entries *)
Lemma total_space_app ps d a b : total_space ps d (a ++ b) = total_space ps d a + total_space ps d b.
Proof. induction a as [|x a IH]; cbn [app total_space]; lia. Qed.
Lemma total_space_slotted ps d es : sd_variable d = true ->
  total_space ps d (content_of es) = zlen es * value_size ps + dsum es.
Proof.
  intro Ev. induction es as [|[[o t]|] es IH]; cbn [content_of map option_map total_space dsum slen snd];
    [reflexivity| |]; fold (content_of es); rewrite IH; unfold entry_space; rewrite Ev; cbn [xlen]; rewrite zlen_cons; lia.
Qed.
Lemma total_space_fixed ps d c : sd_variable d = false -> total_space ps d c = zlen c * sd_size d.
Proof.
  intro Ev. induction c as [|x c IH]; cbn [total_space]; [reflexivity|]. rewrite IH, zlen_cons. unfold entry_space. rewrite Ev. lia.
Qed.
Lemma content_slice es a n : content_of (slice es a n) = slice (content_of es) a n.
Proof. unfold content_of, slice. rewrite skipn_map, firstn_map. reflexivity. Qed.

Section Page.
Variable ps : Z.
Variable d : size_def.
Hypothesis Hps : 128 <= ps <= max_bytes.
Hypothesis Hdef : def_ok d.
Local Notation vs := (value_size ps).
Local Notation s := (sd_size d).

(** header bytes [hb], entries [c], free space [f] *)
Definition view (p : mem) (hb : list byte) (c : content) (f : Z) : Prop :=
  if sd_variable d
  then exists es, srep ps d p hb es /\ content_of es = c /\ f = sfree ps hb es
  else frep ps d p hb c /\ f = ps - (ftup ps (zlen hb) s + zlen c * s).

(** space allotted to tuples, with a header of [h] bytes *)
Definition allot (h : Z) : Z := if sd_variable d then ps - (5 * vs + h) else ps - ftup ps h s.

Ltac lay := unfold view, allot, append_tuple_on_page, can_append_tuple_on_page, insert_tuple_on_page,
  update_tuple_on_page, can_update_tuple_on_page, discard_tuple_on_page, discard_all_tuples_on_page,
  discard_trailing_tomb_stones_on_page, swap_tuples_on_page, run_page_compaction, zero_out_free_space_on_page,
  get_tuple_count_on_page, get_tomb_stone_count_on_page, exists_tuple_on_page, get_nth_tuple_on_page,
  get_free_space_on_page, get_space_occupied_by_all_tuples_on_page, get_space_occupied_by_all_tomb_stones_on_page,
  get_space_to_be_occupied_by_tuple_on_page, get_space_allotted_to_all_tuples_on_page,
  get_space_to_be_allotted_to_all_tuples_on_page, get_maximum_tuple_count_on_page, init_page, get_minimum_page_size,
  get_maximum_tuple_size_accomodatable_on_page, get_additional_space_overhead_per_tuple_on_page,
  get_page_layout_type, is_variable_sized in *;
  destruct (sd_variable d) eqn:Ev.

Lemma view_len p hb c f : view p hb c f -> zlen p = ps.
Proof.
  lay.
  - intros (es & S & _). pose proof (srep_bounds Hps S). lia.
  - intros [F _]. eapply fr_len; eassumption.
Qed.

Lemma v_count p hb c f : view p hb c f -> get_tuple_count_on_page p ps d = Ok (zlen c).
Proof.
  lay.
  - intros (es & S & <- & _). rewrite content_len. eapply s_tuple_count; eassumption.
  - intros [F _]. eapply fr_count; eassumption.
Qed.
Lemma tombs_ts es : tombs es = tomb_stones (content_of es).
Proof.
  unfold tomb_stones. induction es as [|[[o t]|] es IH]; cbn [tombs content_of map option_map filter is_tomb_stone snd];
    [reflexivity| |]; fold (content_of es); rewrite ?zlen_cons; lia.
Qed.
Lemma v_tombs p hb c f : view p hb c f -> get_tomb_stone_count_on_page p ps d = Ok (tomb_stones c).
Proof.
  lay.
  - intros (es & S & <- & _). rewrite <- tombs_ts. eapply s_tomb_stone_count; eassumption.
  - intros [F _]. eapply fr_tombs; eassumption.
Qed.
Lemma v_header_size p hb c f : view p hb c f -> get_page_header_size p ps = Ok (zlen hb).
Proof.
  lay.
  - intros (es & S & <- & _). eapply s_header_size; eassumption.
  - intros [F _]. eapply fr_header; eassumption.
Qed.
Lemma v_header p hb c f : view p hb c f -> header ps p = Ok hb.
Proof.
  intro V. unfold header. rewrite (v_header_size _ _ _ _ V). cbn [bind]. unfold get_page_header.
  pose proof (value_size_range ps). pose proof (zlen_nonneg hb). revert V. lay.
  - intros (es & S & _). pose proof (srep_bounds Hps S). rewrite rd_ok by lia. f_equal. apply (r_hdr (s_raw S)).
  - intros [F _]. pose proof (fr_len ps d _ _ _ F). pose proof (fr_free ps d Hps Hdef Ev _ _ _ F).
    destruct F as [Hc (B & D & R & X)]. pose proof (f_bound _ _ _ _ _ _ _ _ R). rewrite rd_ok by lia. f_equal.
    apply (fr_header_bytes ps d p hb c). split; [exact Hc|]. exists B, D. auto.
Qed.

Lemma v_exists p hb c f i : view p hb c f -> 0 <= i -> exists_tuple_on_page p ps d i =
  Ok (if i <? zlen c then negb (is_tomb_stone (nth (Z.to_nat i) c None)) else false).
Proof.
  intros V Hi. revert V. lay.
  - intros (es & S & <- & _). rewrite content_len, nth_content. eapply s_exists; eassumption.
  - intros [F _]. eapply fr_exists; eassumption.
Qed.

(** where the entries are *)
Lemma v_get_nth p hb c f i : view p hb c f -> 0 <= i ->
  exists x, get_nth_tuple_on_page p ps d i = Ok x /\
    match x with
    | None => zlen c <= i \/ nth (Z.to_nat i) c None = None
    | Some o => i < zlen c /\ exists t, nth (Z.to_nat i) c None = Some t /\
        tuple_size d p o = Ok (zlen t) /\ rd p o (zlen t) = Ok t /\
        vs + zlen hb <= o /\ o + zlen t <= ps /\ tuple_ok d t
    end.
Proof.
  intros V Hi. pose proof (view_len _ _ _ _ V) as Hl. pose proof (value_size_range ps). pose proof (zlen_nonneg hb). revert V. lay.
  - intros (es & S & <- & _). rewrite (s_get_nth Hps S) by lia. eexists; split; [reflexivity|].
    rewrite content_len, nth_content.
    destruct (Z.ltb_spec i (zlen es)); [|left; lia].
    destruct (nth_in_or_None es (Z.to_nat i)) as [Hin|Hn].
    + destruct (nth (Z.to_nat i) es None) as [[o t]|]; cbn [option_map fst snd]; [|auto]. split; [assumption|].
      exists t. destruct (entry_pos Hps S Hin) as (? & ? & ? & ? & ? & ?).
      pose proof (srep_bounds Hps S).
      split; [reflexivity|]. split; [eapply s_tuple_size; eassumption|]. split; [rewrite rd_ok by lia; congruence|].
      split; [lia|]. split; [lia|assumption].
    + rewrite Hn. cbn. auto.
  - intros [F _]. destruct (fr_get_nth ps d Hps Hdef Ev _ _ _ _ F Hi) as [E Ht]. eexists; split; [exact E|].
    destruct (Z.ltb_spec i (zlen c)); [|left; lia].
    destruct (nth (Z.to_nat i) c None) as [t|] eqn:En; [|auto]. split; [assumption|]. exists t.
    destruct (Ht t) as (E1 & E2 & ? & ?); [assumption|reflexivity|].
    assert (Hs : tuple_size d t 0 = Ok (zlen t)) by (unfold tuple_size; rewrite Ev; cbn [negb]; congruence).
    pose proof (fr_free ps d Hps Hdef Ev _ _ _ F). pose proof (zlen_nonneg t).
    assert (B0 : vs + zlen hb <= ftup ps (zlen hb) s).
    { destruct F as [Hc (B & D & R & X)]. pose proof (f_bound _ _ _ _ _ _ _ _ R).
      destruct (fcap_facts ps d Hps Hdef Ev (zlen hb)) as (? & ? & ? & ?); lia. }
    pose proof (Z.mul_nonneg_nonneg i s Hi ltac:(lia)).
    split; [reflexivity|]. split; [unfold tuple_size; rewrite Ev; cbn [negb]; congruence|].
    split; [rewrite rd_ok by lia; congruence|]. split; [lia|]. split; [lia|]. split; [exact Hs|].
    unfold max_tuple_size; rewrite Ev; cbn [negb]; lia.
Qed.

Lemma v_entry p hb c f i : view p hb c f -> 0 <= i < zlen c -> read_entry ps d p i = Ok (nth (Z.to_nat i) c None).
Proof.
  intros V Hi. unfold read_entry. destruct (v_get_nth _ _ _ _ i V ltac:(lia)) as (x & E & Hx). rewrite E. cbn [bind].
  destruct x as [o|].
  - destruct Hx as (_ & t & -> & E1 & E2 & _). rewrite E1. cbn [bind]. rewrite E2. reflexivity.
  - destruct Hx as [? | ->]; [lia|reflexivity].
Qed.
Lemma v_entries p hb c f : view p hb c f -> forall k i, i + Z.of_nat k = zlen c -> 0 <= i ->
  read_entries ps d p i k = Ok (skipn (Z.to_nat i) c).
Proof.
  intros V. induction k as [|k IH]; intros i Hk Hi; cbn [read_entries].
  - rewrite skipn_all2; [reflexivity|]. unfold zlen in Hk. lia.
  - rewrite (v_entry _ _ _ _ _ V) by lia. cbn [bind]. rewrite IH by lia. cbn [bind].
    replace (Z.to_nat (i + 1)) with (S (Z.to_nat i)) by lia.
    rewrite <- (firstn_skipn (Z.to_nat i) c) at 1. f_equal.
    rewrite app_nth2; rewrite firstn_length_le by (unfold zlen in Hk; lia); [|lia]. rewrite Nat.sub_diag.
    assert (G : forall (l : content) n, (n < length l)%nat -> skipn n l = nth 0 (skipn n l) None :: skipn (S n) l).
    { induction l as [|a l IHl]; intros [|n] Hn; cbn [length] in Hn; try lia; [reflexivity|]. cbn [skipn]. apply IHl. lia. }
    symmetry. apply G. unfold zlen in Hk. lia.
Qed.
Lemma v_contents p hb c f : view p hb c f -> contents ps d p = Ok c.
Proof.
  intro V. unfold contents. rewrite (v_count _ _ _ _ V). cbn [bind].
  apply (v_entries _ _ _ _ V); pose proof (zlen_nonneg c); lia.
Qed.

(** ** space *)
Lemma v_free p hb c f : view p hb c f -> get_free_space_on_page p ps d = Ok f.
Proof.
  lay.
  - intros (es & S & _ & ->). eapply s_free; eassumption.
  - intros [F ->]. eapply fr_free; eassumption.
Qed.
Lemma v_occupied p hb c f : view p hb c f ->
  get_space_occupied_by_all_tuples_on_page p ps d = Ok (total_space ps d c).
Proof.
  lay.
  - intros (es & S & <- & _). rewrite total_space_slotted by assumption. eapply s_space_all; eassumption.
  - intros [F _]. rewrite total_space_fixed by assumption. eapply fr_all; eassumption.
Qed.
Lemma v_occupied_tombs p hb c f : view p hb c f ->
  get_space_occupied_by_all_tomb_stones_on_page p ps d = Ok (tomb_stones c * entry_space ps d None).
Proof.
  unfold entry_space. lay.
  - intros (es & S & <- & _). rewrite <- tombs_ts. cbn [xlen]. rewrite Z.add_0_r. eapply sl_tomb_space_spec; eassumption.
  - intros [F _]. eapply fr_tomb_space; eassumption.
Qed.
Lemma v_to_be_occupied x : ext_ok d x -> get_space_to_be_occupied_by_tuple_on_page ps d x = Ok (entry_space ps d x).
Proof.
  intro Hx. unfold entry_space. lay; [apply space_ok; assumption|reflexivity].
Qed.
Lemma v_allotted p hb c f : view p hb c f -> get_space_allotted_to_all_tuples_on_page p ps d = Ok (allot (zlen hb)).
Proof.
  lay.
  - intros (es & S & _). eapply s_space_allotted; eassumption.
  - intros [F _]. eapply fr_allotted; eassumption.
Qed.
(** everything fits: used space and free space do not exceed the allotted one *)
Lemma v_bounds p hb c f : view p hb c f ->
  0 <= f /\ 0 <= total_space ps d c /\ total_space ps d c + f <= allot (zlen hb) /\ 0 <= allot (zlen hb) < ps /\
  0 <= zlen hb /\ vs + zlen hb + 2 * vs <= ps /\ zlen c <= ps /\
  (sd_variable d = false -> total_space ps d c + f = allot (zlen hb)).
Proof.
  pose proof (value_size_range ps). pose proof (zlen_nonneg hb). lay.
  - intros (es & S & <- & ->). pose proof (srep_bounds Hps S). pose proof (s_fit S). unfold sfree.
    rewrite total_space_slotted, content_len by assumption. repeat split; try lia.
  - intros [F ->]. pose proof (fr_free ps d Hps Hdef Ev _ _ _ F). rewrite total_space_fixed by assumption.
    assert (G : zlen c <= ps /\ vs + zlen hb + 2 * vs <= ps).
    { destruct F as [Hc (B & D & R & X)]. pose proof (f_bound _ _ _ _ _ _ _ _ R).
      destruct (fcap_facts ps d Hps Hdef Ev (zlen hb)) as (? & ? & ? & ?); lia. }
    repeat split; lia.
Qed.
Lemma v_frag p hb c f : view p hb c f ->
  get_fragmentation_space_on_page p ps d = Ok (allot (zlen hb) - (total_space ps d c + f)).
Proof.
  intro V. unfold get_fragmentation_space_on_page. rewrite (v_allotted _ _ _ _ V). cbn [bind].
  rewrite (v_occupied _ _ _ _ V). cbn [bind]. rewrite (v_free _ _ _ _ V). cbn [bind].
  pose proof (v_bounds _ _ _ _ V). pose proof (eq_refl : max_bytes = 2147483520). rewrite u32_id by lia. reflexivity.
Qed.
Lemma v_occupied_range p hb c f a b : view p hb c f -> 0 <= a -> 0 <= b ->
  get_space_occupied_by_tuples_on_page p ps d a b =
  Ok (if (a <=? b) && (b <? zlen c) then total_space ps d (slice c a (b - a + 1)) else 0).
Proof.
  intros V Ha Hb. unfold get_space_occupied_by_tuples_on_page. rewrite (v_count _ _ _ _ V). cbn [bind].
  destruct (Z.ltb_spec b a), (Z.leb_spec a b), (Z.leb_spec (zlen c) b), (Z.ltb_spec b (zlen c)); try lia; cbn [orb andb]; try reflexivity.
  revert V. lay.
  - intros (es & S & <- & _). rewrite content_len in *. rewrite <- content_slice, total_space_slotted by assumption.
    rewrite (sl_space_range_spec ps d Hps _ _ _ _ _ S) by lia. rewrite zlen_slice by lia. f_equal. lia.
  - intros [F _]. rewrite (fr_range ps d Hps Hdef Ev _ _ _ _ _ F) by lia.
    rewrite total_space_fixed by assumption. rewrite zlen_slice by lia. reflexivity.
Qed.

Lemma v_trailing_loop p hb c0 f : view p hb c0 f -> forall cur rest, c0 = cur ++ rest ->
  forall k r, k = length cur -> 0 <= r -> r + zlen cur <= ps ->
  trailing_count_loop p ps d k (zlen cur) r = Ok (r + trailing_tomb_stones cur).
Proof.
  intro V. pose proof (eq_refl : max_bytes = 2147483520). pose proof (v_bounds _ _ _ _ V) as Bd.
  induction cur as [|e cur IH] using rev_ind; intros rest E k r -> Hr Hn.
  - cbn. rewrite Z.add_0_r. reflexivity.
  - rewrite app_length. cbn [length]. rewrite Nat.add_1_r. cbn [trailing_count_loop].
    rewrite zlen_snoc in *. pose proof (zlen_nonneg cur). replace (zlen cur + 1 - 1) with (zlen cur) by lia. rewrite u32_id by lia.
    rewrite (v_exists _ _ _ _ _ V) by lia. cbn [bind].
    assert (Hl : zlen cur < zlen c0) by (rewrite E, !zlen_app, zlen_cons; pose proof (zlen_nonneg rest); pose proof (zlen_nonneg (@nil (option (list byte)))); lia).
    replace (zlen cur <? zlen c0) with true by lia.
    assert (En : nth (Z.to_nat (zlen cur)) c0 None = e).
    { rewrite E, <- app_assoc. unfold zlen. rewrite Nat2Z.id, app_nth2, Nat.sub_diag by lia. reflexivity. }
    rewrite En. unfold trailing_tomb_stones. rewrite rev_app_distr. cbn [rev app].
    destruct e as [t|]; cbn [is_tomb_stone negb leading_tomb_stones]; [f_equal; lia|].
    rewrite (u32_id (r + 1)) by lia. rewrite (IH (None :: rest)); [f_equal; unfold trailing_tomb_stones; lia| |reflexivity|lia|lia].
    rewrite E, <- app_assoc. reflexivity.
Qed.
Lemma v_trailing p hb c f : view p hb c f ->
  get_trailing_tomb_stones_count_on_page p ps d = Ok (trailing_tomb_stones c).
Proof.
  intro V. unfold get_trailing_tomb_stones_count_on_page. rewrite (v_count _ _ _ _ V). cbn [bind].
  pose proof (v_bounds _ _ _ _ V).
  rewrite (v_trailing_loop _ _ _ _ V c []); rewrite ?app_nil_r; [reflexivity|reflexivity| |lia|lia]. unfold zlen. apply Nat2Z.id.
Qed.

(** ** operations *)
Lemma v_init p h : zlen p = ps -> 0 <= h <= ps - 32 ->
  exists p', init_page p ps h d = Ok (get_minimum_page_size h d 1 <=? ps, p') /\
    if get_minimum_page_size h d 1 <=? ps
    then view p' (repeat Byte.x00 (Z.to_nat h)) [] (allot h) else p' = p.
Proof.
  intros Hl Hh. lay.
  - destruct (sl_init_spec ps d Hps p h Hl Hh) as (p' & E & R). exists p'. split; [exact E|].
    destruct (sl_min_page_size h d 1 <=? ps); [|exact R]. exists []. split; [exact R|]. split; [reflexivity|].
    unfold sfree. cbn [eofs]. rewrite zlen_repeat, (zlen_nil (option (Z * list byte))), Z2Nat.id by lia. lia.
  - destruct (fa_init_spec ps d Hps Hdef Ev p h Hl Hh) as (p' & E & R). exists p'. split; [exact E|].
    destruct (fa_min_page_size h d 1 <=? ps); [|exact R]. split; [exact R|].
    rewrite zlen_repeat, Z2Nat.id by lia. rewrite (zlen_nil (option (list byte))); lia.
Qed.

(** whether an append succeeds *)
Definition room (h : Z) (c : content) (f : Z) (x : ext) : bool :=
  if sd_variable d then entry_space ps d x <=? f else zlen c <? fcap ps h s.

Lemma v_append p hb c f x : view p hb c f -> ext_ok d x ->
  exists p', append_tuple_on_page p ps d x = Ok (room (zlen hb) c f x, p') /\
    can_append_tuple_on_page p ps d x = Ok (room (zlen hb) c f x) /\
    if room (zlen hb) c f x then view p' hb (c ++ [x]) (f - entry_space ps d x) else p' = p.
Proof.
  intros V Hx. revert V. unfold room, entry_space. lay.
  - intros (es & S & <- & ->). destruct (sl_append_spec ps d Hps Hdef p hb es x S Hx) as (p' & E & R).
    exists p'. split; [exact E|]. split; [apply sl_can_append_spec; assumption|].
    destruct (vs + xlen x <=? sfree ps hb es); [|exact R]. destruct R as (e & Ee & Se & Fe).
    exists (es ++ [e]). split; [exact Se|]. split; [|lia]. unfold content_of. rewrite map_app. cbn [map]. rewrite Ee. reflexivity.
  - intros [F ->]. destruct (fa_append_spec ps d Hps Hdef Ev p hb c x F Hx) as (p' & E & R).
    exists p'. split; [exact E|]. split; [apply fa_can_append_spec; assumption|].
    destruct (zlen c <? fcap ps (zlen hb) s); [|exact R]. split; [exact R|]. rewrite zlen_snoc. lia.
Qed.

Lemma v_insert p hb c f i x : view p hb c f -> ext_ok d x -> is_u32 i ->
  let b := (i <=? zlen c) && room (zlen hb) c f x in
  exists p', insert_tuple_on_page p ps d i x = Ok (b, p') /\ can_insert_tuple_on_page p ps d i x = Ok b /\
    if b then view p' hb (insert_at i x c) (f - entry_space ps d x) else p' = p.
Proof.
  intros V Hx Hi b. destruct (v_append _ _ _ _ _ V Hx) as (pa & _ & Ea & _).
  assert (Ec : can_insert_tuple_on_page p ps d i x = Ok b).
  { unfold can_insert_tuple_on_page. rewrite (v_count _ _ _ _ V). cbn [bind]. unfold b. destruct (i <=? zlen c); [exact Ea|reflexivity]. }
  rewrite Ec. clear pa Ea Ec. unfold is_u32 in Hi. revert V. unfold b, room, entry_space. lay.
  - intros (es & S & <- & ->). destruct (sl_insert_spec ps d Hps Hdef p hb es i x S Hx Hi) as (p' & E & R).
    rewrite content_len. exists p'. split; [exact E|]. split; [reflexivity|].
    destruct ((i <=? zlen es) && (vs + xlen x <=? sfree ps hb es)); [|exact R]. destruct R as (e & Ee & Se & Fe).
    exists (insert_at i e es). split; [exact Se|]. split; [|lia]. unfold content_of. rewrite map_insert_at, Ee. reflexivity.
  - intros [F ->]. destruct (fa_insert_spec ps d Hps Hdef Ev p hb c i x F Hx ltac:(lia)) as (p' & E & R).
    exists p'. split; [exact E|]. split; [reflexivity|].
    destruct (Z.leb_spec i (zlen c)); cbn [andb] in *; [|exact R].
    destruct (zlen c <? fcap ps (zlen hb) s); [|exact R]. split; [exact R|]. rewrite zlen_insert_at by lia. lia.
Qed.

Lemma v_update p hb c f i x : view p hb c f -> ext_ok d x -> is_u32 i ->
  exists b p', update_tuple_on_page p ps d i x = Ok (b, p') /\ can_update_tuple_on_page p ps d i x = Ok b /\
    (b = true -> i < zlen c) /\
    (i < zlen c -> x = None \/ sd_variable d = false -> b = true) /\
    (i < zlen c -> sd_variable d = true -> nth (Z.to_nat i) c None = None -> b = (xlen x <=? f)) /\
    (i < zlen c -> sd_variable d = true -> xlen x <= f \/ xlen x <= xlen (nth (Z.to_nat i) c None) -> b = true) /\
    (i < zlen c -> sd_variable d = true -> f + xlen (nth (Z.to_nat i) c None) < xlen x -> b = false) /\
    if b then exists f', view p' hb (replace_at i x c) f' else p' = p.
Proof.
  intros V Hx Hi. unfold is_u32 in Hi. revert V. lay.
  - intros (es & S & <- & ->). destruct (sl_update_spec ps d Hps Hdef p hb es i x S Hx ltac:(lia)) as (p' & E & R).
    exists (can_upd ps hb es i x), p'. split; [exact E|]. split; [apply sl_can_update_spec; try assumption; lia|].
    rewrite content_len, nth_content.
    split. { unfold can_upd. destruct (Z.leb_spec (zlen es) i); [discriminate|]. intros _. lia. }
    split. { intros Hlt [->|?]; [|discriminate]. unfold can_upd. replace (zlen es <=? i) with false by lia. reflexivity. }
    split. { intros Hlt _ Hn. unfold can_upd. replace (zlen es <=? i) with false by lia.
             pose proof (srep_bounds Hps S). pose proof (s_fit S).
             destruct (nth (Z.to_nat i) es None) as [[o t0]|]; [discriminate|].
             destruct x as [t|]; cbn [xlen]; [reflexivity|]. unfold sfree. lia. }
    assert (F0 : 0 <= sfree ps hb es) by (pose proof (s_fit S); unfold sfree; lia).
    split. { intros Hlt _ Hx'. unfold can_upd. replace (zlen es <=? i) with false by lia.
             destruct x as [t|]; [|reflexivity]. cbn [xlen] in Hx'.
             destruct (nth (Z.to_nat i) es None) as [[o t0]|]; cbn [option_map snd xlen] in Hx'; pose proof (zlen_nonneg t).
             - pose proof (zlen_nonneg t0). destruct (o =? eofs ps es); lia.
             - destruct Hx'; lia. }
    split. { intros Hlt _ Hx'. unfold can_upd. replace (zlen es <=? i) with false by lia.
             destruct x as [t|]; cbn [xlen] in Hx'.
             - destruct (nth (Z.to_nat i) es None) as [[o t0]|]; cbn [option_map snd xlen] in Hx'; [|lia].
               pose proof (zlen_nonneg t0). destruct (o =? eofs ps es); lia.
             - destruct (nth (Z.to_nat i) es None) as [[o t0]|]; cbn [option_map snd xlen] in Hx'; [|lia]. pose proof (zlen_nonneg t0). lia. }
    destruct (can_upd ps hb es i x); [|exact R]. destruct R as (e & Ee & Se).
    eexists. exists (replace_at i e es). split; [exact Se|]. split; [|reflexivity]. unfold content_of. rewrite map_replace_at, Ee. reflexivity.
  - intros [F ->]. destruct (fa_update_spec ps d Hps Hdef Ev p hb c i x F Hx ltac:(lia)) as (p' & E & R).
    exists (i <? zlen c), p'. split; [exact E|]. split; [eapply fa_can_update_spec; eassumption|].
    split; [lia|]. split; [lia|]. split; [discriminate|]. split; [discriminate|]. split; [discriminate|].
    destruct (i <? zlen c); [|exact R]. eexists. split; [exact R|reflexivity].
Qed.

Lemma v_discard p hb c f i : view p hb c f -> is_u32 i ->
  exists p', discard_tuple_on_page p ps d i = Ok (i <? zlen c, p') /\
    if i <? zlen c then exists f', view p' hb (remove_at i c) f' else p' = p.
Proof.
  intros V Hi. unfold is_u32 in Hi. revert V. lay.
  - intros (es & S & <- & ->). destruct (sl_discard_spec ps d Hps p hb es i S ltac:(lia)) as (p' & E & R).
    rewrite content_len. exists p'. split; [exact E|]. destruct (i <? zlen es); [|exact R].
    eexists. exists (remove_at i es). split; [exact R|]. split; [|reflexivity]. apply map_remove_at.
  - intros [F ->]. destruct (fa_discard_spec ps d Hps Hdef Ev p hb c i F ltac:(lia)) as (p' & E & R).
    exists p'. split; [exact E|]. destruct (i <? zlen c); [|exact R]. eexists. split; [exact R|reflexivity].
Qed.

Lemma v_discard_all p hb c f : view p hb c f ->
  exists p', discard_all_tuples_on_page p ps d = Ok p' /\ view p' hb [] (allot (zlen hb)).
Proof.
  lay.
  - intros (es & S & <- & ->). destruct (sl_discard_all_spec ps d Hps p hb es S) as (p' & E & R).
    exists p'. split; [exact E|]. exists []. split; [exact R|]. split; [reflexivity|]. unfold sfree. cbn [eofs]. rewrite (zlen_nil (option (Z * list byte))). lia.
  - intros [F ->]. destruct (fa_discard_all_spec ps d Hps Hdef Ev p hb c F) as (p' & E & R).
    exists p'. split; [exact E|]. split; [exact R|]. rewrite (zlen_nil (option (list byte))); lia.
Qed.

Lemma v_discard_trailing p hb c f : view p hb c f ->
  exists p' f', discard_trailing_tomb_stones_on_page p ps d = Ok (trailing_tomb_stones c, p') /\
    view p' hb (drop_last (trailing_tomb_stones c) c) f'.
Proof.
  intro V. destruct (strip_spec c) as [E1 E2]. rewrite <- E1, <- E2. clear E1 E2. revert V. lay.
  - intros (es & S & <- & ->). destruct (sl_discard_trailing_spec ps d Hps p hb es S) as (p' & E & R).
    exists p'. eexists. unfold content_of. rewrite strip_map. fold (content_of es). fold (content_of (strip es)). rewrite !content_len.
    split; [exact E|]. exists (strip es). split; [exact R|]. split; reflexivity.
  - intros [F ->]. destruct (fa_discard_trailing_spec ps d Hps Hdef Ev p hb c F) as (p' & E & R).
    exists p'. eexists. split; [exact E|]. split; [exact R|reflexivity].
Qed.

Lemma v_swap p hb c f i j : view p hb c f -> is_u32 i -> is_u32 j ->
  let b := (i <? zlen c) && (j <? zlen c) in
  exists p', swap_tuples_on_page p ps d i j = Ok (b, p') /\
    if b then exists f', view p' hb (swap_at i j c) f' else p' = p.
Proof.
  intros V Hi Hj b. unfold is_u32 in *. subst b. revert V. lay.
  - intros (es & S & <- & ->). destruct (sl_swap_spec ps d Hps p hb es i j S ltac:(lia) ltac:(lia)) as (p' & E & R).
    rewrite content_len. exists p'. split; [exact E|]. destruct ((i <? zlen es) && (j <? zlen es)); [|exact R].
    eexists. exists (swap_at i j es). split; [exact R|]. split; [|reflexivity]. apply map_swap_at.
  - intros [F ->]. destruct (fa_swap_spec ps d Hps Hdef Ev p hb c i j F ltac:(lia) ltac:(lia)) as (p' & E & R).
    exists p'. split; [exact E|]. destruct ((i <? zlen c) && (j <? zlen c)); [|exact R]. eexists. split; [exact R|reflexivity].
Qed.

Lemma v_compact p hb c f srt : view p hb c f -> sorts srt ->
  exists p', run_page_compaction srt true p ps d = Ok (negb (total_space ps d c + f =? allot (zlen hb)), false, p') /\
    view p' hb c (allot (zlen hb) - total_space ps d c).
Proof.
  intros V Hs. revert V. lay.
  - intros (es & S & <- & ->). destruct (sl_compact_spec ps d Hps srt p hb es Hs S) as (p' & es' & E & R & Ec & Ef).
    exists p'. rewrite total_space_slotted by assumption. unfold frag, sfree in *.
    split. { rewrite E. do 4 f_equal. lia. }
    exists es'. split; [exact R|]. split; [exact Ec|]. rewrite <- (dsum_content _ _ Ec), <- (content_zlen _ _ Ec). lia.
  - intros [F ->]. exists p. rewrite total_space_fixed by assumption. unfold fa_compact. split; [do 4 f_equal; lia|].
    split; [exact F|]. lia.
Qed.
Lemma v_compact_nomem p hb c f srt : view p hb c f ->
  run_page_compaction srt false p ps d = Ok (false, sd_variable d, p).
Proof.
  lay.
  - intros (es & S & _). eapply sl_compact_nomem; eassumption.
  - reflexivity.
Qed.

Lemma v_zero_out p hb c f : view p hb c f ->
  exists p' a, zero_out_free_space_on_page p ps d = Ok (negb (f =? 0), p') /\ view p' hb c f /\
    0 <= a /\ a + f <= ps /\
    (forall o n, 0 <= o -> 0 <= n -> o + n <= ps -> o + n <= a \/ a + f <= o -> slice p' o n = slice p o n) /\
    slice p' a f = repeat Byte.x00 (Z.to_nat f).
Proof.
  pose proof (value_size_range ps). pose proof (zlen_nonneg hb). lay.
  - intros (es & S & <- & ->). destruct (sl_zero_out_spec ps d Hps p hb es S) as (p' & E & R & G1 & G2).
    exists p', (5 * vs + zlen hb + zlen es * vs). split; [exact E|].
    split. { exists es. auto. }
    pose proof (srep_bounds Hps S). split; [lia|]. unfold sfree in *. split; [lia|]. split; [|exact G2].
    intros o n ? ? ? Ho. apply G1; try assumption. lia.
  - intros [F ->]. destruct (fa_zero_out_spec ps d Hps Hdef Ev p hb c F) as (p' & E & R & G1 & G2).
    exists p', (ftup ps (zlen hb) s + zlen c * s). split; [exact E|]. split; [auto|].
    pose proof (fr_free ps d Hps Hdef Ev _ _ _ F). split; [lia|]. split; [lia|]. split; [|exact G2].
    intros o n ? ? ? [?|?]; [apply G1; assumption|].
    destruct (Z.eq_dec n 0) as [->|]; [reflexivity|lia].
Qed.

Lemma v_write_header p hb c f at_ bs : view p hb c f -> 0 <= at_ -> at_ + zlen bs <= zlen hb ->
  exists p', write_page_header p ps at_ bs = Ok p' /\ view p' (upd hb at_ bs) c f.
Proof.
  intros V Ha Hb. assert (Zh : zlen (upd hb at_ bs) = zlen hb) by (apply zlen_upd; pose proof (zlen_nonneg bs); lia). revert V. lay.
  - intros (es & S & <- & ->). destruct (sl_write_header_spec ps d Hps p hb es at_ bs S Ha Hb) as (p' & E & R).
    exists p'. split; [exact E|]. exists es. split; [exact R|]. split; [reflexivity|]. unfold sfree. rewrite Zh. reflexivity.
  - intros [F ->]. destruct (fa_write_header_spec ps d Hps Hdef Ev p hb c at_ bs F Ha Hb) as (p' & E & R).
    exists p'. split; [exact E|]. split; [exact R|]. rewrite Zh. reflexivity.
Qed.
End Page.
