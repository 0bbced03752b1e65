(** * C77: where the tuples of a page lie, and how long a pointer to one stays good

    The specification is PlaceSpec.v; [reachable], [contents], [run_op] are in
    PageSpec.v, [lies] in ImageSpec.v. *)
From Coq Require Import ZifyBool ZifyNat ZifyN Zify.
From Verif Require Import BytesFacts SpecFacts PageReach PageExamples ImageFacts ImageProps UnusedFacts PageElementFacts PlaceFacts PageElementProps TupleExamples.
From Verif Require Import Datum Tuple TupleSpec PageElement.
From Verif Require Import PlaceSpec.
Ltac Zify.zify_post_hook ::= Z.div_mod_to_equations.

Lemma slotted ps h d p c : limits ps h d -> sd_variable d = true -> reachable ps h d p -> contents ps d p = Ok c ->
  exists hb es, srep ps d p hb es /\ content_of es = c /\ zlen hb = h.
Proof.
  intros (Hps & Hh & Hdef) Ev R C. destruct (reach_contents _ _ Hps Hdef _ _ _ Hh R C) as (hb & f & V & Hz).
  unfold view in V. rewrite Ev in V. destruct V as (es & S & E & _). eauto.
Qed.
Lemma reach_slotted ps h d p : limits ps h d -> sd_variable d = true -> reachable ps h d p -> exists hb es, srep ps d p hb es /\ zlen hb = h.
Proof.
  intros (Hps & Hh & Hdef) Ev R. destruct (reach_view _ _ Hps Hdef _ _ Hh R) as (hb & c & f & V & Hz).
  unfold view in V. rewrite Ev in V. destruct V as (es & S & E & _). eauto.
Qed.

(** ** The free space lies between the entries and the lowest tuple *)
Theorem C77_free_space : forall ps h d p l, limits ps h d -> sd_variable d = true -> reachable ps h d p -> places_are ps d p l ->
  exists a, get_space_allotted_to_all_tuples_on_page p ps d = Ok a
  /\ get_free_space_on_page p ps d = Ok (lowest ps l - (ps - a + zlen l * get_additional_space_overhead_per_tuple_on_page ps d)).
Proof.
  intros ps h d p l L Ev R P. destruct (reach_slotted _ _ _ _ L Ev R) as (hb & es & S & Hz). destruct L as (Hps & Hh & Hdef).
  apply (places_srep ps d Hps Ev _ _ _ _ S) in P. subst l. rewrite lowest_place, zlen_place.
  unfold get_space_allotted_to_all_tuples_on_page, get_free_space_on_page, get_additional_space_overhead_per_tuple_on_page, get_page_layout_type, is_variable_sized. rewrite Ev.
  eexists. split; [exact (s_space_allotted Hps S)|]. rewrite (s_free Hps S). unfold sfree, sl_overhead. f_equal. lia.
Qed.
Print Assumptions C77_free_space.
Definition vl : list place := [None; Some 74; Some 108; Some 71; None].
Lemma vp_places : places_are 128 vd vp vl.
Proof.
  split; [reflexivity|]. change (zlen vl) with 5. intros i Hi. assert (i = 0 \/ i = 1 \/ i = 2 \/ i = 3 \/ i = 4) as [->|[->|[->|[->| ->]]]] by lia; vm_compute; reflexivity.
Qed.
Example C77_free_space_ex : places_are 128 vd vp vl /\ lowest 128 vl = 71 /\ get_free_space_on_page vp 128 vd = Ok (71 - (15 + 5 * 1)).
Proof. split; [exact vp_places|]. split; reflexivity. Qed.

(** ** What every operation does to the places, and whether it succeeds *)
Theorem C77_places : forall ps h d p c l f op, limits ps h d -> sd_variable d = true -> reachable ps h d p ->
  contents ps d p = Ok c -> places_are ps d p l -> get_free_space_on_page p ps d = Ok f -> op_ok h d op ->
  exists r p', run_op ps d op p = Ok (r, p')
  /\ (can_fail op = true -> fst r = b2n (succeeds ps d f c l op))
  /\ places_are ps d p' (if succeeds ps d f c l op then places_after ps c op l else l).
Proof.
  intros ps h d p c l f op L Ev R C P F Ho. destruct (slotted _ _ _ _ _ L Ev R C) as (hb & es & S & <- & <-). destruct L as (Hps & Hh & Hdef).
  apply (places_srep ps d Hps Ev _ _ _ _ S) in P. subst l.
  unfold get_free_space_on_page, get_page_layout_type, is_variable_sized in F. rewrite Ev, (s_free Hps S) in F. injection F as <-.
  destruct (machine ps d Hps Hdef Ev p hb es op S Ho) as (r & p' & hb' & es' & E & A & S' & Q). exists r, p'. split; [exact E|]. split; [exact A|].
  apply (places_srep ps d Hps Ev _ _ _ _ S'). symmetry. exact Q.
Qed.
Print Assumptions C77_places.
(* the tuple of entry 3 lies lowest: it may grow into the free space, that of entry 1 only stay or be put elsewhere *)
Example C77_places_ex :
  map (fun op => (succeeds 128 vd 51 vc vl op, places_after 128 vc op vl))
    [Update 1 (Some (vt 54 Byte.x67)); Update 1 (Some (vt 50 Byte.x67)); Update 1 (Some (vt 31 Byte.x67)); Update 3 (Some (vt 54 Byte.x67)); Insert 2 (Some (vt 50 Byte.x67)); Compact isort true]
  = [(false, [None; Some 17; Some 108; Some 71; None]); (true, [None; Some 21; Some 108; Some 71; None]); (true, vl);
     (true, [None; Some 74; Some 108; Some 20; None]); (true, [None; Some 74; Some 21; Some 108; Some 71; None]); (true, [None; Some 85; Some 116; Some 82; None])]
  /\ exists r p', run_op 128 vd (Update 3 (Some (vt 54 Byte.x67))) vp = Ok (r, p') /\ fst r = 1 /\ places_are 128 vd p' [None; Some 74; Some 108; Some 20; None].
Proof.
  split; [vm_compute; reflexivity|]. destruct v_reachable as [R C].
  destruct (C77_places 128 10 vd vp vc vl 51 (Update 3 (Some (vt 54 Byte.x67))) v_limits eq_refl R C vp_places) as (r & p' & E & A & P); [vm_compute; reflexivity|split; [unfold is_u32; lia|apply vt_ok; lia]|].
  exists r, p'. split; [exact E|]. split; [exact (A eq_refl)|exact P].
Qed.

(** every page has its list of places, so that these theorems apply to it *)
Theorem C77_have_places : forall ps h d p, limits ps h d -> reachable ps h d p -> exists l, places_are ps d p l /\ forall l', places_are ps d p l' -> l' = l.
Proof.
  intros ps h d p (Hps & Hh & Hdef) R. destruct (reach_view _ _ Hps Hdef _ _ Hh R) as (hb & c & f & V & Hz).
  set (g := fun n => match get_nth_tuple_on_page p ps d (Z.of_nat n) with Ok x => x | UB => None end).
  assert (L : zlen (map g (seq 0 (length c))) = zlen c) by (unfold zlen; rewrite map_length, seq_length; reflexivity).
  assert (U : places_are ps d p (map g (seq 0 (length c)))).
  { split; [rewrite L; exact (v_count ps d Hps Hdef _ _ _ _ V)|]. intros i Hi. rewrite L in Hi. pose proof Hi as Hi'. unfold zlen in Hi'.
    rewrite (nth_indep _ None (g 0%nat)) by (rewrite map_length, seq_length; lia). rewrite map_nth, seq_nth by lia. unfold g. replace (Z.of_nat (0 + Z.to_nat i)) with i by lia.
    destruct (v_get_nth ps d Hps Hdef _ _ _ _ i V ltac:(lia)) as (x & E & _). rewrite E. reflexivity. }
  exists (map g (seq 0 (length c))). split; [exact U|]. intros l' [A B]. destruct U as [A' B']. rewrite A in A'. injection A' as A'.
  apply (nth_ext _ _ None None); [unfold zlen in *; lia|]. intros n Hn. specialize (B (Z.of_nat n)). specialize (B' (Z.of_nat n)). rewrite Nat2Z.id in *.
  assert (N : 0 <= Z.of_nat n < zlen l') by (unfold zlen; lia). specialize (B N). rewrite B' in B by lia. congruence.
Qed.
Print Assumptions C77_have_places.
Example C77_have_places_ex : exists l, places_are 128 fd fp l /\ zlen l = 4.
Proof.
  destruct (C77_have_places 128 20 fd fp f_limits (proj1 f_reachable)) as (l & P & _). exists l. split; [exact P|]. destruct P as [P _]. vm_compute in P. injection P as P. symmetry. exact P.
Qed.

(** ** A pointer stays good until its tuple is replaced or removed, or the page
    is compacted: the tuple is then found at the same place, with the same
    bytes, whatever happened to other entries *)
Theorem C77_pointer_stays : forall ps h d p op r p' i o t i', limits ps h d -> sd_variable d = true -> reachable ps h d p -> op_ok h d op ->
  run_op ps d op p = Ok (r, p') -> is_u32 i -> lies ps d p i o -> read_entry ps d p i = Ok (Some t) ->
  (if can_fail op && (fst r =? 0) then Some i else goes_to op i) = Some i' ->
  lies ps d p' i' o /\ read_entry ps d p' i' = Ok (Some t) /\ slice p' o (zlen t) = t.
Proof.
  intros ps h d p op r p' i o t i' L Ev R Ho E Hi Hl Ht G. pose proof L as (Hps & Hh & Hdef).
  assert (Main : forall q hb es k, srep ps d q hb es -> 0 <= k -> nth (Z.to_nat k) es None = Some (o, t) ->
    lies ps d q k o /\ read_entry ps d q k = Ok (Some t) /\ slice q o (zlen t) = t).
  { intros q hb es k S Hk N. assert (In (Some (o, t)) es) as Hin.
    { rewrite <- N. apply nth_In. destruct (Nat.lt_ge_cases (Z.to_nat k) (length es)); [assumption|]. rewrite nth_overflow in N by assumption. discriminate. }
    assert (Z.to_nat k < length es)%nat by (destruct (Nat.lt_ge_cases (Z.to_nat k) (length es)); [assumption|]; rewrite nth_overflow in N by assumption; discriminate).
    assert (GN : get_nth_tuple_on_page q ps d k = Ok (Some o)).
    { unfold get_nth_tuple_on_page, get_page_layout_type, is_variable_sized. rewrite Ev, (s_get_nth Hps S), N by lia. destruct (Z.ltb_spec k (zlen es)); [reflexivity|unfold zlen in *; lia]. }
    destruct (entry_pos Hps S Hin) as (P1 & P2 & P3 & P4 & P5 & P6).
    split; [exact GN|]. split; [|exact P4]. assert (V : view ps d q hb (content_of es) (sfree ps hb es)) by (unfold view; rewrite Ev; exists es; auto).
    rewrite (v_entry ps d Hps Hdef _ _ _ _ k V) by (rewrite content_len; unfold zlen; lia). rewrite nth_content, N. reflexivity. }
  destruct (reach_slotted _ _ _ _ L Ev R) as (hb & es & S & <-). unfold is_u32 in Hi.
  assert (N : nth (Z.to_nat i) es None = Some (o, t)).
  { unfold lies, get_nth_tuple_on_page, get_page_layout_type, is_variable_sized in Hl. rewrite Ev, (s_get_nth Hps S) in Hl by lia. destruct (Z.ltb_spec i (zlen es)); [|discriminate].
    assert (V : view ps d p hb (content_of es) (sfree ps hb es)) by (unfold view; rewrite Ev; exists es; auto).
    rewrite (v_entry ps d Hps Hdef _ _ _ _ i V), nth_content in Ht by (rewrite content_len; lia). injection Hl as Hl. injection Ht as Ht.
    destruct (nth (Z.to_nat i) es None) as [[o1 t1]|]; cbn in *; congruence. }
  assert (Hlt : i < zlen es) by (destruct (Z.ltb_spec i (zlen es)); [assumption|]; rewrite nth_overflow in N by (unfold zlen in *; lia); discriminate).
  unfold run_op, append_tuple_on_page, insert_tuple_on_page, update_tuple_on_page, discard_tuple_on_page, discard_all_tuples_on_page,
    discard_trailing_tomb_stones_on_page, swap_tuples_on_page, run_page_compaction, zero_out_free_space_on_page, get_page_layout_type, is_variable_sized, answer_of in E. rewrite Ev in E.
  destruct op as [x|j x|j x|j| | |j k|srt ok| |at_ bs]; cbn [op_ok can_fail goes_to] in *.
  - destruct (sl_append_spec ps d Hps Hdef p hb es x S Ho) as (q & E1 & R1). rewrite E1 in E. cbn [bind] in E. injection E as <- <-.
    destruct (value_size ps + xlen x <=? sfree ps hb es); cbn in G; injection G as <-.
    + destruct R1 as (e & _ & R1 & _). apply (Main _ _ _ _ R1); [lia|]. rewrite app_nth1 by (unfold zlen in Hlt; lia). exact N.
    + subst. apply (Main _ _ _ _ S); [lia|exact N].
  - destruct Ho as [Hj Hx]. destruct (sl_insert_spec ps d Hps Hdef p hb es j x S Hx Hj) as (q & E1 & R1). rewrite E1 in E. cbn [bind] in E. injection E as <- <-. unfold is_u32 in Hj.
    destruct ((j <=? zlen es) && _) eqn:B; cbn in G; injection G as <-.
    + destruct R1 as (e & _ & R1 & _). apply (Main _ _ _ _ R1); [destruct (j <=? i); lia|]. rewrite nth_insert_at by (destruct (j <=? i); lia).
      destruct (Z.leb_spec j i).
      * destruct (Z.ltb_spec (i + 1) j); [lia|]. destruct (Z.eqb_spec (i + 1) j); [lia|]. replace (i + 1 - 1) with i by lia. exact N.
      * destruct (Z.ltb_spec i j); [exact N|lia].
    + subst. apply (Main _ _ _ _ S); [lia|exact N].
  - destruct Ho as [Hj Hx]. unfold is_u32 in Hj. destruct (sl_update_places ps d Hps Hdef p hb es j x S Hx ltac:(lia)) as (q & E1 & R1). rewrite E1 in E. cbn [bind] in E. injection E as <- <-.
    destruct (can_upd ps hb es j x) eqn:C; cbn in G.
    + destruct (Z.eqb_spec i j); [discriminate|]. injection G as <-. apply (Main _ _ _ _ R1); [lia|].
      assert (j < zlen es) by (unfold can_upd in C; destruct (Z.leb_spec (zlen es) j); [discriminate|lia]). rewrite nth_replace_at by lia. destruct (Z.eqb_spec i j); [lia|exact N].
    + injection G as <-. subst. apply (Main _ _ _ _ S); [lia|exact N].
  - unfold is_u32 in Ho. destruct (sl_discard_spec ps d Hps p hb es j S ltac:(lia)) as (q & E1 & R1). rewrite E1 in E. cbn [bind] in E. injection E as <- <-.
    destruct (Z.ltb_spec j (zlen es)); cbn in G.
    + destruct (Z.eqb_spec i j); [discriminate|]. injection G as <-. apply (Main _ _ _ _ R1); [destruct (Z.ltb_spec j i); lia|]. rewrite nth_remove_at by (destruct (Z.ltb_spec j i); lia).
      destruct (Z.ltb_spec j i); [destruct (Z.ltb_spec (i - 1) j); [lia|]; replace (i - 1 + 1) with i by lia; exact N|destruct (Z.ltb_spec i j); [exact N|lia]].
    + injection G as <-. subst. apply (Main _ _ _ _ S); [lia|exact N].
  - discriminate.
  - destruct (sl_discard_trailing_spec ps d Hps p hb es S) as (q & E1 & R1). rewrite E1 in E. cbn [bind] in E. injection E as <- <-. injection G as <-. apply (Main _ _ _ _ R1); [lia|].
    destruct (strip_split es) as (k & Ek). rewrite Ek in N. destruct (Nat.lt_ge_cases (Z.to_nat i) (length (strip es))) as [A|A].
    + rewrite app_nth1 in N by exact A. exact N.
    + rewrite app_nth2 in N by exact A. destruct (nth_in_or_default (Z.to_nat i - length (strip es)) (repeat (@None (Z * list byte)) k) None) as [B|B]; [apply repeat_spec in B|]; congruence.
  - destruct Ho as [Hj Hk]. unfold is_u32 in *. destruct (sl_swap_spec ps d Hps p hb es j k S ltac:(lia) ltac:(lia)) as (q & E1 & R1). rewrite E1 in E. cbn [bind] in E. injection E as <- <-.
    destruct ((j <? zlen es) && (k <? zlen es)) eqn:B; cbn in G; injection G as <-.
    + assert (0 <= (if i =? j then k else if i =? k then j else i)) by (destruct (i =? j); [lia|]; destruct (i =? k); lia).
      apply (Main _ _ _ _ R1); [assumption|]. rewrite nth_swap_at by (try assumption; lia).
      destruct (Z.eqb_spec i j) as [Q1|Q1]; [|destruct (Z.eqb_spec i k) as [Q2|Q2]].
      * subst j. destruct (Z.eqb_spec k i) as [Q|Q]; [rewrite Q; exact N|]. rewrite Z.eqb_refl. exact N.
      * subst k. rewrite Z.eqb_refl. exact N.
      * destruct (Z.eqb_spec i j); [lia|]. destruct (Z.eqb_spec i k); [lia|]. exact N.
    + subst. apply (Main _ _ _ _ S); [lia|exact N].
  - discriminate.
  - destruct (sl_zero_out_spec ps d Hps p hb es S) as (q & E1 & R1 & _). rewrite E1 in E. cbn [bind] in E. injection E as <- <-. injection G as <-. apply (Main _ _ _ _ R1); [lia|exact N].
  - destruct Ho as [Ha Hb]. destruct (sl_write_header_spec ps d Hps p hb es at_ bs S Ha Hb) as (q & E1 & R1). rewrite E1 in E. cbn [bind] in E. injection E as <- <-. injection G as <-. apply (Main _ _ _ _ R1); [lia|exact N].
Qed.
Print Assumptions C77_pointer_stays.
(* another entry is put before it: the tuple of entry 2 is now that of entry 3, where it was *)
Example C77_pointer_stays_ex : exists r p', run_op 128 vd (Insert 1 (Some (vt 40 Byte.x67))) vp = Ok (r, p') /\ lies 128 vd vp 2 108
  /\ lies 128 vd p' 3 108 /\ read_entry 128 vd p' 3 = Ok (Some (vt 12 Byte.x64)).
Proof.
  destruct v_reachable as [R C]. assert (O : op_ok 10 vd (Insert 1 (Some (vt 40 Byte.x67)))) by (split; [unfold is_u32; lia|apply vt_ok; lia]).
  destruct (run_op 128 vd (Insert 1 (Some (vt 40 Byte.x67))) vp) as [[r p']|] eqn:E; [|vm_compute in E; discriminate]. exists r, p'. split; [reflexivity|]. split; [reflexivity|].
  destruct (C77_pointer_stays 128 10 vd vp _ r p' 2 108 (vt 12 Byte.x64) 3 v_limits eq_refl R O E) as (A & B & _); [unfold is_u32; lia|reflexivity|reflexivity| |auto].
  vm_compute in E. injection E as <- _. reflexivity.
Qed.

(** setting an element of an entry where it lies moves no tuple *)
Theorem C77_in_place : forall ps h d p l ty t i pa v r p', limits ps h d -> sd_variable d = true -> reachable ps h d p -> places_are ps d p l ->
  in_place_ok ps d p ty t i pa v -> set_element_in_place p ps t d i pa v = Ok (r, p') -> places_are ps d p' l.
Proof.
  intros ps h d p l ty t i pa v r p' L Ev R P (TB & FIN & [d0 SD] & Hi & PO & FT & DP & HD) E. unfold is_u32 in Hi. destruct (reach_slotted _ _ _ _ L Ev R) as (hb & es & S & <-). destruct L as (Hps & Hh & Hdef).
  unfold set_element_in_place, get_page_layout_type, is_variable_sized in E. rewrite Ev in E.
  destruct (nth (Z.to_nat i) es None) as [[o x]|] eqn:En.
  - assert (Hlt : i < zlen es).
    { destruct (Z.ltb_spec i (zlen es)); [assumption|]. rewrite nth_overflow in En by (unfold zlen in *; lia). discriminate. }
    destruct (split_at es i None ltac:(lia)) as (l1 & l2 & Es & Z1 & _ & _). rewrite En in Es.
    assert (Hin : In (Some (o, x)) es) by (rewrite Es; apply in_or_app; right; left; reflexivity).
    destruct (entry_pos Hps S Hin) as (P1 & P2 & P3 & P4 & P5 & P6).
    assert (DA : data_at t x 0).
    { apply HD. assert (V : view ps d p hb (content_of es) (sfree ps hb es)) by (unfold view; rewrite Ev; exists es; auto).
      rewrite (v_entry ps d Hps Hdef _ _ _ _ i V) by (rewrite content_len; lia). rewrite nth_content, En. reflexivity. }
    destruct (entry_set ps d0 d ty t Hdef TB FIN SD x pa v P5 DA PO FT DP) as (r1 & b & n & ES & CS & Lb & GS & Ln & TOK & DS & _).
    apply (places_srep ps d Hps Ev _ _ _ _ S) in P. rewrite Es in S, P.
    destruct (sl_set_one ps d Hps t pa v r1 b n i o x l1 l2 p hb ES CS Lb Ln TOK S Z1) as (q & E1 & R1). rewrite E1 in E. injection E as -> ->.
    apply (places_srep ps d Hps Ev _ _ _ _ R1). rewrite P. destruct r; [|reflexivity]. unfold place_of. rewrite !map_app. reflexivity.
  - unfold sl_set_in_place in E. rewrite (s_get_nth Hps S), En in E by lia. cbn [bind option_map] in E. destruct (i <? zlen es); cbn [bind] in E; injection E as _ <-; exact P.
Qed.
Print Assumptions C77_in_place.
Example C77_in_place_ex : exists l, places_are 128 exs esp l /\ places_are 128 exs esp' l /\ zlen l = 3.
Proof.
  destruct esp_reachable as [L R]. destruct (C77_have_places _ _ _ _ L R) as (l & P & _). exists l. split; [exact P|]. split.
  - exact (C77_in_place _ _ _ _ _ _ _ _ _ _ _ _ L eq_refl R P esp_in_place_ok (proj1 C38_slotted_case)).
  - destruct P as [P _]. vm_compute in P. injection P as P. symmetry. exact P.
Qed.

(** ** In a fixed array the index of an entry says where it lies *)
Theorem C77_fixed : forall ps h d p i o, limits ps h d -> sd_variable d = false -> reachable ps h d p -> is_u32 i -> lies ps d p i o ->
  get_space_allotted_to_all_tuples_on_page p ps d = Ok (ps - (o - i * sd_size d)).
Proof.
  intros ps h d p i o (Hps & Hh & Hdef) Ev R Hi Hl. destruct (reach_view _ _ Hps Hdef _ _ Hh R) as (hb & c & f & V & Hz). unfold is_u32 in Hi.
  unfold view in V. rewrite Ev in V. destruct V as [F _].
  unfold lies, get_nth_tuple_on_page, get_page_layout_type, is_variable_sized in Hl. rewrite Ev in Hl. destruct (fr_get_nth ps d Hps Hdef Ev p hb c i F ltac:(lia)) as [G _]. rewrite G in Hl.
  unfold get_space_allotted_to_all_tuples_on_page, get_page_layout_type, is_variable_sized. rewrite Ev. rewrite (fr_allotted ps d Hps Hdef Ev p hb c F).
  destruct (i <? zlen c); [|discriminate]. destruct (nth (Z.to_nat i) c None); [|discriminate]. injection Hl as <-. f_equal. lia.
Qed.
Print Assumptions C77_fixed.
Example C77_fixed_ex : lies 128 fd fp 2 56 /\ get_space_allotted_to_all_tuples_on_page fp 128 fd = Ok (128 - (56 - 2 * 16)).
Proof. split; [reflexivity|]. apply (C77_fixed 128 20 fd fp 2 56 f_limits eq_refl (proj1 f_reachable)); [unfold is_u32; lia|reflexivity]. Qed.
