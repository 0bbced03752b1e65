(** * C74: the page header on its own, and the space of one tuple

    [header] in PageSpec.v is the bytes that [get_page_header] points to, as
    many as [get_page_header_size] says. *)
From Coq Require Import ZifyBool ZifyNat ZifyN Zify.
From Verif Require Import BytesFacts SpecFacts PageReach PageFacts PageExamples PageSpec.
Ltac Zify.zify_post_hook ::= idtac.
Open Scope Z_scope.

(** the arguments are 32 bit integers, and so is their space on the page *)
Definition header_args (ps h : Z) : Prop := is_u32 ps /\ is_u32 h /\ is_u32 (value_size ps + h).

(** the header fits exactly when it ends on the page; the space required is what
    lies before its end *)
Theorem C74_fits ps h : header_args ps h ->
  get_space_required_for_page_header h ps = get_page_header ps + h
  /\ (can_page_header_fit_on_page h ps = true <-> get_page_header ps + h <= ps).
Proof.
  intros (Hp & Hh & Hs). unfold can_page_header_fit_on_page, get_space_required_for_page_header, get_page_header, is_u32 in *. rewrite u32_id by lia. lia.
Qed.
Print Assumptions C74_fits.

(** initialising a header *)
Theorem C74_init ps h p : header_args ps h -> zlen p = ps ->
  exists p', init_page_header p ps h = Ok (can_page_header_fit_on_page h ps, p') /\ zlen p' = ps
  /\ if can_page_header_fit_on_page h ps
     then header ps p' = Ok (repeat Byte.x00 (Z.to_nat h)) /\ get_page_header_size p' ps = Ok h
       /\ offset_end_of_header p' ps = Ok (get_space_required_for_page_header h ps)
       /\ forall a n, get_space_required_for_page_header h ps <= a -> 0 <= n -> a + n <= ps -> slice p' a n = slice p a n
     else p' = p.
Proof.
  intros A L. destruct (C74_fits ps h A) as [S F]. destruct A as (Hp & Hh & Hs). unfold is_u32, get_page_header in *. pose proof (value_size_range ps) as V.
  unfold init_page_header. rewrite u32_id by lia. destruct (Z.ltb_spec ps (value_size ps + h)) as [Lt|Ge].
  - exists p. destruct (can_page_header_fit_on_page h ps); [exfalso; specialize (proj1 F eq_refl); lia|]. auto.
  - destruct (can_page_header_fit_on_page h ps); [|exfalso; specialize (proj2 F Ge); discriminate]. rewrite S.
    assert (Le : zlen (enc (Z.to_nat (value_size ps)) h) = value_size ps) by (rewrite zlen_enc; lia).
    assert (Lr : zlen (repeat Byte.x00 (Z.to_nat h)) = h) by (rewrite zlen_repeat; lia).
    unfold write_value. rewrite wr_ok by lia. cbn [bind]. set (p1 := upd p 0 _). assert (L1 : zlen p1 = ps) by (unfold p1; rewrite zlen_upd; lia).
    rewrite memset_ok by lia. cbn [bind]. eexists. split; [reflexivity|]. set (p2 := upd p1 _ _). assert (L2 : zlen p2 = ps) by (unfold p2; rewrite zlen_upd; lia).
    assert (E0 : get_page_header_size p2 ps = Ok h).
    { unfold get_page_header_size, read_value. rewrite rd_ok by lia. cbn [bind]. f_equal. unfold p2. rewrite slice_upd_dis by lia. unfold p1. rewrite (slice_upd_same' _ _ _ (value_size ps)) by lia.
      pose proof (value_size_enough ps ltac:(lia)). rewrite dec_enc_id; [reflexivity|]. rewrite Z2Nat.id by lia. lia. }
    split; [exact L2|]. split; [|split; [exact E0|split]].
    + unfold header. rewrite E0. cbn [bind]. unfold get_page_header. rewrite rd_ok by lia. f_equal. unfold p2. apply slice_upd_same'; lia.
    + unfold offset_end_of_header. rewrite E0. cbn [bind]. rewrite u32_id by lia. reflexivity.
    + intros a n Ha Hn Hb. unfold p2. rewrite slice_upd_dis by lia. unfold p1. rewrite slice_upd_dis by lia. reflexivity.
Qed.
Print Assumptions C74_init.

(** any page with a header *)
Lemma header_view ps p hb : is_u32 ps -> zlen p = ps -> header ps p = Ok hb ->
  get_page_header_size p ps = Ok (zlen hb) /\ value_size ps + zlen hb <= ps /\ hb = slice p (value_size ps) (zlen hb).
Proof.
  intros Hp L E. unfold header in E. apply bind_inv in E as (n & En & E). apply rd_inv in E as (_ & Hn & Hb & ->). unfold get_page_header in *. pose proof (value_size_range ps).
  rewrite zlen_slice by lia. split; [exact En|]. split; [lia|reflexivity].
Qed.
Lemma header_unchanged ps p p' hb : is_u32 ps -> zlen p = ps -> zlen p' = ps -> header ps p = Ok hb -> slice p' 0 (value_size ps) = slice p 0 (value_size ps) ->
  get_page_header_size p' ps = Ok (zlen hb).
Proof.
  intros Hp L L' E S. destruct (header_view ps p hb Hp L E) as (En & Hb & _). pose proof (value_size_range ps). pose proof (zlen_nonneg hb).
  rewrite <- En. unfold get_page_header_size, read_value. rewrite !rd_ok by lia. rewrite S. reflexivity.
Qed.
(** where the header and the data section are *)
Theorem C74_where ps p hb : is_u32 ps -> zlen p = ps -> header ps p = Ok hb ->
  header_args ps (zlen hb) /\ can_page_header_fit_on_page (zlen hb) ps = true /\ get_page_header_size p ps = Ok (zlen hb)
  /\ offset_end_of_header p ps = Ok (get_space_required_for_page_header (zlen hb) ps).
Proof.
  intros Hp L E. destruct (header_view ps p hb Hp L E) as (En & Hb & _). pose proof (value_size_range ps). pose proof (zlen_nonneg hb).
  assert (A : header_args ps (zlen hb)) by (unfold header_args, is_u32 in *; lia). destruct (C74_fits _ _ A) as [S F]. split; [exact A|]. split; [apply F; exact Hb|]. split; [exact En|].
  unfold offset_end_of_header. rewrite En. cbn [bind]. rewrite S. unfold get_page_header, is_u32 in *. rewrite u32_id by lia. reflexivity.
Qed.
Print Assumptions C74_where.
(** writing to the header changes these bytes of it and nothing else *)
Theorem C74_write_header ps p hb at_ bs : is_u32 ps -> zlen p = ps -> header ps p = Ok hb -> 0 <= at_ -> at_ + zlen bs <= zlen hb ->
  exists p', write_page_header p ps at_ bs = Ok p' /\ zlen p' = ps /\ header ps p' = Ok (upd hb at_ bs)
  /\ forall a n, get_space_required_for_page_header (zlen hb) ps <= a -> 0 <= n -> a + n <= ps -> slice p' a n = slice p a n.
Proof.
  intros Hp L E Ha Hb. destruct (header_view ps p hb Hp L E) as (En & Hl & Hs). pose proof (value_size_range ps) as V. pose proof (zlen_nonneg hb). pose proof (zlen_nonneg bs).
  destruct (C74_where ps p hb Hp L E) as (A & _). destruct (C74_fits _ _ A) as [S _]. rewrite S. unfold write_page_header, get_page_header in *. rewrite wr_ok by lia.
  eexists. split; [reflexivity|]. set (p' := upd p _ _). assert (L' : zlen p' = ps) by (unfold p'; rewrite zlen_upd; lia). split; [exact L'|]. split.
  - unfold header. rewrite (header_unchanged ps p p' hb Hp L L' E) by (unfold p'; rewrite slice_upd_dis by lia; reflexivity). cbn [bind]. unfold get_page_header. rewrite rd_ok by lia. f_equal.
    apply list_eq_nth; [rewrite zlen_slice, zlen_upd by lia; reflexivity|]. rewrite zlen_slice by lia. intros x k Hk. rewrite nth_slice by lia. unfold p'. rewrite !nth_upd by lia.
    replace ((value_size ps + at_ <=? value_size ps + k) && (value_size ps + k <? value_size ps + at_ + zlen bs)) with ((at_ <=? k) && (k <? at_ + zlen bs)) by lia.
    destruct ((at_ <=? k) && (k <? at_ + zlen bs)); [f_equal; lia|]. rewrite Hs at 1. rewrite nth_slice by lia. reflexivity.
  - intros a n Ha' Hn Hb'. unfold p'. rewrite slice_upd_dis by lia. reflexivity.
Qed.
Print Assumptions C74_write_header.
(** writing behind the header does not change it *)
Theorem C74_write_behind ps p hb a bs p' : is_u32 ps -> zlen p = ps -> header ps p = Ok hb -> get_space_required_for_page_header (zlen hb) ps <= a -> wr p a bs = Ok p' ->
  header ps p' = Ok hb /\ zlen p' = ps.
Proof.
  intros Hp L E Ha W. destruct (header_view ps p hb Hp L E) as (En & Hl & Hs). pose proof (value_size_range ps) as V. pose proof (zlen_nonneg hb). pose proof (zlen_nonneg bs).
  destruct (C74_where ps p hb Hp L E) as (A & _). destruct (C74_fits _ _ A) as [S _]. rewrite S in Ha. unfold get_page_header in *. apply wr_inv in W as (W1 & W2 & ->).
  assert (L' : zlen (upd p a bs) = ps) by (rewrite zlen_upd; lia). split; [|exact L']. unfold header.
  rewrite (header_unchanged ps p _ hb Hp L L' E) by (rewrite slice_upd_dis by lia; reflexivity). cbn [bind]. unfold get_page_header. rewrite rd_ok by lia. rewrite slice_upd_dis by lia. rewrite Hs at 2. reflexivity.
Qed.
Print Assumptions C74_write_behind.
(** pages of tuples: the header has the size given to [init_page], fits, and all
    tuples lie behind its end *)
Theorem C74_page ps h d p i : limits ps h d -> reachable ps h d p -> is_u32 i ->
  can_page_header_fit_on_page h ps = true /\ get_page_header_size p ps = Ok h /\ offset_end_of_header p ps = Ok (get_space_required_for_page_header h ps)
  /\ exists x, get_nth_tuple_on_page p ps d i = Ok x /\ match x with Some o => get_space_required_for_page_header h ps <= o | None => True end.
Proof.
  intros (Hps & Hh & Hdef) R Hi. destruct (reach_view _ _ Hps Hdef _ _ Hh R) as (hb & c & f & V & Hz). pose proof (v_header ps d Hps Hdef _ _ _ _ V) as E. pose proof (view_len ps d Hps _ _ _ _ V) as L.
  pose proof (eq_refl : max_bytes = 2147483520) as MB. assert (Hp : is_u32 ps) by (unfold is_u32; lia). destruct (C74_where ps p hb Hp L E) as (A & F & S & O). rewrite Hz in *. split; [exact F|]. split; [exact S|]. split; [exact O|].
  destruct (v_get_nth ps d Hps Hdef _ _ _ _ i V ltac:(unfold is_u32 in Hi; lia)) as (x & G & X). exists x. split; [exact G|]. destruct x as [o|]; [|exact I]. destruct X as (_ & t & _ & _ & _ & B & _).
  destruct (C74_fits _ _ A) as [-> _]. unfold get_page_header. rewrite Hz in B. exact B.
Qed.
Print Assumptions C74_page.

(** the sum of the sizes is a 32 bit sum: a header of nearly 4 GB is said to fit
    on any page, and initialising it writes behind the page *)
Theorem C74_refuted_wrap : exists ps h p, is_u32 ps /\ is_u32 h /\ ps < h /\ zlen p = ps /\ can_page_header_fit_on_page h ps = true /\ init_page_header p ps h = UB.
Proof.
  exists 128, 4294967295, (repeat Byte.x00 128). unfold is_u32. split; [lia|]. split; [lia|]. split; [lia|]. split; [reflexivity|]. split; [reflexivity|].
  unfold init_page_header. change (128 <? u32 (value_size 128 + 4294967295)) with false. cbv iota.
  change (write_value (repeat Byte.x00 128) 0 128 4294967295) with (Ok (upd (repeat Byte.x00 128) 0 (enc 1 4294967295))). cbn [bind]. unfold memset. change (0 <=? 4294967295) with true. cbv iota.
  unfold wr. rewrite zlen_repeat. change (zlen (upd (repeat Byte.x00 128) 0 (enc 1 4294967295))) with 128. change (value_size 128) with 1. rewrite Z2Nat.id by lia. reflexivity.
Qed.
Print Assumptions C74_refuted_wrap.

(** a page of 300 bytes with a header of 20 *)
Definition hp : mem := Eval vm_compute in (match init_page_header (repeat Byte.xff 300) 300 20 with Ok (_, p) => p | UB => [] end).
Definition hp2 : mem := Eval vm_compute in (match write_page_header hp 300 5 (repeat Byte.x61 15) with Ok p => p | UB => [] end).
Example C74_case : header_args 300 20 /\ zlen (repeat Byte.xff 300) = 300 /\ can_page_header_fit_on_page 20 300 = true /\ can_page_header_fit_on_page 298 300 = true
  /\ can_page_header_fit_on_page 299 300 = false /\ get_space_required_for_page_header 20 300 = 22 /\ header 300 hp2 = Ok (repeat Byte.x00 5 ++ repeat Byte.x61 15) /\ slice hp2 22 278 = repeat Byte.xff 278.
Proof. unfold header_args, is_u32. repeat split; try reflexivity; vm_compute; discriminate. Qed.

(** ** C16: the space of one tuple is its size and the overhead *)
Theorem C16_overhead ps d t : 128 <= ps <= max_bytes -> def_ok d -> tuple_ok d t ->
  get_space_to_be_occupied_by_tuple_on_page ps d (Some t) = Ok (zlen t + get_additional_space_overhead_per_tuple_on_page ps d)
  /\ (sd_variable d = true -> get_space_to_be_occupied_by_tuple_on_page ps d None = Ok (get_additional_space_overhead_per_tuple_on_page ps d)).
Proof.
  intros Hps Hdef Ht. rewrite (v_to_be_occupied ps d Hdef (Some t) Ht), (v_to_be_occupied ps d Hdef None I).
  unfold entry_space, get_additional_space_overhead_per_tuple_on_page, get_page_layout_type, is_variable_sized, sl_overhead, fa_overhead. destruct (sd_variable d) eqn:Ev; cbn [xlen].
  - split; [|intros _]; f_equal; lia.
  - split; [|discriminate]. f_equal. destruct Ht as [Ht _]. unfold tuple_size in Ht. rewrite Ev in Ht. cbn in Ht. injection Ht as Ht. lia.
Qed.
Print Assumptions C16_overhead.
Example C16_overhead_case : tuple_ok vd (vt 3 Byte.x66) /\ get_additional_space_overhead_per_tuple_on_page 128 vd = 1
  /\ get_space_to_be_occupied_by_tuple_on_page 128 vd (Some (vt 3 Byte.x66)) = Ok (zlen (vt 3 Byte.x66) + 1).
Proof. split; [apply vt_ok; lia|]. split; vm_compute; reflexivity. Qed.
