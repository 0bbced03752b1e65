(** * C36, C55: the limits under which expanding is proved to work are needed

    [expand_limits] is in TupleSpec.v, [expanded_size], the size that the larger
    container must have, in SuccessSpec.v. *)
From Verif Require Import SuccessFacts TupleExamples SizeProps TupleProps SuccessProps.
From Coq Require Import ZifyBool ZifyNat ZifyN Zify.
Ltac Zify.zify_post_hook ::= Z.div_mod_to_equations.
Open Scope list_scope.
Open Scope Z_scope.

Lemma wide_move m o a k : 64 < k -> get_bits m o a (a + k - 1) = UB.
Proof. intro K. unfold get_bits. replace (a + k - 1 - a <? 64) with false by lia. rewrite andb_false_r. reflexivity. Qed.
Lemma wide_clear m o a k v : 64 < k -> set_bits m o a (a + k - 1) v = UB.
Proof. intro K. unfold set_bits. replace (a + k - 1 - a <? 64) with false by lia. rewrite andb_false_r. reflexivity. Qed.
Lemma loop_first n i (f : Z -> mem -> res mem) x : (0 < n)%nat -> f i x = UB -> for_loop n i f x = UB.
Proof. intros N E. destruct n as [|n]; [lia|]. cbn [for_loop]. rewrite E. reflexivity. Qed.

Section Root.
  Variables (d : dti) (m : mem) (o index slots inc s n : Z).
  Hypothesis D : data_at d m o.
  Hypothesis GS : get_size d m o = Ok s.
  Hypothesis GC : get_element_count d m o = Ok n.
  Hypothesis SL : 0 < slots < 4294967296.

  (** arrays of bit fields with more than 64 bits per element: adding elements
      never has a defined outcome, unless it is refused *)
  Theorem C36_wide_is_undefined : is_variable_element_count d = true -> is_bit_field (containee d) = true -> 64 < bits_in_bitmap (containee d) ->
    can_expand_element d [] m o index slots inc = Ok true -> expand_element d [] m o index slots inc = UB.
  Proof.
    intros VC Bc WD E. destruct (data_holds d m o D) as [bs H]. destruct (vcount_container d VC) as [C _]. destruct (holds_cv d m o bs H C) as (es & CT & V & _ & _).
    pose proof (arr_wf d CT VC) as Wc. pose proof (wf_spec _ Wc) as [TV TS]. pose proof (ebits_range _ Wc) as ER. pose proof (ebits_parts _ Wc) as (EP1 & _).
    assert (BB : bits_in_bitmap (containee d) = ebits (containee d)).
    { unfold bits_in_bitmap, validity_bits, ebits, needs_is_valid_bit, is_variable_sized_type_info. rewrite TV. destruct (negb (is_variable_sized_ (containee d)) && is_nullable (containee d)); reflexivity. }
    rewrite BB in WD. pose proof (proj1 (is_bit_field_spec _) Bc) as Tc. rewrite Bc in EP1. 
    assert (K : u32 (b2n (needs_is_valid_bit (containee d)) + size (containee d)) = ebits (containee d)) by (rewrite <- EP1; apply u32_id; lia).
    unfold can_expand_element in E. unfold expand_element. assert (EX : is_expandable d [] = true) by exact VC. rewrite EX in *. cbn [negb can_expand_internal expand_internal] in *.
    unfold can_expand in E. unfold expand. destruct (expand_plan d m o index slots inc) as [p|] eqn:P; [|discriminate]. cbn [bind] in *.
    destruct p as [[[[[n0 nn] os] ns]|]|]; [| |discriminate].
    - rewrite Tc. unfold expand_bits. rewrite K.
      assert (n0 - index <= 0 \/ 0 < n0 - index) as [L|L] by lia.
      + replace (Z.to_nat (n0 - index)) with 0%nat by lia. cbn [for_loop bind]. rewrite loop_first; [reflexivity|lia|]. apply wide_clear. exact WD.
      + rewrite loop_first; [reflexivity|lia|]. cbn beta. rewrite wide_move by exact WD. reflexivity.
    - exfalso. unfold expand_plan in P. rewrite VC, GC in P. cbn [negb bind] in P. destruct (_ <? _); [discriminate|]. destruct (_ <? _); [discriminate|]. replace (slots =? 0) with false in P by lia.
      rewrite GS in P. cbn [bind] in P. destruct (negb _); discriminate.
  Qed.

  (** whenever elements are added in spite of the limits, the result is wrong:
      the container has another number of elements, or the new size that
      was accepted is not within its maximum size *)
  Theorem C36_limits_needed m' : expand_element d [] m o index slots inc = Ok (true, m') -> ~ expand_limits d s n slots ->
    element_count_of d [] m' o <> Ok (n + slots) \/ max_size d < expanded_size d s n slots.
  Proof.
    intros E NL. destruct (data_holds d m o D) as [bs H].
    assert (VC : is_variable_element_count d = true).
    { destruct (is_variable_element_count d) eqn:VC; [reflexivity|]. unfold expand_element, is_expandable in E. cbn [get_type_info] in E. rewrite VC in E. discriminate. }
    destruct (vcount_container d VC) as [C _]. destruct (holds_cv d m o bs H C) as (es & CT & V & _ & _).
    pose proof (cv_get_count _ _ _ _ _ CT V) as GC'. pose proof (cv_get_size _ _ _ _ _ CT V) as GS'.
    assert (n = zlen es) as En by congruence. assert (s = zlen bs) as Es by congruence.
    pose proof CT as [W _]. pose proof (wf_node d W) as (_ & _ & MSD & _). unfold max_bytes in MSD. pose proof (arr_wf d CT VC) as Wc. pose proof (wf_spec _ Wc) as [TV TS].
    pose proof (ebits_parts _ Wc) as (EP1 & _). destruct (prefix_spec d CT) as (_ & _ & PX).
    assert (BB : bits_in_bitmap (containee d) = ebits (containee d)).
    { unfold bits_in_bitmap, validity_bits, ebits, needs_is_valid_bit, is_variable_sized_type_info. rewrite TV. destruct (negb (is_variable_sized_ (containee d)) && is_nullable (containee d)); reflexivity. }
    assert (SS : slot_bytes (max_size d) (containee d) (size (containee d)) = eslot (max_size d) (containee d)) by (unfold slot_bytes, eslot; rewrite TV; reflexivity).
    assert (TOT : s = FS d n + vsum (containee d) es) by (rewrite Es, (cv_tot _ _ _ _ _ V) at 1; rewrite (arr_vtot d VC), <- En; reflexivity).
    assert (XS : expanded_size d s n slots = s + (bytes_of_bits ((n + slots) * bits_in_bitmap (containee d)) - bytes_of_bits (n * bits_in_bitmap (containee d))) + slots * slot_bytes (max_size d) (containee d) (size (containee d))).
    { unfold expanded_size, bytes_of_bits. rewrite TV, TS, PX, BB, SS.
      change ((((n + slots) * ebits (containee d)) + 7) / 8) with (bitmap_size_in_bytes ((n + slots) * ebits (containee d))). change (((n * ebits (containee d)) + 7) / 8) with (bitmap_size_in_bytes (n * ebits (containee d))).
      destruct (is_variable_sized_ (containee d)) eqn:Vc.
      - destruct (eslot_var (max_size d) _ Wc Vc) as (Bf & E1 & Nv & _). rewrite Bf, Nv in EP1. cbn in EP1. assert (ebits (containee d) = 0) as -> by lia. rewrite !Z.mul_0_r, E1. unfold vs. lia.
      - rewrite TOT, (arr_FS d VC). assert (VZ : vsum (containee d) es = 0).
        { clear - Vc. induction es as [|e l IH]; [reflexivity|]. cbn [vsum fold_right]. fold (vsum (containee d) l). rewrite IH. unfold clen. rewrite Vc. reflexivity. }
        rewrite VZ. lia. }
    destruct (Z_lt_le_dec (expanded_size d s n slots) 4294967296) as [LS|LS]; [|right; lia]. left.
    destruct (is_bit_field (containee d)) eqn:Bc.
    2:{ exfalso. apply NL. split; [lia|]. split; [rewrite <- XS; exact LS|]. congruence. }
    destruct (Z_lt_le_dec 64 (bits_in_bitmap (containee d))) as [WD|WD].
    - exfalso. assert (CE : can_expand_element d [] m o index slots inc = Ok true).
      { unfold expand_element in E. unfold can_expand_element. destruct (negb (is_expandable d [])); [discriminate|]. cbn [can_expand_internal expand_internal] in *. unfold can_expand. unfold expand in E.
        destruct (expand_plan d m o index slots inc) as [[p|]|]; try discriminate. reflexivity. }
      rewrite (C36_wide_is_undefined VC Bc WD CE) in E. discriminate.
    - assert (NF : 256 ^ value_size (max_size d) <= n + slots).
      { destruct (Z_lt_le_dec (n + slots) (256 ^ value_size (max_size d))) as [L|L]; [|exact L]. exfalso. apply NL. split; [lia|]. split; [rewrite <- XS; exact LS|]. auto. }
      cbn [element_count_of]. unfold get_element_count. rewrite C, VC. cbn [negb]. unfold read_value. destruct (rd _ _ _) as [l|] eqn:R; [|discriminate]. cbn [bind].
      apply rd_inv in R. destruct R as (R1 & R2 & R3 & ->). intro Q. assert (dec (slice m' (o + offset_of_prefix_count d) (value_size (max_size d))) = n + slots) as Q' by congruence.
      pose proof (dec_range (slice m' (o + offset_of_prefix_count d) (value_size (max_size d)))) as DR. rewrite zlen_slice in DR by assumption. lia.
  Qed.
End Root.
Print Assumptions C36_wide_is_undefined.
Print Assumptions C36_limits_needed.

(** 2^30 four byte numbers are added to an empty array within 0 more bytes; reading one of them is undefined *)
Definition many : dti := var_array 2147483520 (num UINT false 4).
Theorem C36_refuted_size : exists d m m', data_at d m 0 /\ room d m 0 0 /\ expand_element d [] m 0 0 1073741824 0 = Ok (true, m')
  /\ element_count_of d [] m' 0 = Ok 1073741824 /\ get_size d m 0 = Ok 4 /\ expanded_size d 4 0 1073741824 = 4294967300 /\ get_value d [500000] m' 0 = UB.
Proof.
  set (d := final many). set (m := init0 d (zmem 50)). exists d, m, (get m (expand_element d [] m 0 0 1073741824 0)).
  split; [apply init0_data; [unfold many, var_array, num; build; congruence|reflexivity|reflexivity|vm_compute; discriminate|vm_compute; discriminate]|].
  split; [split; [lia|]; intros _ s E; vm_compute in E; injection E as <-; vm_compute; discriminate|].
  vm_compute. repeat split; reflexivity.
Qed.
Print Assumptions C36_refuted_size.

(** ** the hypotheses are met *)
Example limits_cases :
  (exists d m s n m', data_at d m 0 /\ get_size d m 0 = Ok s /\ get_element_count d m 0 = Ok n /\ expand_element d [] m 0 0 300 255 = Ok (true, m') /\ ~ expand_limits d s n 300)
  /\ (exists d m s n, data_at d m 0 /\ get_size d m 0 = Ok s /\ get_element_count d m 0 = Ok n /\ is_variable_element_count d = true /\ is_bit_field (containee d) = true
       /\ 64 < bits_in_bitmap (containee d) /\ can_expand_element d [] m 0 0 1 100 = Ok true).
Proof.
  split.
  - set (d := final bits1). set (m := init0 d (zmem 300)). exists d, m, 1, 0, (get m (expand_element d [] m 0 0 300 255)).
    split; [apply init0_data; [unfold bits1, var_array, num; build; congruence|reflexivity|reflexivity|vm_compute; discriminate|vm_compute; discriminate]|].
    split; [vm_compute; reflexivity|]. split; [vm_compute; reflexivity|]. split; [vm_compute; reflexivity|].
    intros (_ & _ & L). destruct (L ltac:(vm_compute; reflexivity)) as [_ X]. vm_compute in X. discriminate.
  - set (d := final bits65). set (m := init0 d (zmem 1000)). eexists d, m, _, _.
    split; [apply init0_data; [unfold bits65, var_array, num; build; congruence|reflexivity|reflexivity|vm_compute; discriminate|vm_compute; discriminate]|].
    repeat split; vm_compute; reflexivity.
Qed.
