(** * C38: setting an element of an entry of a page where it lies

    [in_place_ok], [reachable], [contents], [header] are in PageSpec.v (the
    pages reachable there include those left by this operation, so that the
    theorems C02 - C25 hold for histories with it); [observe], [reads_back],
    [unrelated] are in ReadSpec.v and TupleSpec.v. *)
From Coq Require Import String.
From Verif Require Import OpFacts SizeProps TupleProps TupleExamples.
From Coq Require Import ZifyBool ZifyNat ZifyN Zify.
From Verif Require Import BytesFacts SpecFacts PageReach PageExamples PageElement.
From Verif Require PageProps.
From Verif Require Import PageSpec.
Ltac Zify.zify_post_hook ::= Z.div_mod_to_equations.
Open Scope list_scope.
Open Scope Z_scope.

(** C38: there is a defined outcome; the header stays; a refused set leaves the
    page as it was; the set is refused exactly when the same set would be refused on a
    copy of the entry that must not grow; else exactly that entry is replaced, by
    the bytes which the same set produces on the copy, and they are not more. *)
Theorem C38_in_place : forall ps h d p c hb ty t i pa v, limits ps h d -> reachable ps h d p ->
  contents ps d p = Ok c -> header ps p = Ok hb -> in_place_ok ps d p ty t i pa v ->
  exists r p', set_element_in_place p ps t d i pa v = Ok (r, p') /\ reachable ps h d p' /\ header ps p' = Ok hb
    /\ (r = false -> p' = p)
    /\ match nth (Z.to_nat i) c None with
       | None => r = false
       | Some x => exists b n, set_element t pa x 0 v 0 = Ok (r, b) /\ can_set_element t pa x 0 v 0 = Ok r
           /\ get_size t b 0 = Ok n /\ n <= zlen x /\ data_at t (slice b 0 n) 0
           /\ (r = true -> contents ps d p' = Ok (replace_at i (Some (slice b 0 n)) c))
       end.
Proof.
  intros ps h d p c hb ty t i pa v (Hps & Hh & Hdef) R Hc Hb IP.
  destruct (reach_contents _ _ Hps Hdef _ _ _ Hh R Hc) as (hb1 & f & V & Hz).
  rewrite (v_header ps d Hps Hdef _ _ _ _ V) in Hb. injection Hb as ->.
  destruct (in_place_step ps d Hps Hdef _ _ _ _ _ _ _ _ _ V IP) as (r & p' & c' & f' & E & V' & F & M).
  exists r, p'. split; [exact E|]. split; [exact (reachable_set ps h d p ty t i pa v r p' R IP E)|].
  split; [exact (v_header ps d Hps Hdef _ _ _ _ V')|]. split; [intro A; destruct (F A); assumption|].
  destruct (nth (Z.to_nat i) c None) as [x|]; [|exact M].
  destruct M as (b & n & M1 & M2 & M3 & M4 & M5 & M6). exists b, n. split; [exact M1|]. split; [exact M2|]. split; [exact M3|]. split; [lia|]. split; [exact M5|].
  intro A. rewrite <- (M6 A). exact (v_contents ps d Hps Hdef _ _ _ _ V').
Qed.
Print Assumptions C38_in_place.

(** C13, for the sets of elements in place: size and bytes of the header stay *)
Theorem C13_header_in_place : forall ps h d p ty t i pa v, limits ps h d -> reachable ps h d p -> in_place_ok ps d p ty t i pa v ->
  exists r p' hb, set_element_in_place p ps t d i pa v = Ok (r, p') /\ header ps p = Ok hb /\ zlen hb = h /\ header ps p' = Ok hb.
Proof.
  intros ps h d p ty t i pa v (Hps & Hh & Hdef) R IP. destruct (reach_view _ _ Hps Hdef _ _ Hh R) as (hb & c & f & V & Hz).
  destruct (in_place_step ps d Hps Hdef _ _ _ _ _ _ _ _ _ V IP) as (r & p' & c' & f' & E & V' & _).
  exists r, p', hb. split; [exact E|]. split; [exact (v_header ps d Hps Hdef _ _ _ _ V)|]. split; [exact Hz|exact (v_header ps d Hps Hdef _ _ _ _ V')].
Qed.
Print Assumptions C13_header_in_place.

(** C38: what is read afterwards through the pointer which the page hands out:
    the value at the position that was set, what was there before at all
    other positions of that tuple; all other entries have the bytes they had. *)
Theorem C38_reads_back : forall ps h d p ty t i pa v p', limits ps h d -> reachable ps h d p -> in_place_ok ps d p ty t i pa v ->
  set_element_in_place p ps t d i pa v = Ok (true, p') ->
  exists o o' u y, get_nth_tuple_on_page p ps d i = Ok (Some o) /\ get_nth_tuple_on_page p' ps d i = Ok (Some o')
    /\ data_at t p' o'
    /\ get_type_info t pa = Some u /\ observe t pa p' o' = Ok (Some y) /\ reads_back u v y
    /\ (forall pb, path_ok pb -> unrelated pa pb -> observe t pb p' o' = observe t pb p o)
    /\ (forall j, is_u32 j -> j <> i -> read_entry ps d p' j = read_entry ps d p j).
Proof.
  intros ps h d p ty t i pa v p' (Hps & Hh & Hdef) R IP E.
  destruct (reach_view _ _ Hps Hdef _ _ Hh R) as (hb & c & f & V & Hz).
  destruct (in_place_step ps d Hps Hdef _ _ _ _ _ _ _ _ _ V IP) as (r & p1 & c' & f' & E1 & V' & _ & M).
  rewrite E in E1. injection E1 as <- <-. destruct IP as (TB & FIN & [d0 SD] & Hi & PO & FT & DP & HD). unfold is_u32 in *.
  destruct (nth (Z.to_nat i) c None) as [x|] eqn:En; [|discriminate].
  destruct M as (b & n & M1 & M2 & M3 & M4 & M5 & M6). specialize (M6 eq_refl). subst c'.
  assert (Hlt : i < zlen c) by (destruct (Z.ltb_spec i (zlen c)); [assumption|]; rewrite nth_overflow in En by (unfold zlen in *; lia); discriminate).
  assert (DX : data_at t x 0) by (apply HD; rewrite (v_entry ps d Hps Hdef _ _ _ _ i V ltac:(lia)), En; reflexivity).
  destruct (v_get_nth ps d Hps Hdef _ _ _ _ i V ltac:(lia)) as (xo & G & X).
  destruct xo as [o|]; [|destruct X as [X|X]; [lia|congruence]].
  destruct X as (_ & x1 & En1 & T1 & R1 & _). rewrite En in En1. injection En1 as <-.
  destruct (v_get_nth ps d Hps Hdef _ _ _ _ i V' ltac:(lia)) as (xo' & G' & X').
  assert (Lr : zlen (replace_at i (Some (slice b 0 n)) c) = zlen c) by (apply zlen_replace_at; lia).
  assert (En' : nth (Z.to_nat i) (replace_at i (Some (slice b 0 n)) c) None = Some (slice b 0 n)) by (rewrite nth_replace_at, Z.eqb_refl by lia; reflexivity).
  destruct xo' as [o'|]; [|destruct X' as [X'|X']; [lia|congruence]].
  destruct X' as (_ & x1 & En1 & T1' & R1' & _). rewrite En' in En1. injection En1 as <-.
  pose proof (C29_same_size d0 ty t d TB FIN SD) as SS. rewrite SS in T1, T1'.
  destruct (view_ext_ok ps d Hps Hdef _ _ _ _ V (Some x) ltac:(rewrite <- En; apply nth_In; unfold zlen in *; lia)) as [TX _].
  rewrite SS in TX.
  assert (RM : TupleSpec.room t x 0 0) by (split; [lia|]; intros _ s0 Es; rewrite TX in Es; injection Es as <-; lia).
  destruct (set_element_ok t pa x 0 v 0 DX PO RM FT DP) as (r & b' & E1 & _ & DB & (LO & _) & (Lb & s & n' & _ & G2 & _ & _ & _ & _ & _ & _ & CP) & RB).
  rewrite M1 in E1. injection E1 as <- <-. rewrite M3 in G2. injection G2 as <-.
  destruct (RB eq_refl) as (u & y & U & OB & RD & _). clear RB.
  assert (Ls : zlen (slice b 0 n) = n) by (apply zlen_slice; lia). rewrite Ls in *.
  apply rd_inv in R1 as (A1 & A2 & A3 & A4). apply rd_inv in R1' as (B1 & B2 & B3 & B4).
  assert (C' : forall pb, path_ok pb -> observe t pb p' o' = observe t pb b 0) by (intros pb Pb; apply (CP p' o'); auto; lia).
  exists o, o', u, y. split; [exact G|]. split; [exact G'|]. split; [|split; [exact U|split; [rewrite C'; assumption|split; [exact RD|split]]]].
  - eapply da_copy; [exact DB|exact M3|lia|lia|]. congruence.
  - intros pb Pb UR. rewrite C' by exact Pb. destruct (LO pb Pb UR) as [-> _].
    destruct (data_holds t x 0 DX) as [bs H]. pose proof (holds_size _ _ _ _ H) as ZS. rewrite TX in ZS. injection ZS as ZS.
    rewrite (observe_local pb t x 0 bs Pb H). symmetry. apply observe_local; [exact Pb|].
    eapply holds_copy; [exact H|lia|lia|]. rewrite <- ZS, <- A4. symmetry. apply slice_all. reflexivity.
  - intros j Hj Nj. destruct (Z.ltb_spec j (zlen c)) as [Lj|Lj].
    + rewrite (v_entry ps d Hps Hdef _ _ _ _ j V ltac:(lia)), (v_entry ps d Hps Hdef _ _ _ _ j V' ltac:(lia)).
      rewrite nth_replace_at by lia. destruct (Z.eqb_spec j i); [lia|reflexivity].
    + unfold read_entry. destruct (v_get_nth ps d Hps Hdef _ _ _ _ j V ltac:(lia)) as (k & -> & K).
      destruct (v_get_nth ps d Hps Hdef _ _ _ _ j V' ltac:(lia)) as (k' & -> & K').
      destruct k; [lia|]. destruct k'; [lia|]. reflexivity.
Qed.
Print Assumptions C38_reads_back.

(** C38: the space accounting after the set is the one of the new entries *)
Corollary C38_space : forall ps h d p c ty t i pa v p', limits ps h d -> reachable ps h d p -> in_place_ok ps d p ty t i pa v ->
  set_element_in_place p ps t d i pa v = Ok (true, p') -> contents ps d p' = Ok c ->
  exists a o f g, get_space_allotted_to_all_tuples_on_page p' ps d = Ok a /\
    get_space_occupied_by_all_tuples_on_page p' ps d = Ok o /\ get_free_space_on_page p' ps d = Ok f /\
    get_fragmentation_space_on_page p' ps d = Ok g /\
    a = o + f + g /\ 0 <= f /\ 0 <= g /\ o = total_space ps d c.
Proof.
  intros ps h d p c ty t i pa v p' L R IP E Hc.
  destruct (PageProps.C16_space_identity ps h d p' c L (reachable_set _ _ _ _ _ _ _ _ _ _ _ R IP E) Hc) as [(a & o & f & g & H) _].
  exists a, o, f, g. intuition.
Qed.
Print Assumptions C38_space.

(** ** cases *)
Open Scope string_scope.
Open Scope Z_scope.
Definition exs : size_def := match initialize_size_def sd0 ex_type with Some sd => sd | None => sd0 end.
Definition tuple_in (d : dti) (m : mem) : tuple := slice m 0 (match get_size d m 0 with Ok n => n | UB => 0 end).
Lemma tuple_in_data d m n : data_at d m 0 -> get_size d m 0 = Ok n -> n <= zlen m -> data_at d (tuple_in d m) 0.
Proof.
  intros D E L. unfold tuple_in. rewrite E. destruct (data_holds d m 0 D) as [bs H]. pose proof (holds_size _ _ _ _ H) as Z. rewrite E in Z. injection Z as ->.
  pose proof (zlen_nonneg bs). eapply da_copy; [exact D|exact E|lia|rewrite zlen_slice by lia; lia|]. rewrite slice_slice by lia. reflexivity.
Qed.
(** a slotted page with an entry of the history of TupleExamples.v *)
Definition es_ops : list page_op := [Append (Some (tuple_in exd e7)); Append None; Append (Some (tuple_in exd e2))].
Definition esp : mem := Eval vm_compute in value_of (run_ops 128 exs es_ops (fresh 128 10 exs)).
Ltac is_ok := split; [vm_compute; reflexivity|vm_compute; discriminate].
Example esp_reachable : limits 128 10 exs /\ reachable 128 10 exs esp.
Proof.
  split; [unfold limits, def_ok, max_tuple_size; vm_compute; intuition discriminate|].
  apply run_ops_reachable with (ops := es_ops) (p := fresh 128 10 exs).
  - eapply reachable_init with (p0 := repeat Byte.xff 128); vm_compute; reflexivity.
  - repeat constructor; vm_compute; intuition discriminate.
  - vm_compute. reflexivity.
Qed.
Example esp_in_place_ok : in_place_ok 128 exs esp ex_type exd 0 [1] (str "bye").
Proof.
  split; [apply ex_type_built|]. split; [vm_compute; reflexivity|]. split; [exists sd0; vm_compute; reflexivity|]. split; [vm_compute; intuition discriminate|].
  split; [pathy|]. split; [intros u E; vm_compute in E; injection E as <-; vm_compute; intuition discriminate|]. split; [intros; discriminate|].
  intros x E. assert (x = tuple_in exd e7) as -> by (vm_compute in E; vm_compute; congruence).
  eapply tuple_in_data; [apply data_e7|vm_compute; reflexivity|vm_compute; discriminate].
Qed.
Definition esp' : mem := match set_element_in_place esp 128 exd exs 0 [1] (str "bye") with Ok (_, p) => p | UB => [] end.
Example C38_slotted_case : set_element_in_place esp 128 exd exs 0 [1] (str "bye") = Ok (true, esp')
  /\ get_nth_tuple_on_page esp' 128 exs 0 = Ok (Some 92)
  /\ map (fun pa => observe exd pa esp' 92) [[0]; [1]; [2]; [3; 0]; [3; 1; 0]; [3; 1; 1]]
     = map (@Ok (option obs)) [Some ONull; Some (bytes_of "bye"); Some (OInt (-5)); Some ONull; Some (OUint 0); Some (bytes_of "ab")]
  /\ get_space_occupied_by_all_tuples_on_page esp 128 exs = Ok 57 /\ get_space_occupied_by_all_tuples_on_page esp' 128 exs = Ok 52
  /\ set_element_in_place esp 128 exd exs 0 [1] (str "good bye!") = Ok (false, esp)
  /\ set_element_in_place esp 128 exd exs 1 [1] (str "bye") = Ok (false, esp).
Proof. repeat split; vm_compute; reflexivity. Qed.
Example C13_header_in_place_case : header 128 esp' = header 128 esp /\ header 128 esp' = Ok (repeat Byte.x00 10).
Proof. split; vm_compute; reflexivity. Qed.
(** a fixed array page: an unsigned integer and a nullable integer *)
Definition fx_type : dti := tup 100 [num UINT false 4; num INT true 2; num BIT_FIELD true 5].
Definition fxd : dti := final fx_type.
Definition fxs : size_def := match initialize_size_def sd0 fx_type with Some sd => sd | None => sd0 end.
Definition fx0 : mem := init0 fxd (zmem 8).
Example fx_type_built : type_built fx_type.
Proof. unfold fx_type, tup, num. cbn [map]. build; congruence. Qed.
Example data_fx0 : data_at fxd fx0 0.
Proof. apply init0_data; [apply fx_type_built|reflexivity|reflexivity|vm_compute; discriminate|vm_compute; discriminate]. Qed.
Definition fx_ops : list page_op := [Append (Some (tuple_in fxd fx0)); Append None; Append (Some (tuple_in fxd fx0)); Append (Some (tuple_in fxd fx0))].
Definition fxp : mem := Eval vm_compute in value_of (run_ops 128 fxs fx_ops (fresh 128 10 fxs)).
Example fxp_reachable : limits 128 10 fxs /\ reachable 128 10 fxs fxp /\ is_variable_sized fxs = false.
Proof.
  split; [unfold limits, def_ok, max_tuple_size; vm_compute; intuition discriminate|]. split; [|reflexivity].
  apply run_ops_reachable with (ops := fx_ops) (p := fresh 128 10 fxs).
  - eapply reachable_init with (p0 := repeat Byte.xff 128); vm_compute; reflexivity.
  - repeat constructor; vm_compute; intuition discriminate.
  - vm_compute. reflexivity.
Qed.
Example fxp_in_place_ok : in_place_ok 128 fxs fxp fx_type fxd 2 [1] (DInt (-7)).
Proof.
  split; [apply fx_type_built|]. split; [vm_compute; reflexivity|]. split; [exists sd0; vm_compute; reflexivity|]. split; [vm_compute; intuition discriminate|].
  split; [pathy|]. split; [intros u E; vm_compute in E; injection E as <-; vm_compute; intuition discriminate|]. split; [intros; discriminate|].
  intros x E. assert (x = tuple_in fxd fx0) as -> by (vm_compute in E; vm_compute; congruence).
  eapply tuple_in_data; [apply data_fx0|vm_compute; reflexivity|vm_compute; discriminate].
Qed.
Definition fxp' : mem := match set_element_in_place fxp 128 fxd fxs 2 [1] (DInt (-7)) with Ok (_, p) => p | UB => [] end.
Example C38_fixed_case : set_element_in_place fxp 128 fxd fxs 2 [1] (DInt (-7)) = Ok (true, fxp')
  /\ get_nth_tuple_on_page fxp' 128 fxs 2 = Ok (Some 29)
  /\ map (fun pa => observe fxd pa fxp 29) [[0]; [1]; [2]] = map (@Ok (option obs)) [Some (OUint 0); Some ONull; Some ONull]
  /\ map (fun pa => observe fxd pa fxp' 29) [[0]; [1]; [2]] = map (@Ok (option obs)) [Some (OUint 0); Some (OInt (-7)); Some ONull]
  /\ set_element_in_place fxp 128 fxd fxs 2 [7] (DInt (-7)) = Ok (false, fxp)
  /\ set_element_in_place fxp 128 fxd fxs 1 [1] (DInt (-7)) = Ok (false, fxp).
Proof. repeat split; vm_compute; reflexivity. Qed.
