(** * C66: what is printed is what is there

    [printed], [page_printed], [described], [has_line] are in PrintSpec.v,
    [datum_is] and [usable] in CompareSpec.v, [table] in TableSpec.v. *)
From Coq Require Import String.
From Verif Require Import OpFacts SizeProps TupleProps TupleExamples.
From Coq Require Import ZifyBool ZifyNat ZifyN Zify.
From Verif Require Import BytesFacts SpecFacts PageExamples PageElementProps TableProps CompareProps SerdeProps PrintFacts PrintSpec.
Ltac Zify.zify_post_hook ::= Z.div_mod_to_equations.
Open Scope list_scope.
Open Scope Z_scope.

(** printing a datum reads nothing but the datum and shows all of it: the
    numbers, the bytes, the elements in their order, each variable sized one
    with the offset at which it is found *)
Theorem C66_datum t v x : usable t -> datum_is t v x -> exists l, print_datum v t = Ok l /\ printed t v l.
Proof. intros U D. destruct (usable_wf t U) as [W SN]. exact (datum_printed t v x (datum_means t v x D) W SN). Qed.
Print Assumptions C66_datum.

(** a tuple or any other data *)
Theorem C66_tuple d m o : data_at d m o -> short_names d ->
  exists v l, get_datum d m o = Ok (Some v) /\ printed d v l /\ print_data d m o = Ok l /\ print_tuple d m o = Ok (l ++ [nl]).
Proof.
  intros D SN. destruct (data_holds _ _ _ D) as [bs H]. destruct (data_printed d m o bs H SN) as (v & l & G & P & R). exists v, l.
  split; [exact G|]. split; [exact R|]. split; [exact P|]. unfold print_tuple. rewrite P. reflexivity.
Qed.
Print Assumptions C66_tuple.

(** a string that is read from a tuple is printed to its end *)
Theorem C66_string d m o pa t sm so n bs : data_at d m o -> path_ok pa -> get_type_info d pa = Some t -> type t = STRING ->
  get_value d pa m o = Ok (Some (DStr sm so n)) -> rd sm so n = Ok bs ->
  exists cs, concat cs = bs /\ print_datum (DStr sm so n) t = Ok (Text """" :: map Chars cs ++ [Text """"]).
Proof.
  intros D PO GT T GV R. destruct (data_holds _ _ _ D) as [c H].
  pose proof (string_ended pa d m o c t sm so n bs PO H GT T GV R) as Z0.
  pose proof R as R'. apply rd_inv in R'. destruct R' as (R1 & R2 & R3 & R4).
  destruct (chunks_ok sm so n R1 ltac:(lia) (Z.to_nat n) 0) as (cs & P & E); [lia|lia|]. rewrite Z.add_0_r, Z.sub_0_r, <- R4 in P.
  exists cs. split; [apply P|]. rewrite print_datum_unfold, T. cbn [is_datum_NULL string_value bind]. rewrite E. cbn [bind]. rewrite (pieces_whole _ _ P Z0). reflexivity.
Qed.
Print Assumptions C66_string.

(** a page of tuples: what the queries answer, then the tuples in their order *)
Theorem C66_page ps h d ty t p : table_setup ps h d ty t -> table ps h d t p -> short_names t ->
  exists l, print_page p ps d t = Ok l /\ page_printed p ps d t l.
Proof.
  intros (TB & FIN & [d0 SD] & Hps & Hh) T SN. destruct (table_holds ps h d0 d ty t Hps Hh TB FIN SD p T) as (c & R & (hb & f & V & Z0 & FA) & _).
  exact (page_ok ps d0 d ty t Hps TB FIN SD SN p hb c f V FA).
Qed.
Print Assumptions C66_page.

(** the bytes of a page, eight in a row *)
Theorem C66_hex p ps : zlen p = ps -> exists ls, print_page_in_hex p ps = Ok (concat ls ++ [nl; nl]) /\ zlen ls = ps
  /\ forall i b, nth_error p i = Some b ->
       nth_error ls i = Some ((if Z.of_nat i mod 8 =? 0 then [nl] else [])
         ++ [Text "["; Number (Z.of_nat i); Text "]("; Hex (b2z b); Text ")"; Chars [b]; Text " "; tab; Text " "]).
Proof.
  intros L. set (g := fun i b => (if Z.of_nat i mod 8 =? 0 then [nl] else []) ++ [Text "["; Number (Z.of_nat i); Text "]("; Hex (b2z b); Text ")"; Chars [b]; Text " "; tab; Text " "]).
  destruct (collect (fun i (b : byte) l => nth_error p i = Some b /\ l = g i b) (length p)) as (bs & ls & L1 & L2 & K).
  { intros i I. destruct (nth_error p i) as [b|] eqn:E; [|apply nth_error_None in E; lia]. exists b, (g i b). auto. }
  assert (K' : forall i b, nth_error p i = Some b -> nth_error ls i = Some (g i b)).
  { intros i b E. assert (I : (i < length p)%nat) by (apply nth_error_Some; congruence).
    destruct (nth_error bs i) as [b'|] eqn:E1; [|apply nth_error_None in E1; lia]. destruct (nth_error ls i) as [l|] eqn:E2; [|apply nth_error_None in E2; lia].
    destruct (K i b' l E1 E2) as [E3 ->]. congruence. }
  exists ls. split; [|split; [unfold zlen in *; lia|exact K']]. unfold print_page_in_hex. replace (Z.to_nat ps) with (length ls) by (unfold zlen in *; lia).
  rewrite (loop_ok _ ls); [reflexivity|]. intros k l E. rewrite Z.add_0_l.
  assert (I : (k < length p)%nat) by (rewrite <- L2; apply nth_error_Some; congruence). destruct (nth_error p k) as [b|] eqn:Eb; [|apply nth_error_None in Eb; lia].
  rewrite (K' k b Eb) in E. injection E as <-. rewrite rd_ok by (unfold zlen in *; lia). cbn [bind]. rewrite slice_1 by (unfold zlen in *; lia).
  assert (bat p (Z.of_nat k) = b) as -> by (unfold bat; rewrite Nat2Z.id; apply nth_error_nth; exact Eb).
  unfold g. cbn [dec]. replace (b2z b + 256 * 0) with (b2z b) by lia. reflexivity.
Qed.
Print Assumptions C66_hex.

(** the description of a type names every type within it, at every path, with
    its sizes and the names of its fields *)
Theorem C66_type t0 d : type_built t0 -> finalize t0 = (true, d) -> short_field_names d ->
  exists l, print_type_info d = Ok l /\ forall pa t, get_type_info d pa = Some t -> described l (indent d pa) t.
Proof.
  intros B F SN. destruct (type_printed d (proj1 (built_finalized t0 d B F)) SN 0%nat) as (l & E & _ & H). exists l. split; [exact E|]. exact H.
Qed.
Print Assumptions C66_type.

Lemma not_null t m a : get_datum t m a <> Ok (Some DNull).
Proof.
  unfold get_datum. destruct (type t); try discriminate;
    try (destruct (rd m a (size t)) as [l|]; cbn [bind]; [destruct (size t =? 4); discriminate|discriminate]);
    (destruct (get_element_count t m a) as [n|]; cbn [bind]; [|discriminate]; try discriminate; destruct (strnlen _ _ _); discriminate).
Qed.
(** the printed places are where the elements are: the bytes of a field that is
    present lie [byte_offset] behind the start of the tuple, or at the offset
    that is stored at [byte_offset_to_byte_offset]; the bits of a bit field are
    [bit_offset] bits behind the start of the bitmap, in which the bit of a
    field that needs one says whether it is present *)
Theorem C66_places d m o i p c : data_at d m o -> type d = TUPLE -> 0 <= i -> nth_error (containees d) (Z.to_nat i) = Some (p, c) ->
  (type c <> BIT_FIELD -> forall t a, element_at d [i] m o t a ->
     t = c /\ if is_variable_sized_type_info c then exists v, read_value m (o + p_off p) (max_size d) = Ok v /\ a = o + v else a = o + p_off p)
  /\ (type c = BIT_FIELD -> forall z, get_value d [i] m o = Ok (Some (DBits z)) ->
       get_bits m (o + offset_of_prefix_bitmap d) (p_off p) (p_off p + size c - 1) = Ok z)
  /\ (is_nullable_type_info c = true -> is_variable_sized_type_info c = false -> exists v,
       get_bit m (o + offset_of_prefix_bitmap d) (p_valid p) = Ok v /\ (v = false <-> get_value d [i] m o = Ok (Some DNull))).
Proof.
  intros D T I E. destruct (data_holds _ _ _ D) as [bs H].
  assert (C : is_container_type_info d = true) by (unfold is_container_type_info; rewrite T; reflexivity).
  destruct (holds_cv d m o bs H C) as (es & CT & V & _). pose proof (cv_n _ _ _ _ _ V) as CN. pose proof (tuple_count d _ T CN) as L.
  pose proof (znth_some _ _ _ E) as IL. assert (I' : 0 <= i < zlen es) by lia. destruct (znth_lt es i I') as [e En].
  assert (P : pos d (zlen es) i = mk_pinfo (p_off p) (p_valid p) c) by (unfold pos; rewrite T, E; reflexivity).
  pose proof (cv_pos d m o _ es i CT V I') as GP. rewrite P in GP.
  pose proof (cv_get_ptr d m o _ es i e CT V I En) as GQ. rewrite P in GQ.
  pose proof (cv_get_count d m o _ es CT V) as GC.
  assert (CH : child d m o i = let* x := get_ptr d m o (mk_pinfo (p_off p) (p_valid p) c) in Ok (Some (match x with None => None | Some a => Some (c, a) end))).
  { unfold child. rewrite C, GC. cbn [negb bind]. replace (zlen es <=? i) with false by lia. rewrite GP. reflexivity. }
  assert (GV : get_value d [i] m o = let* x := get_ptr d m o (mk_pinfo (p_off p) (p_valid p) c) in
    match x with None => Ok (Some DNull) | Some a => match type c with BIT_FIELD => let* v := get_bits m a (p_off p) (p_off p + size c - 1) in Ok (Some (DBits v)) | _ => get_datum c m a end end).
  { cbn [get_value]. unfold get_containee_datum. rewrite C, GC. cbn [negb bind]. replace (zlen es <=? i) with false by lia. rewrite GP. reflexivity. }
  rewrite GQ in CH, GV. unfold get_ptr in GQ. cbn [pi_type pi_valid pi_off] in GQ.
  split; [|split].
  - intros NB t a EA. inversion EA as [|? ? ? ? ? t1 a1 ? ? K1 K2]; subst. inversion K2; subst. rewrite CH in K1. cbn [bind] in K1.
    destruct (ptr_of d (zlen es) m o i e) as [a2|] eqn:Pe; [|discriminate]. injection K1 as <- <-. split; [reflexivity|].
    destruct (if needs_is_valid_bit c then _ else _) as [[]|]; [discriminate| |discriminate]. cbn [bind] in GQ.
    destruct (is_variable_sized_type_info c) eqn:Vc; cbn [negb] in GQ.
    + destruct (type c); try congruence; (destruct (read_value m (o + p_off p) (max_size d)) as [v|]; [|discriminate]; exists v; split; [reflexivity|]; cbn [bind] in GQ; destruct (v =? 0); congruence).
    + destruct (type c); congruence.
  - intros Bc z G. rewrite GV in G. rewrite Bc in G, GQ. cbn [bind] in G.
    destruct (ptr_of d (zlen es) m o i e) as [a2|] eqn:Pe; [|discriminate].
    destruct (if needs_is_valid_bit c then _ else _) as [[]|]; [discriminate| |discriminate]. cbn [bind] in GQ. injection GQ as <-.
    destruct (get_bits _ _ _ _) as [v|]; [|discriminate]. cbn [bind] in G. congruence.
  - intros N Vc. assert (needs_is_valid_bit c = true) as NV by (unfold is_nullable_type_info in N; rewrite Vc in N; unfold needs_is_valid_bit; rewrite Vc; exact N). rewrite NV, Vc in GQ. cbn [negb] in GQ.
    destruct (get_bit m (o + offset_of_prefix_bitmap d) (p_valid p)) as [v|]; [|discriminate]. exists v. split; [reflexivity|].
    cbn [bind] in GQ. rewrite GV. cbn [bind]. destruct v; cbn [negb] in GQ.
    + split; [discriminate|]. intro G. exfalso.
      destruct (ptr_of d (zlen es) m o i e) as [a2|] eqn:Pe; [|destruct (type c); discriminate].
      destruct e as [|z|b]; cbn [ptr_of] in Pe; [discriminate| |].
      * destruct (type c) eqn:Tc; try (destruct (get_bits _ _ _ _) as [v|]; discriminate);
        pose proof (cv_el _ _ _ _ _ V i _ I En) as [_ [A _]]; unfold etype in A; rewrite T, E in A; unfold is_bit_field in A; rewrite Tc in A; discriminate.
      * destruct (type c) eqn:Tc; try (exact (not_null _ _ _ G)). destruct (get_bits _ _ _ _); discriminate.
    + injection GQ as GQ. rewrite <- GQ. split; reflexivity.
Qed.
Print Assumptions C66_places.

(** the description of a tuple definition: that of its sizes and that of its type *)
Theorem C66_size_def d : size_def_described (print_tuple_size_def d) d.
Proof.
  unfold size_def_described, print_tuple_size_def, is_variable_sized, min_tuple_size, max_tuple_size, b2n.
  destruct (sd_variable d); cbn [negb]; (split; [find_line|]); [|split; [find_line|reflexivity]].
  do 2 (split; [find_line|]). split; [destruct (sd_has_size d); find_line|]. split; [destruct (sd_has_size d); find_line|].
  intros ->. split; [find_line|]. split; [find_line|]. destruct (sd_containee_bit_field d); find_line.
Qed.
Print Assumptions C66_size_def.
Theorem C66_tuple_def t0 t d d0 : type_built t0 -> finalize t0 = (true, t) -> initialize_size_def d0 t0 = Some d -> short_field_names t ->
  exists a b, print_tuple_def d t = Ok (Text "size_def : " :: a ++ Text "type_info : " :: b) /\ size_def_described a d
    /\ forall pa u, get_type_info t pa = Some u -> described b (indent t pa) u.
Proof.
  intros B F _ SN. destruct (C66_type t0 t B F SN) as (b & E & H). exists (print_tuple_size_def d), b. unfold print_tuple_def. rewrite E. cbn [bind].
  split; [reflexivity|]. split; [apply C66_size_def|exact H].
Qed.
Print Assumptions C66_tuple_def.

(** a name that fills its 64 bytes may be stored and is in order everywhere
    else, but printing it reads behind it *)
Theorem C66_name_refuted : exists t0 d m, type_built t0 /\ finalize t0 = (true, d) /\ data_at d m 0 /\ print_tuple d m 0 = UB.
Proof.
  exists (mk_dti false name64 TUPLE false false 0 100 false 0 0 None [(mk_position [] 0 0, num UINT true 4)]).
  eexists. exists (init0 (final (mk_dti false name64 TUPLE false false 0 100 false 0 0 None [(mk_position [] 0 0, num UINT true 4)])) (zmem 10)).
  split; [unfold name64, num; build; congruence|]. split; [vm_compute; reflexivity|]. split; [|vm_compute; reflexivity].
  eapply da_init with (m := zmem 10) (t := mk_dti false name64 TUPLE false false 0 100 false 0 0 None [(mk_position [] 0 0, num UINT true 4)]);
    [unfold name64, num; build; congruence|vm_compute; reflexivity|vm_compute; reflexivity|lia|vm_compute; reflexivity].
Qed.
Print Assumptions C66_name_refuted.
Theorem C66_field_refuted : exists t0 d, type_built t0 /\ finalize t0 = (true, d) /\ print_type_info d = UB.
Proof.
  exists (mk_dti false [] TUPLE false false 0 100 false 0 0 None [(mk_position name64 0 0, num UINT true 4)]). eexists.
  split; [unfold name64, num; build; congruence|]. split; vm_compute; reflexivity.
Qed.
Print Assumptions C66_field_refuted.

(** ** the hypotheses are met *)
Lemma exd_short : short_names exd.
Proof. vm_compute. repeat split. Qed.
Example C66_tuple_case : data_at exd e2 0 /\ print_tuple exd e2 0 =
  Ok [Text "("; Chars []; Text ")<"; Number 18; Text ">("; Text "NULL"; Text ", "; Text "["; Number 11; Text "]->"; Text """"; Chars (list_byte_of_string "hello"); Text """";
      Text ", "; Number (-5); Text ", "; Text "NULL"; Text ")"; nl].
Proof. split; [apply data_e2|vm_compute; reflexivity]. Qed.
Example C66_datum_case : let b := list_byte_of_string "good" in
  usable (final (var_string 300)) /\ datum_is (final (var_string 300)) (DStr b 0 4) (bytes_value b)
  /\ print_datum (DStr b 0 4) (final (var_string 300)) = Ok [Text """"; Chars b; Text """"].
Proof. cbn zeta. split; [apply ex_usable|]. split; [|vm_compute; reflexivity]. split; [left; vm_compute; reflexivity|]. eexists. split; vm_compute; reflexivity. Qed.
Example C66_string_case : path_ok [1] /\ get_type_info exd [1] = Some (final (var_string 300)) /\ get_value exd [1] e2 0 = Ok (Some (DStr e2 13 5)) /\ rd e2 13 5 = Ok (list_byte_of_string "hello").
Proof. split; [pathy|]. repeat split; vm_compute; reflexivity. Qed.
Example C66_page_case : table 128 10 exs exd tbp /\ short_names exd
  /\ exists l, print_page tbp 128 exs exd = Ok ([Text "PAGE : "; nl; Text "space allotted   = "; Number 113; nl; Text "space occupied   = "; Number 51; Text " (tomb_stones occupy "; Number 0; Text ")"; nl;
       Text "free space       = "; Number 57; nl; Text "fragmented space = "; Number 5; nl; nl; Text "tuple_count      = "; Number 2; nl; Text "tomb_stone_count = "; Number 0; nl; nl;
       Text "SLOTTED PAGE :"; nl; nl; tab; Text "Tuples :: ("; Number 2; Text ")"; nl; tab; tab; Text "tuple "; Number 0; nl;
       tab; tab; tab; Text "offset["; Number 74; Text "] size("; Number 18; Text ") :: "] ++ l).
Proof.
  split; [|split; [apply exd_short|eexists; vm_compute; reflexivity]].
  destruct (C65_new _ _ _ _ _ (repeat Byte.xff 128) (PageExamples.fresh 128 10 exs) C65_setup ltac:(vm_compute; reflexivity) ltac:(vm_compute; reflexivity)) as [T RP].
  destruct (C65_history _ _ _ _ _ _ _ _ _ C65_setup T RP C65_example_history) as (c & T' & _). exact T'.
Qed.
Example C66_hex_case : print_page_in_hex [Byte.x61; Byte.x0a] 2 =
  Ok [nl; Text "["; Number 0; Text "]("; Hex 97; Text ")"; Chars [Byte.x61]; Text " "; tab; Text " "; Text "["; Number 1; Text "]("; Hex 10; Text ")"; Chars [Byte.x0a]; Text " "; tab; Text " "; nl; nl].
Proof. vm_compute. reflexivity. Qed.
Example C66_type_case : type_built ex_type /\ finalize ex_type = (true, exd) /\ short_field_names exd
  /\ exists l, print_type_info exd = Ok l /\ get_type_info exd [3; 0; 1] = Some (final (var_string 50)) /\ indent exd [3; 0; 1] = 8%nat.
Proof. split; [apply ex_type_built|]. split; [vm_compute; reflexivity|]. split; [vm_compute; repeat split|]. eexists. split; [vm_compute; reflexivity|]. repeat split; vm_compute; reflexivity. Qed.
(** the tuple of C66_tuple_case: the string is found at the stored offset 11, the bit of the missing field is cleared *)
Example C66_places_case : type exd = TUPLE
  /\ (exists p c, nth_error (containees exd) 1 = Some (p, c) /\ is_variable_sized_type_info c = true /\ read_value e2 (0 + p_off p) (max_size exd) = Ok 11 /\ child exd e2 0 1 = Ok (Some (Some (c, 11))))
  /\ (exists p c, nth_error (containees exd) 0 = Some (p, c) /\ is_nullable_type_info c = true /\ is_variable_sized_type_info c = false
       /\ get_bit e2 (offset_of_prefix_bitmap exd) (p_valid p) = Ok false /\ get_value exd [0] e2 0 = Ok (Some DNull)).
Proof.
  split; [vm_compute; reflexivity|]. split.
  - eexists _, _. split; [vm_compute; reflexivity|]. repeat split; vm_compute; reflexivity.
  - eexists _, _. split; [vm_compute; reflexivity|]. repeat split; vm_compute; reflexivity.
Qed.
Example C66_tuple_def_case : exists d, initialize_size_def sd0 ex_type = Some d.
Proof. eexists. vm_compute. reflexivity. Qed.
