(** * Lemmas about printing *)
From Coq Require String.
Import String.StringSyntax.
From Verif Require Import BytesFacts PageFacts FixedFacts FixedOps SizeProps.
From Verif Require Export HashFacts StoreFacts SerdeFacts TableFacts CompareProps PrintSpec.
From Coq Require Import ZifyBool ZifyNat ZifyN Zify.
Ltac Zify.zify_post_hook ::= Z.div_mod_to_equations.
Open Scope string_scope.
Open Scope list_scope.
Open Scope Z_scope.
Notation holds := NestFacts.holds.

(** ** names, loops *)
Lemma until_zero_firstn k : forall n, firstn (Z.to_nat (name_len k n)) n = until_zero (firstn k n).
Proof.
  induction k as [|k IH]; intros [|b n]; cbn [name_len firstn until_zero]; try reflexivity; try apply firstn_nil. 
  destruct (b2z b =? 0); [reflexivity|]. rewrite <- IH. pose proof (name_len_spec k n) as E. pose proof (zlen_nonneg (until_zero (firstn k n))).
  replace (Z.to_nat (1 + name_len k n)) with (Datatypes.S (Z.to_nat (name_len k n))) by lia. reflexivity.
Qed.
Lemma name_printed n : zlen (c_string n) < 64 -> print_name n = Ok [Chars (c_string n)].
Proof. intro L. unfold print_name. rewrite until_zero_firstn. rewrite name_len_spec. fold (c_string n). replace (zlen (c_string n) =? 64) with false by lia. reflexivity. Qed.
Lemma loop_ok f : forall ls i, (forall k l, nth_error ls k = Some l -> f (i + Z.of_nat k) = Ok l) -> print_loop (length ls) i f = Ok (concat ls).
Proof.
  induction ls as [|l ls IH]; intros i F; [reflexivity|]. cbn [length print_loop concat]. pose proof (F O l eq_refl) as F0. rewrite Z.add_0_r in F0. rewrite F0. cbn [bind].
  rewrite (IH (i + 1)); [reflexivity|]. intros k l' E. replace (i + 1 + Z.of_nat k) with (i + Z.of_nat (Datatypes.S k)) by lia. apply F. exact E.
Qed.
Lemma bytes_loop m o f g : forall bs k i, zlen bs = Z.of_nat k -> 0 <= o -> 0 <= i -> o + i + zlen bs <= zlen m -> slice m (o + i) (zlen bs) = bs ->
  (forall j b, 0 <= j -> rd m (o + j) 1 = Ok [b] -> f j = Ok (g b)) -> print_loop k i f = Ok (flat_map g bs).
Proof.
  induction bs as [|b bs IH]; intros k i L O I B E F; destruct k as [|k]; rewrite ?zlen_nil, ?zlen_cons in *; try (pose proof (zlen_nonneg bs) as Zb); try lia; [reflexivity|].
  cbn [print_loop flat_map]. replace (zlen bs + 1) with (1 + zlen bs) in E by lia. rewrite slice_split in E by lia. rewrite slice_1 in E by lia. cbn [app] in E. injection E as E1 E2.
  rewrite (F i b I) by (rewrite rd_ok by lia; rewrite slice_1 by lia; congruence). cbn [bind].
  rewrite (IH k (i + 1)); try lia; [reflexivity| |exact F]. replace (o + (i + 1)) with (o + i + 1) by lia. exact E2.
Qed.
Lemma chunks_ok m o n : 0 <= o -> o + n <= zlen m -> forall k q, 0 <= q <= n -> n - q <= Z.of_nat k ->
  exists cs, pieces_of (slice m (o + q) (n - q)) cs /\ print_chunks k m o n q = Ok (map (fun c => Chars (cut0 c)) cs).
Proof.
  intros O B. induction k as [|k IH]; intros q Q K; cbn [print_chunks].
  - replace (n <=? q) with true by lia. exists []. split; [|reflexivity]. split; [|intros [|i] c X; discriminate]. replace (n - q) with 0 by lia. reflexivity.
  - destruct (n <=? q) eqn:E.
    + exists []. split; [|reflexivity]. split; [|intros [|i] c X; discriminate]. replace (n - q) with 0 by lia. reflexivity.
    + set (c := Z.min (n - q) 1024). destruct (IH (q + c) ltac:(lia) ltac:(lia)) as (cs & [P1 P2] & R).
      pose proof (cut0_len (slice m (o + q) c)) as CL. rewrite zlen_slice in CL by lia. pose proof (zlen_nonneg (cut0 (slice m (o + q) c))).
      unfold print_precision. rewrite strnlen_eq by lia. cbn [bind]. rewrite rd_ok by lia.
      rewrite slice_cut0 by lia. cbn [bind]. rewrite R. cbn [bind]. exists (slice m (o + q) c :: cs). split; [|reflexivity]. split.
      * cbn [concat]. rewrite P1. replace (o + (q + c)) with (o + q + c) by lia. replace (n - (q + c)) with (n - q - c) by lia. rewrite <- slice_split by lia. f_equal. lia.
      * rewrite !zlen_slice in * by lia. intros [|i] x X; cbn [nth_error] in X.
        -- injection X as <-. rewrite zlen_slice by lia. lia.
        -- destruct (P2 i x X) as [A1 A2]. split; [exact A1|]. rewrite A2. destruct (Z.eq_dec c 1024); [lia|]. exfalso. assert (n - (q + c) = 0) by lia. lia.
Qed.
Lemma pieces_whole bs cs : pieces_of bs cs -> cut0 bs = bs -> map (fun c => Chars (cut0 c)) cs = map Chars cs.
Proof.
  intros [P _]. revert bs P. induction cs as [|c cs IH]; intros bs P Z0; [reflexivity|]. cbn [map concat] in *.
  assert (C : forall a b, cut0 (a ++ b) = a ++ b -> cut0 a = a /\ cut0 b = b).
  { clear. induction a as [|x a IHa]; intros b E; cbn [app cut0] in *; [auto|]. destruct (b2z x =? 0); [discriminate|]. injection E as E. destruct (IHa b E). split; [f_equal|]; assumption. }
  subst bs. destruct (C _ _ Z0) as [C1 C2]. rewrite C1. f_equal. exact (IH _ eq_refl C2).
Qed.

(** ** datums *)
Definition comma (i : Z) : list out := if negb (i =? 0) then [Text ", "] else [].
Fixpoint comma_list (i : Z) (ls : list (list out)) : list out :=
  match ls with [] => [] | l :: ls' => comma i ++ l ++ comma_list (i + 1) ls' end.
Lemma comma_list_pos ls : forall i, 0 < i -> comma_list i ls = match ls with [] => [] | _ => Text ", " :: commas ls end.
Proof.
  induction ls as [|l ls IH]; intros i I; [reflexivity|]. cbn [comma_list]. rewrite IH by lia. unfold comma. replace (i =? 0) with false by lia. cbn [negb app]. f_equal.
  destruct ls; cbn [commas]; [apply app_nil_r|reflexivity].
Qed.
Lemma comma_list_0 ls : comma_list 0 ls = commas ls.
Proof. destruct ls as [|l ls]; [reflexivity|]. cbn [comma_list]. rewrite comma_list_pos by lia. cbn [comma Z.eqb negb app]. destruct ls; cbn [commas]; [apply app_nil_r|reflexivity]. Qed.

Fixpoint tuple_print (f : Z -> dti -> res (list out)) (n : Z) (cs : list (position * dti)) (i : Z) {struct cs} : res (list out) :=
  if n <=? i then Ok [] else match cs with [] => UB | (_, c) :: cs' => let* a := f i c in let* b := tuple_print f n cs' (i + 1) in Ok (comma i ++ a ++ b) end.
Lemma tuple_print_ok f n : forall cs i ls, n = i + zlen ls -> zlen ls = zlen cs ->
  (forall k p c l, nth_error cs k = Some (p, c) -> nth_error ls k = Some l -> f (i + Z.of_nat k) c = Ok l) ->
  tuple_print f n cs i = Ok (comma_list i ls).
Proof.
  induction cs as [|[p c] cs IH]; intros i l N L F.
  - destruct l; [|rewrite zlen_cons, zlen_nil in L; pose proof (zlen_nonneg l0); lia]. cbn [tuple_print]. rewrite zlen_nil in N. replace (n <=? i) with true by lia. reflexivity.
  - destruct l as [|x l]; [rewrite zlen_cons, zlen_nil in L; pose proof (zlen_nonneg cs); lia|]. rewrite !zlen_cons in *. pose proof (zlen_nonneg l). cbn [tuple_print comma_list]. replace (n <=? i) with false by lia.
    pose proof (F O p c x eq_refl eq_refl) as Q0. rewrite Z.add_0_r in Q0. rewrite Q0. cbn [bind]. rewrite (IH (i + 1) l); try lia; [reflexivity|].
    intros k q c' y Q Y. replace (i + 1 + Z.of_nat k) with (i + Z.of_nat (Datatypes.S k)) by lia. eapply F; eauto.
Qed.
Lemma comma_concat ls : forall i, concat (map (fun k => comma (i + Z.of_nat k) ++ nth k ls []) (seq 0 (length ls))) = comma_list i ls.
Proof.
  induction ls as [|l ls IH]; intro i; [reflexivity|]. cbn [length seq map concat comma_list nth]. rewrite Z.add_0_r, <- app_assoc. do 2 f_equal. rewrite <- IH. rewrite <- seq_shift, map_map. f_equal.
  apply map_ext. intro k. replace (i + Z.of_nat (Datatypes.S k)) with (i + 1 + Z.of_nat k) by lia. reflexivity.
Qed.
Lemma comma_loop f ls : (forall k l, nth_error ls k = Some l -> f (Z.of_nat k) = Ok (comma (Z.of_nat k) ++ l)) -> print_loop (length ls) 0 f = Ok (comma_list 0 ls).
Proof.
  intro F. rewrite <- comma_concat. set (ks := map _ _). replace (length ls) with (length ks) by (unfold ks; rewrite map_length, seq_length; reflexivity).
  apply loop_ok. intros k l E. unfold ks in E. rewrite Z.add_0_l.
  assert (K : (k < length ls)%nat). { assert (nth_error (map (fun k => comma (0 + Z.of_nat k) ++ nth k ls []) (seq 0 (length ls))) k <> None) as Q by congruence. apply nth_error_Some in Q. rewrite map_length, seq_length in Q. exact Q. }
  rewrite (map_nth_error _ k (seq 0 (length ls)) (d := k)) in E.
  - injection E as <-. apply F. apply nth_error_nth'. exact K.
  - rewrite (nth_error_nth' _ 0%nat) by (rewrite seq_length; exact K). rewrite seq_nth by exact K. reflexivity.
Qed.

Definition print_element (d : dti) (m : mem) (o i : Z) (c : dti) : res (list out) :=
  let* r := get_containee_datum d m o i in
  match r with
  | None => Ok []
  | Some w =>
      let* p := get_pos d m o i in
      let* a1 := print_offset d m o p w in
      let* a2 := print_datum w c in
      Ok (a1 ++ a2)
  end.
Lemma print_datum_unfold v d : print_datum v d =
  if is_datum_NULL v then Ok [Text "NULL"]
  else match type d with
       | BIT_FIELD => let* z := bit_field_value v in Ok [Hex z]
       | UINT => let* z := uint_value v in Ok [Number z]
       | INT => let* z := int_value v in Ok [Number z]
       | FLOAT =>
           if size d =? 4 then let* z := float_value v in Ok [Float32 z]
           else if size d =? 8 then let* z := double_value v in Ok [Float64 z]
           else Ok []
       | LARGE_UINT => let* z := large_uint_value v in Ok [Number z]
       | LARGE_INT => let* z := large_int_value v in Ok [Number z]
       | STRING =>
           let* (m, o, n) := string_value v in
           let* l := print_chunks (Z.to_nat n) m o n 0 in
           Ok (Text """" :: l ++ [Text """"])
       | BINARY =>
           let* (m, o, n) := string_value v in
           let* l := print_loop (Z.to_nat n) 0 (fun i => let* b := rd m (o + i) 1 in Ok [Text " 0x"; Hex (dec b)]) in
           Ok ([Text "BINARY<"; Number n; Text ">["] ++ l ++ [Text "]"])
       | TUPLE =>
           let* (m, o) := tuple_value v in
           let* name := print_name (type_name d) in
           let* s := get_size d m o in
           let* n := get_element_count d m o in
           let* l := tuple_print (print_element d m o) n (containees d) 0 in
           Ok ([Text "("] ++ name ++ [Text ")<"; Number s; Text ">("] ++ l ++ [Text ")"])
       | ARRAY =>
           let* (m, o) := tuple_value v in
           let* s := get_size d m o in
           let* n := get_element_count d m o in
           let* l := print_loop (Z.to_nat n) 0 (fun i =>
             let* p := get_pos d m o i in
             let* r := get_containee_datum d m o i in
             match r, containee_ d with
             | None, _ => Ok (comma i)
             | Some _, None => UB
             | Some w, Some c =>
                 let* a1 := print_offset d m o p w in
                 let* a2 := print_datum w c in
                 Ok (comma i ++ a1 ++ a2)
             end) in
           Ok ([Text "ARRAY<"; Number s; Text ">["] ++ l ++ [Text "]"])
       end.
Proof.
  destruct d as [fin nm ty nu vr sz ms hv ec pb ce cs]; cbn [print_datum type containee_ containees type_name size].
  set (d := mk_dti _ _ _ _ _ _ _ _ _ _ _ _). destruct (is_datum_NULL v); [reflexivity|]. destruct ty; try reflexivity.
  destruct (tuple_value v) as [[m o]|]; [|reflexivity]. cbn [bind]. destruct (print_name nm) as [name|]; [|reflexivity]. cbn [bind].
  destruct (get_size d m o) as [s|]; [|reflexivity]. cbn [bind]. destruct (get_element_count d m o) as [n|]; [|reflexivity]. cbn [bind]. clearbody d.
  match goal with |- bind (?f cs 0) _ = bind (?g cs 0) _ => enough (E : forall l i, f l i = g l i) by (rewrite E; reflexivity) end.
  induction l as [|[p c] l IH]; intros i; cbn [tuple_print]; [reflexivity|]. destruct (n <=? i); [reflexivity|]. unfold print_element at 1.
  destruct (get_containee_datum d m o i) as [[w|]|]; [| |reflexivity]; cbn [bind].
  - destruct (get_pos d m o i) as [q|]; [|reflexivity]. cbn [bind]. destruct (print_offset d m o q w) as [a1|]; [|reflexivity]. cbn [bind]. destruct (print_datum w c) as [a2|]; [|reflexivity]. cbn [bind]. rewrite IH. reflexivity.
  - rewrite IH. reflexivity.
Qed.

Lemma offset_printed t m o s es i e w : container t -> cv t m o s es -> 0 <= i -> nth_error es (Z.to_nat i) = Some e -> get_value t [i] m o = Ok (Some w) ->
  exists note, print_offset t m o (pos t (zlen es) i) w = Ok note /\ located (etype t i) m o s w note.
Proof.
  intros CT V I En G. pose proof (znth_some _ _ _ En) as IL. pose proof CT as [W C]. assert (I' : 0 <= i < zlen es) by lia.
  destruct (pos_spec t (zlen es) i W C (cv_n _ _ _ _ _ V) I') as (Q1 & Q2 & Q3 & Q4). unfold print_offset. rewrite Q1. unfold is_variable_sized_type_info.
  rewrite (value_step t m o s es i e [] CT V I En) in G. pose proof (cv_el _ _ _ _ _ V i e I En) as [A1 A2].
  destruct (is_variable_sized_ (etype t i)) eqn:VS; cbn [andb].
  2: { exists []. split; [reflexivity|]. left. auto. }
  pose proof (cv_etype_wf t m o s es i CT V I') as Wt. destruct (eslot_var (max_size t) _ Wt VS) as (NB & ES & _).
  destruct e as [|z|c].
  - injection G as <-. exists []. split; [reflexivity|]. left. auto.
  - destruct A2 as (B & _). congruence.
  - destruct A2 as (_ & A2 & _). destruct (A2 eq_refl) as (F1 & F2 & _ & F3 & _). cbn [get_value] in G. unfold addr in G. rewrite VS in G.
    destruct (is_datum_NULL w) eqn:NW.
    { exists []. split; [reflexivity|]. left. split; [reflexivity|]. right. destruct w; try discriminate. reflexivity. }
    pose proof (slot_in t m o s es i CT V I') as [S1 S2]. pose proof (cv_bounds t m o s es CT V) as BB. pose proof (cv_o _ _ _ _ _ V) as Ho. pose proof (cv_s _ _ _ _ _ V) as Hs.
    pose proof (pbo_range t) as (P1 & _). pose proof (vs_range t) as VR. rewrite ES in S2. fold (vs t) in S2.
    assert (0 <= bitmap_size_in_bytes (sb t (zlen es))) as BN by (pose proof (cv_bounds t m o s es CT V); lia).
    cbn [negb]. rewrite (Q4 NB). rewrite read_value_ok by lia. cbn [bind]. fold (slot t (zlen es) m o i). eexists. split; [reflexivity|]. right.
    split; [exact VS|]. split; [intros ->; discriminate|]. eexists. split; [reflexivity|]. split; [lia|exact G].
Qed.
Theorem datum_printed t v x : means t v x -> wf t -> short_names t -> exists l, print_datum v t = Ok l /\ printed t v l.
Proof.
  induction 1 as [t | t v r IV NN O | t m o n bs S R | t m o bs es ws l T HC CT V L1 L2 G M IH]; intros Wt SN.
  - exists [Text "NULL"]. split; [rewrite print_datum_unfold; reflexivity|constructor].
  - assert (E : exists p, number_piece r = Some p /\ print_datum v t = Ok [p]).
    { rewrite print_datum_unfold. destruct v as [| |z|z|z|z|z|z|z|? ? ?|? ?]; try contradiction; try congruence; cbn [is_value] in IV; injection O as <-; cbn [is_datum_NULL number_piece];
        eexists; (split; [reflexivity|]); first [destruct IV as (T & S & _); rewrite T, S; reflexivity|destruct IV as [T _]; rewrite T; reflexivity]. }
    destruct E as (p & E1 & E2). exists [p]. split; [exact E2|]. econstructor; eauto.
  - pose proof R as R'. apply rd_inv in R'. destruct R' as (R1 & R2 & R3 & R4). destruct S as [S|S].
    + destruct (chunks_ok m o n R1 ltac:(lia) (Z.to_nat n) 0) as (cs & P & E); [lia|lia|]. rewrite Z.add_0_r, Z.sub_0_r, <- R4 in P.
      exists ([Text """"] ++ map (fun c => Chars (cut0 c)) cs ++ [Text """"]). split; [|eapply printed_string; eassumption].
      rewrite print_datum_unfold, S. cbn [is_datum_NULL string_value bind]. rewrite E. reflexivity.
    + exists ([Text "BINARY<"; Number (zlen bs); Text ">["] ++ flat_map (fun b => [Text " 0x"; Hex (b2z b)]) bs ++ [Text "]"]). split; [|eapply printed_binary; eassumption].
      rewrite print_datum_unfold, S. cbn [is_datum_NULL string_value bind]. assert (ZB : zlen bs = n) by (rewrite R4; apply zlen_slice; lia).
      rewrite (bytes_loop m o _ (fun b => [Text " 0x"; Hex (b2z b)]) bs); try lia.
      * cbn [bind]. rewrite ZB. reflexivity.
      * rewrite Z.add_0_r. congruence.
      * intros j b J E. rewrite E. cbn [bind dec]. do 4 f_equal. lia.
  - pose proof CT as [W C]. pose proof (holds_size _ _ _ _ HC) as GS. pose proof (cv_get_count _ _ _ _ _ CT V) as GC.
    assert (K : forall i, (i < length ws)%nat -> exists note l', exists w, nth_error ws i = Some w
      /\ print_offset t m o (pos t (zlen es) (Z.of_nat i)) w = Ok note /\ print_datum w (etype t (Z.of_nat i)) = Ok l'
      /\ located (etype t (Z.of_nat i)) m o (zlen bs) w note /\ printed (etype t (Z.of_nat i)) w l').
    { intros i I. destruct (nth_error ws i) as [w|] eqn:Ew; [|apply nth_error_None in Ew; lia].
      destruct (nth_error es i) as [e|] eqn:En; [|apply nth_error_None in En; unfold zlen in *; lia].
      destruct (nth_error l i) as [x|] eqn:El; [|apply nth_error_None in El; unfold zlen in *; lia].
      assert (En' : nth_error es (Z.to_nat (Z.of_nat i)) = Some e) by (rewrite Nat2Z.id; exact En).
      destruct (offset_printed t m o (zlen bs) es (Z.of_nat i) e w CT V ltac:(lia) En' (G i w Ew)) as (note & P1 & P2).
      assert (IR : 0 <= Z.of_nat i < zlen es) by (unfold zlen in *; lia).
      assert (SE : short_names (etype t (Z.of_nat i))).
      { apply (type_short [Z.of_nat i] t); auto; [apply (elem_type t m o _ es _ CT V IR)|]. apply (path_index t (zlen es) _ (cv_n _ _ _ _ _ V) IR). }
      destruct (IH i w x Ew El (cv_etype_wf t m o _ es _ CT V IR) SE) as (l' & P3 & P4). exists note, l', w. auto 10. }
    destruct (collect (fun i note l' => exists w, nth_error ws i = Some w
      /\ print_offset t m o (pos t (zlen es) (Z.of_nat i)) w = Ok note /\ print_datum w (etype t (Z.of_nat i)) = Ok l'
      /\ located (etype t (Z.of_nat i)) m o (zlen bs) w note /\ printed (etype t (Z.of_nat i)) w l') (length ws) K) as (notes & ls & N1 & N2 & N). clear K IH.
    set (both := map (fun x => fst x ++ snd x) (combine notes ls)).
    assert (LB : length both = length ws) by (unfold both; rewrite map_length, combine_length; lia).
    assert (Q : forall k b, nth_error both k = Some b -> exists w note l', b = note ++ l' /\ nth_error ws k = Some w /\ print_offset t m o (pos t (zlen es) (Z.of_nat k)) w = Ok note /\ print_datum w (etype t (Z.of_nat k)) = Ok l').
    { intros k b E. assert (KL : (k < length ws)%nat) by (rewrite <- LB; apply nth_error_Some; congruence).
      destruct (nth_error notes k) as [note|] eqn:E1; [|apply nth_error_None in E1; lia]. destruct (nth_error ls k) as [l'|] eqn:E2; [|apply nth_error_None in E2; lia].
      destruct (N k note l' E1 E2) as (w & E3 & E4 & E5 & _). exists w, note, l'. split; [|auto].
      assert (CE : nth_error (combine notes ls) k = Some (note, l')).
      { clear - E1 E2. revert ls k E1 E2. induction notes as [|a notes IHn]; intros [|b ls] [|k] E1 E2; cbn in *; try discriminate; [congruence|auto]. }
      unfold both in E. rewrite (map_nth_error _ _ _ CE) in E. injection E as <-. reflexivity. }
    exists (enclosed t (zlen bs) (commas both)). split.
    + rewrite print_datum_unfold. cbn [is_datum_NULL]. unfold enclosed. rewrite <- comma_list_0. destruct T as [T|T]; rewrite T; cbn [tuple_value bind].
      * rewrite name_printed by (apply sn_unfold in SN; apply SN). cbn [bind]. rewrite GS. cbn [bind]. rewrite GC. cbn [bind].
        rewrite (tuple_print_ok _ _ _ 0 both); [reflexivity|unfold zlen in *; lia|unfold zlen in *; rewrite LB; pose proof (tuple_count t _ T (cv_n _ _ _ _ _ V)); unfold zlen in *; lia|].
        intros k p c b PC E. rewrite Z.add_0_l. destruct (Q k b E) as (w & note & l' & -> & E3 & E4 & E5).
        assert (KE : etype t (Z.of_nat k) = c) by (unfold etype; rewrite T, Nat2Z.id, PC; reflexivity). rewrite KE in *.
        unfold print_element. pose proof (G k w E3) as GV. cbn [get_value] in GV. rewrite GV. cbn [bind].
        rewrite (cv_pos t m o _ es _ CT V) by (split; [lia|]; apply znth_some in E3; unfold zlen in *; lia). cbn [bind]. rewrite E4. cbn [bind]. rewrite E5. reflexivity.
      * rewrite GS. cbn [bind]. rewrite GC. cbn [bind]. replace (Z.to_nat (zlen es)) with (length both) by (unfold zlen in *; lia). rewrite (comma_loop _ both); [reflexivity|].
        intros k b E. destruct (Q k b E) as (w & note & l' & -> & E3 & E4 & E5).
        destruct (wf_containee t W C) as [_ EC']; [congruence|]. rewrite EC'. assert (KE : etype t (Z.of_nat k) = containee t) by (unfold etype; rewrite T; reflexivity). rewrite KE in *.
        rewrite (cv_pos t m o _ es _ CT V) by (split; [lia|]; apply znth_some in E3; unfold zlen in *; lia). cbn [bind].
        pose proof (G k w E3) as GV. cbn [get_value] in GV. rewrite GV. cbn [bind]. rewrite E4. cbn [bind]. rewrite E5. reflexivity.
    + eapply printed_elements with (ws := ws); auto; [congruence|unfold zlen in *; lia|unfold zlen in *; lia|].
      intros i w note l' E1 E2 E3. cbn zeta. destruct (N i note l' E2 E3) as (w' & E4 & _ & _ & P1 & P2). assert (w' = w) as -> by congruence.
      rewrite (element_etype t m o _ es _ CT V) by (split; [lia|]; apply znth_some in E1; unfold zlen in *; lia). auto.
Qed.

(** ** stored data *)
Lemma data_printed t m o bs : holds t m o bs -> short_names t -> exists v l, get_datum t m o = Ok (Some v) /\ print_data t m o = Ok l /\ printed t v l.
Proof.
  intros H SN. destruct (means_exists t bs (h_good _ _ _ _ H) m o H) as (v & x & E & M).
  destruct (datum_printed t v x M (proj1 (DataFacts.good_size _ _ (h_good _ _ _ _ H))) SN) as (l & P1 & P2). exists v, l. split; [exact E|]. split; [|exact P2].
  unfold print_data. rewrite E. exact P1.
Qed.

(** ** pages *)
Section PrintPage.
Variables (ps h : Z) (d0 d : size_def) (ty t : dti).
Hypothesis Hps : 128 <= ps <= max_bytes.
Hypothesis TB : type_built ty.
Hypothesis FIN : finalize ty = (true, t).
Hypothesis SD : initialize_size_def d0 ty = Some d.
Hypothesis SN : short_names t.
Let Hdef : def_ok d := table_def_ok d0 d ty t TB FIN SD.
Variables (p : mem) (hb : list byte) (c : content) (f : Z).
Hypothesis V : PageFacts.view ps d p hb c f.
Hypothesis FA : Forall (is_tuple t) c.

Lemma row_ok ex nt sz i : 0 <= i < zlen c -> ex i = exists_tuple_on_page p ps d i -> nt i = get_nth_tuple_on_page p ps d i ->
  (forall o s, tuple_size d p o = Ok s -> sz o = Ok s) ->
  exists r, print_entry ex nt sz t p i = Ok r /\ row_printed p ps d t i r.
Proof.
  intros I EX NT SZ. destruct (v_get_nth ps d Hps Hdef _ _ _ _ i V ltac:(lia)) as (x & G & X). pose proof (v_exists ps d Hps Hdef _ _ _ _ i V ltac:(lia)) as E.
  pose proof (view_len ps d Hps _ _ _ _ V) as VL. pose proof (zlen_nonneg hb). pose proof (value_size_range ps) as VR. pose proof (eq_refl : max_bytes = 2147483520) as MB.
  replace (i <? zlen c) with true in E by lia. unfold print_entry, row_printed. rewrite EX, E, NT, G. cbn [bind]. destruct x as [o|].
  - destruct X as (_ & b & En & TS & RD & B1 & B2 & OK). rewrite En. cbn [is_tomb_stone negb].
    assert (IB : is_tuple t (Some b)) by (rewrite Forall_forall in FA; apply FA; rewrite <- En; apply nth_In; unfold zlen in I; lia). destruct IB as [DB GB].
    pose proof RD as RD'. apply rd_inv in RD'. destruct RD' as (_ & _ & _ & SB).
    assert (DP : data_at t p o). { eapply da_copy; [exact DB|exact GB|lia|lia|]. rewrite <- SB. symmetry. apply slice_all. reflexivity. }
    destruct (data_holds _ _ _ DP) as [bs HB]. destruct (data_printed t p o bs HB SN) as (v & l & GD & PD & PR).
    rewrite (SZ o _ TS). cbn [bind]. unfold print_tuple. rewrite PD. cbn [bind]. pose proof (zlen_nonneg b). rewrite u32_id by lia.
    eexists. split; [reflexivity|]. eexists _, _. split; [reflexivity|]. split; [reflexivity|]. cbn beta iota.
    exists (zlen b), v, l. split; [rewrite <- (C29_same_size d0 ty t d TB FIN SD); exact TS|]. split; [exact GD|]. split; [exact PR|]. rewrite <- !app_assoc. reflexivity.
  - destruct X as [X|X]; [lia|]. rewrite X. cbn [is_tomb_stone negb]. eexists. split; [reflexivity|]. eexists _, _. split; [reflexivity|]. split; reflexivity.
Qed.
Lemma rows_ok ex nt sz : (forall i, ex i = exists_tuple_on_page p ps d i) -> (forall i, nt i = get_nth_tuple_on_page p ps d i) ->
  (forall o s, tuple_size d p o = Ok s -> sz o = Ok s) ->
  exists rs, zlen rs = zlen c /\ (forall i r, nth_error rs i = Some r -> row_printed p ps d t (Z.of_nat i) r)
    /\ print_loop (Z.to_nat (zlen c)) 0 (print_entry ex nt sz t p) = Ok (concat rs).
Proof.
  intros EX NT SZ. destruct (collect (fun i (_ : unit) r => print_entry ex nt sz t p (Z.of_nat i) = Ok r /\ row_printed p ps d t (Z.of_nat i) r) (length c)) as (us & rs & L1 & L2 & K).
  { intros i I. destruct (row_ok ex nt sz (Z.of_nat i) ltac:(unfold zlen; lia) (EX _) (NT _) SZ) as (r & P). exists tt, r. exact P. }
  assert (K' : forall i r, nth_error rs i = Some r -> print_entry ex nt sz t p (Z.of_nat i) = Ok r /\ row_printed p ps d t (Z.of_nat i) r).
  { intros i r E. destruct (nth_error us i) as [u|] eqn:U; [exact (K i u r U E)|]. apply nth_error_None in U. assert (nth_error rs i <> None) as Q by congruence. apply nth_error_Some in Q. lia. }
  exists rs. split; [unfold zlen; lia|]. split; [intros i r E; apply (K' i r E)|]. replace (Z.to_nat (zlen c)) with (length rs) by (unfold zlen; lia).
  apply loop_ok. intros k l E. rewrite Z.add_0_l. apply (K' k l E).
Qed.
Lemma page_ok : exists l, print_page p ps d t = Ok l /\ page_printed p ps d t l.
Proof.
  pose proof (v_allotted ps d Hps Hdef _ _ _ _ V) as Q1. pose proof (v_occupied ps d Hps Hdef _ _ _ _ V) as Q2. pose proof (v_occupied_tombs ps d Hps Hdef _ _ _ _ V) as Q3.
  pose proof (v_free ps d Hps Hdef _ _ _ _ V) as Q4. pose proof (v_frag ps d Hps Hdef _ _ _ _ V) as Q5. pose proof (v_count ps d Hps Hdef _ _ _ _ V) as Q6.
  pose proof (v_tombs ps d Hps Hdef _ _ _ _ V) as Q7. pose proof (v_header_size ps d Hps Hdef _ _ _ _ V) as Q8.
  unfold print_page. rewrite Q1. cbn [bind]. rewrite Q2. cbn [bind]. rewrite Q3. cbn [bind]. rewrite Q4. cbn [bind]. rewrite Q5. cbn [bind]. rewrite Q6. cbn [bind]. rewrite Q7. cbn [bind].
  unfold page_printed. rewrite Q1, Q2, Q3, Q4, Q5, Q6, Q7, Q8.
  assert (LT : get_page_layout_type d = if sd_variable d then SLOTTED_PAGE_LAYOUT else FIXED_ARRAY_PAGE_LAYOUT) by (unfold get_page_layout_type, is_variable_sized; reflexivity).
  destruct (sd_variable d) eqn:Ev; rewrite LT.
  - destruct (rows_ok (sl_exists p ps) (sl_get_nth p ps) (tuple_size d p)) as (rs & R1 & R2 & R3).
    { intro i. unfold exists_tuple_on_page. rewrite LT. reflexivity. } { intro i. unfold get_nth_tuple_on_page. rewrite LT. reflexivity. } { auto. }
    unfold get_tuple_count_on_page in Q6. rewrite LT in Q6. unfold print_slotted_page. rewrite Q6. cbn [bind]. rewrite R3. cbn [bind].
    eexists. split; [reflexivity|]. eexists _, _, _, _, _, _, _, _, rs. do 7 (split; [reflexivity|]). split; [exact R1|]. split; [exact R2|]. split; [|reflexivity].
    unfold line. cbn [print_tabs repeat app]. reflexivity.
  - destruct (rows_ok (fa_exists p ps) (fa_get_nth p ps d) (fun _ => Ok (sd_size d))) as (rs & R1 & R2 & R3).
    { intro i. unfold exists_tuple_on_page. rewrite LT. reflexivity. } { intro i. unfold get_nth_tuple_on_page. rewrite LT. reflexivity. }
    { intros o s E. unfold tuple_size in E. rewrite Ev in E. exact E. }
    unfold get_tuple_count_on_page in Q6. rewrite LT in Q6. unfold print_fixed_array_page. rewrite Q6. cbn [bind].
    assert (CP : exists n, fa_capacity p ps d = Ok n /\ get_maximum_tuple_count_on_page (zlen hb) ps d = Ok n).
    { pose proof V as V'. unfold PageFacts.view in V'. rewrite Ev in V'. destruct V' as [[_ (B & D & R & _)] _]. exists (fcap ps (zlen hb) (sd_size d)).
      split; [eapply (f_cap ps d Hps Hdef Ev); exact R|]. unfold get_maximum_tuple_count_on_page. rewrite LT.
      destruct (fr_to_be_allotted ps d Hps Hdef Ev (zlen hb)) as [_ E]; [pose proof (zlen_nonneg hb); lia|pose proof (f_bound _ _ _ _ _ _ _ _ R); lia|]. rewrite E. reflexivity. }
    destruct CP as (n & CP1 & CP2). rewrite CP1. cbn [bind]. rewrite R3. cbn [bind].
    eexists. split; [reflexivity|]. eexists _, _, _, _, _, _, _, _, rs. do 7 (split; [reflexivity|]). split; [exact R1|]. split; [exact R2|].
    split; [|exists (zlen hb), n; split; [reflexivity|]; split; [exact CP2|reflexivity]].
    unfold line. cbn [print_tabs repeat app]. reflexivity.
Qed.
End PrintPage.

(** ** types *)
Definition ended (l : list out) : Prop := l = [] \/ exists l', l = l' ++ [nl].
Lemma ended_app a b : ended a -> ended b -> ended (a ++ b).
Proof. intros A [->|[b' ->]]; [rewrite app_nil_r; exact A|]. right. exists (a ++ b'). apply app_assoc. Qed.
Lemma ended_line tabs l : ended (line tabs l).
Proof. right. exists (print_tabs tabs ++ l). unfold line. apply app_assoc. Qed.
Lemma has_line_line tabs l : has_line (line tabs l) tabs l.
Proof. exists [], []. split; [reflexivity|]. left. reflexivity. Qed.
Lemma has_line_l l tabs x b : has_line l tabs x -> has_line (l ++ b) tabs x.
Proof. intros (a & c & -> & E). exists a, (c ++ b). split; [|exact E]. rewrite <- !app_assoc. reflexivity. Qed.
Lemma has_line_r l tabs x a : ended a -> has_line l tabs x -> has_line (a ++ l) tabs x.
Proof. intros A (b & c & -> & E). exists (a ++ b), c. split; [rewrite <- app_assoc; reflexivity|]. apply ended_app; [exact A|exact E]. Qed.

Fixpoint fields_print (f : dti -> res (list out)) (tabs : nat) (cs : list (position * dti)) : res (list out) :=
  match cs with
  | [] => Ok []
  | (p, c) :: cs' => let* a := print_position p c (tabs + 2) in let* b := f c in let* r := fields_print f tabs cs' in Ok (a ++ b ++ r)
  end.
Lemma print_type_unfold d tabs : print_type_info_recursive d tabs =
  if negb (is_container_type_info d) then Ok (print_own d tabs)
  else match type d with
       | TUPLE =>
           let* l := fields_print (fun c => print_type_info_recursive c (tabs + 3)) tabs (containees d) in
           Ok (print_own d tabs ++ line (tabs + 1) [Text "("] ++ l ++ line (tabs + 1) [Text ")"])
       | _ =>
           match containee_ d with
           | None => UB
           | Some c =>
               let* l := print_type_info_recursive c (tabs + 2) in
               Ok (print_own d tabs ++ line (tabs + 1) [Text "["] ++ l ++ line (tabs + 1) [Text "]"])
           end
       end.
Proof.
  destruct d as [fin nm ty nu vr sz ms hv ec pb ce cs]; cbn [print_type_info_recursive type containee_ containees].
  set (d := mk_dti _ _ _ _ _ _ _ _ _ _ _ _). destruct (negb (is_container_type_info d)); [reflexivity|]. destruct ty; try reflexivity. clearbody d.
  match goal with |- bind (?f cs) _ = bind (?g cs) _ => enough (E : forall l, f l = g l) by (rewrite E; reflexivity) end.
  induction l as [|[p c] l IH]; cbn [fields_print]; [reflexivity|]. destruct (print_position p c (tabs + 2)) as [a|]; [|reflexivity]. cbn [bind].
  destruct (print_type_info_recursive c (tabs + 3)) as [b|]; [|reflexivity]. cbn [bind]. rewrite IH. reflexivity.
Qed.

Ltac lines := repeat first [apply ended_line | apply ended_app | (left; reflexivity)].
Ltac find_line := repeat first [apply has_line_line | (apply has_line_l; solve [find_line]) | (apply has_line_r; [solve [lines]|])].
Definition own_described (l : list out) (tabs : nat) (t : dti) : Prop :=
  has_line l tabs [Text "type_name : """; Chars (c_string (type_name t)); Text """ ("; Text (if is_finalized t then "" else "not-"); Text "finalized)"]
  /\ has_line l tabs [Text "type : "; Text (name_of_type (type t))]
  /\ has_line l tabs [Text "is_nullable : "; Number (if is_nullable_type_info t then 1 else 0)]
  /\ has_line l tabs [Text "is_variable_sized : "; Number (if is_variable_sized_type_info t then 1 else 0)]
  /\ (if is_variable_sized_type_info t
      then has_line l tabs [Text "min_size : "; Number (size t)] /\ has_line l tabs [Text "max_size : "; Number (max_size t)]
      else has_line l tabs [Text (match type t with BIT_FIELD => "bit_field_size : " | _ => "size : " end); Number (size t)])
  /\ (is_container_type_info t = true -> has_line l tabs (if has_variable_element_count t then [Text "element_count : variable"] else [Text "element_count : "; Number (element_count t)]))
  /\ layout_described l tabs t.
Lemma own_ended d tabs : ended (print_own d tabs).
Proof.
  unfold print_own. lines; destruct (type d), (is_variable_sized_type_info d), (is_container_type_info d), (has_variable_element_count d); cbn [negb]; lines.
Qed.
Lemma own_ok d tabs : wf d -> own_described (print_own d tabs) tabs d.
Proof.
  intro W. pose proof (wf_node d W) as (_ & _ & _ & _ & _ & _ & N). unfold own_described, print_own. rewrite until_zero_firstn. fold (c_string (type_name d)).
  split; [find_line|]. split; [unfold name_of_type, type_as_string; destruct (type d); find_line|]. split; [find_line|]. split; [find_line|]. split.
  - unfold is_variable_sized_type_info in *. destruct (is_variable_sized_ d) eqn:VS.
    + destruct (type d) eqn:T; try (destruct N as [N _]; congruence); cbn [negb]; split; find_line.
    + destruct (type d) eqn:T; cbn [negb]; find_line.
  - split; [intro C; rewrite C; destruct (has_variable_element_count d); destruct (type d), (is_variable_sized_type_info d); cbn [negb]; find_line|].
    unfold layout_described. split.
    { assert ((if is_nullable_type_info d && negb (is_variable_sized_type_info d) then 1 else 0) = b2n (needs_is_valid_bit d)) as ->
        by (unfold needs_is_valid_bit, is_nullable_type_info, b2n; destruct (is_variable_sized_type_info d), (is_nullable d); reflexivity). find_line. }
    split; [unfold is_container_type_info, is_container_data_type, b2n; destruct (type d), (is_variable_sized_type_info d); cbn [negb]; find_line|].
    intro C. rewrite C. unfold b2n. destruct (type d), (is_variable_sized_type_info d); cbn [negb].
    all: split; [find_line|]; split; [find_line|]; intros ->; cbn [negb]; find_line.
Qed.
Lemma fn_unfold t : short_field_names t <->
  match type t with
  | TUPLE => forall p c, In (p, c) (containees t) -> zlen (c_string (field_name p)) < 64 /\ short_field_names c
  | ARRAY => forall c, containee_ t = Some c -> short_field_names c
  | _ => True
  end.
Proof.
  destruct t as [fn tn ty nu vs sz ms hv ec pb ce cs]. cbn [short_field_names type containees containee_]. destruct ty; try reflexivity.
  - induction cs as [|[p c] cs IH]; [split; [intros _ ? ? []|intros; exact I]|]. split.
    + intros (A & B & C) p' c' [E|I]; [injection E as <- <-; auto|exact (proj1 IH C p' c' I)].
    + intros A. destruct (A p c (or_introl eq_refl)) as [B1 B2]. split; [exact B1|]. split; [exact B2|]. apply IH. intros p' c' I. apply A. right. exact I.
  - destruct ce as [c|]; split; intro A; [intros c' E; injection E as <-; exact A|apply A; reflexivity|discriminate|exact I].
Qed.
Lemma layout_l l tabs t b : layout_described l tabs t -> layout_described (l ++ b) tabs t.
Proof.
  intros (A1 & A2 & A3). do 2 (split; [apply has_line_l; assumption|]). intro C. destruct (A3 C) as (B1 & B2 & B3).
  do 2 (split; [apply has_line_l; assumption|]). intro V. apply has_line_l, B3, V.
Qed.
Lemma layout_r l tabs t a : ended a -> layout_described l tabs t -> layout_described (a ++ l) tabs t.
Proof.
  intros E (A1 & A2 & A3). do 2 (split; [apply has_line_r; assumption|]). intro C. destruct (A3 C) as (B1 & B2 & B3).
  do 2 (split; [apply has_line_r; assumption|]). intro V. apply has_line_r, B3, V. exact E.
Qed.
Lemma field_l l tabs p c b : field_described l tabs p c -> field_described (l ++ b) tabs p c.
Proof. intros (A1 & A2 & A3). do 2 (split; [apply has_line_l; assumption|]). intros N V. apply has_line_l, A3; assumption. Qed.
Lemma field_r l tabs p c a : ended a -> field_described l tabs p c -> field_described (a ++ l) tabs p c.
Proof. intros E (A1 & A2 & A3). do 2 (split; [apply has_line_r; assumption|]). intros N V. apply has_line_r, A3; assumption. Qed.
Lemma described_l l tabs t b : described l tabs t -> described (l ++ b) tabs t.
Proof.
  intros (A1 & A2 & A3 & A4 & A5 & A6 & A7 & A8). do 4 (split; [apply has_line_l; assumption|]). split; [destruct (is_variable_sized_type_info t); [destruct A5; split|]; apply has_line_l; assumption|].
  split; [|split; [intro T; apply has_line_l, A7, T|apply layout_l, A8]]. intro T. destruct (A6 T) as [B1 B2]. split; [apply has_line_l, B1|]. intros p c I. apply field_l, (B2 p c I).
Qed.
Lemma described_r l tabs t a : ended a -> described l tabs t -> described (a ++ l) tabs t.
Proof.
  intros E (A1 & A2 & A3 & A4 & A5 & A6 & A7 & A8). do 4 (split; [apply has_line_r; assumption|]). split; [destruct (is_variable_sized_type_info t); [destruct A5; split|]; apply has_line_r; assumption|].
  split; [|split; [intro T; apply has_line_r, A7, T; exact E|apply layout_r; assumption]]. intro T. destruct (A6 T) as [B1 B2]. split; [apply has_line_r; [exact E|exact B1]|]. intros p c I. apply field_r; [exact E|exact (B2 p c I)].
Qed.
Lemma own_said l tabs t : own_described l tabs t -> (type t = TUPLE -> has_variable_element_count t = false /\ element_count t = zlen (containees t)) ->
  (type t = TUPLE -> forall p c, In (p, c) (containees t) -> field_described l (tabs + 2) p c) -> described l tabs t.
Proof.
  intros (A1 & A2 & A3 & A4 & A5 & A6 & A7) TC F. do 5 (split; [assumption|]). split; [|split; [|exact A7]].
  - intro T. split; [|apply F; exact T]. destruct (TC T) as [E1 E2]. rewrite E1, E2 in A6. apply A6. unfold is_container_type_info. rewrite T. reflexivity.
  - intro T. apply A6. unfold is_container_type_info. rewrite T. reflexivity.
Qed.
Lemma own_l l tabs t b : own_described l tabs t -> own_described (l ++ b) tabs t.
Proof.
  intros (A1 & A2 & A3 & A4 & A5 & A6 & A7). do 4 (split; [apply has_line_l; assumption|]). split; [destruct (is_variable_sized_type_info t); [destruct A5; split|]; apply has_line_l; assumption|].
  split; [intro T; apply has_line_l, A6, T|apply layout_l, A7].
Qed.
Lemma position_ok p c tabs : zlen (c_string (field_name p)) < 64 -> exists l, print_position p c tabs = Ok l /\ ended l /\ field_described l tabs p c.
Proof.
  intro L. unfold print_position. rewrite name_printed by exact L. cbn [bind]. eexists. split; [reflexivity|]. split.
  - lines; destruct (type c), (is_variable_sized_type_info c), (needs_is_valid_bit c); cbn [negb]; lines.
  - split; [find_line|]. split; [destruct (type c), (is_variable_sized_type_info c); cbn [negb data_type_eqb]; find_line|].
    intros N S. unfold needs_is_valid_bit, is_nullable_type_info in *. rewrite S in *. cbn [negb andb orb] in *. rewrite N. destruct (type c); find_line.
Qed.
Definition type_ok (d : dti) : Prop := forall tabs, exists l, print_type_info_recursive d tabs = Ok l /\ ended l
  /\ forall pa t, get_type_info d pa = Some t -> described l (tabs + indent d pa) t.
Lemma fields_ok tabs : forall cs, (forall p c, In (p, c) cs -> zlen (c_string (field_name p)) < 64 /\ type_ok c) ->
  exists l, fields_print (fun c => print_type_info_recursive c (tabs + 3)) tabs cs = Ok l /\ ended l
  /\ forall p c, In (p, c) cs -> field_described l (tabs + 2) p c
     /\ forall pa t, get_type_info c pa = Some t -> described l (tabs + 3 + indent c pa) t.
Proof.
  induction cs as [|[p c] cs IH]; intro F; cbn [fields_print]; [exists []; split; [reflexivity|]; split; [left; reflexivity|intros ? ? []]|].
  destruct (F p c (or_introl eq_refl)) as [L T]. destruct (position_ok p c (tabs + 2) L) as (a & E1 & N1 & H1). destruct (T (tabs + 3)%nat) as (b & E2 & N2 & H2).
  destruct IH as (r & E3 & N3 & H3); [intros q x I; apply F; right; exact I|]. rewrite E1. cbn [bind]. rewrite E2. cbn [bind]. rewrite E3. cbn [bind].
  eexists. split; [reflexivity|]. split; [lines; assumption|]. intros q x [I|I].
  - injection I as <- <-. split; [apply field_l; exact H1|]. intros pa t G. apply described_r; [exact N1|]. apply described_l. apply H2. exact G.
  - destruct (H3 q x I) as [K1 K2]. split; [apply field_r; [exact N1|]; apply field_r; [exact N2|]; exact K1|]. intros pa t G. apply described_r; [exact N1|]. apply described_r; [exact N2|]. apply K2. exact G.
Qed.
Lemma element_type_step d i c : containee_type_without_data d i = Some c -> element_type d i = c.
Proof. intro E. unfold element_type. cbn [get_type_info]. rewrite E. reflexivity. Qed.
Theorem type_printed d : wf d -> short_field_names d -> type_ok d.
Proof.
  induction d as [d IHs IHc] using dti_induction. intros W FN tabs. pose proof (proj1 (wf_unfold d) W) as [(_ & _ & _ & _ & _ & _ & ND) WC]. rewrite print_type_unfold.
  destruct (is_container_type_info d) eqn:C; cbn [negb].
  2: { eexists. split; [reflexivity|]. split; [apply own_ended|]. intros [|i pa] t G; cbn [get_type_info] in G.
       - injection G as <-. cbn [indent]. rewrite Nat.add_0_r. apply own_said; [apply own_ok; exact W| |]; intro T; unfold is_container_type_info in C; rewrite T in C; discriminate.
       - unfold containee_type_without_data in G. rewrite C in G. discriminate. }
  apply fn_unfold in FN. destruct (data_type_eqb (type d) TUPLE) eqn:TT.
  - assert (T : type d = TUPLE) by (destruct (type d); try discriminate; reflexivity). rewrite T in *.
    destruct (fields_ok tabs (containees d)) as (l & E & N & H).
    { intros p c I. destruct (FN p c I) as [F1 F2]. split; [exact F1|]. exact (IHc p c I (WC p c I) F2). }
    rewrite E. cbn [bind]. eexists. split; [reflexivity|]. split; [apply ended_app; [apply own_ended|]; apply ended_app; [apply ended_line|]; apply ended_app; [exact N|apply ended_line]|]. intros [|i pa] t G; cbn [get_type_info] in G.
    + injection G as <-. cbn [indent]. rewrite Nat.add_0_r. apply own_said.
      * apply own_l, own_ok, W.
      * intros _. destruct ND as (_ & VE & _). split; [exact VE|]. unfold element_count. rewrite T. reflexivity.
      * intros _ p c I. apply field_r; [apply own_ended|]. apply field_r; [apply ended_line|]. apply field_l. apply (H p c I).
    + destruct (containee_type_without_data d i) as [c|] eqn:CE; [|discriminate]. cbn [indent]. rewrite T, (element_type_step d i c CE). cbn [data_type_eqb].
      apply described_r; [apply own_ended|]. apply described_r; [apply ended_line|]. apply described_l. rewrite Nat.add_assoc.
      assert (I : exists p, In (p, c) (containees d)).
      { unfold containee_type_without_data in CE. rewrite C, T in CE. cbn [negb] in CE. destruct (negb (is_variable_element_count d) && (element_count d <=? i)); [discriminate|].
        destruct (nth_error (containees d) (Z.to_nat i)) as [[p c']|] eqn:Ne; [|discriminate]. injection CE as <-. exists p. eapply nth_error_In; exact Ne. }
      destruct I as [p I]. apply (H p c I). exact G.
  - assert (NT : type d <> TUPLE) by (intro T; rewrite T in TT; discriminate). destruct (wf_containee d W C NT) as [Wc Ec].
    assert (FC : short_field_names (containee d)).
    { destruct (type d) eqn:T; try congruence; try (unfold is_container_type_info in C; rewrite T in C; discriminate).
      - destruct ND as (_ & _ & U & _). assert (containee d = uint8_type) as -> by congruence. apply fn_unfold. exact I.
      - destruct ND as (_ & _ & U & _). assert (containee d = uint8_type) as -> by congruence. apply fn_unfold. exact I.
      - apply FN. exact Ec. }
    destruct (IHs _ Ec Wc FC (tabs + 2)%nat) as (l & E & N & H).
    replace (match type d with TUPLE => _ | _ => _ end) with (Ok (print_own d tabs ++ line (tabs + 1) [Text "["] ++ l ++ line (tabs + 1) [Text "]"])).
    2: { rewrite Ec, E. cbn [bind]. destruct (type d); try reflexivity. congruence. }
    eexists. split; [reflexivity|]. split; [apply ended_app; [apply own_ended|]; apply ended_app; [apply ended_line|]; apply ended_app; [exact N|apply ended_line]|]. intros [|i pa] t G; cbn [get_type_info] in G.
    + injection G as <-. cbn [indent]. rewrite Nat.add_0_r. apply own_said; [apply own_l, own_ok, W| |]; intro T; congruence.
    + destruct (containee_type_without_data d i) as [c|] eqn:CE; [|discriminate]. cbn [indent]. rewrite TT, (element_type_step d i c CE).
      apply described_r; [apply own_ended|]. apply described_r; [apply ended_line|]. apply described_l. rewrite Nat.add_assoc.
      assert (c = containee d) as ->; [|apply H; exact G].
      unfold containee_type_without_data in CE. rewrite C in CE. cbn [negb] in CE. destruct (negb (is_variable_element_count d) && (element_count d <=? i)); [discriminate|].
      destruct (type d) eqn:T; try congruence; try (unfold is_container_type_info in C; rewrite T in C; discriminate); destruct ND as (_ & _ & U & _); congruence.
Qed.

(** ** strings *)
Lemma string_ended pa : forall d m o bs t sm so n x, path_ok pa -> holds d m o bs -> get_type_info d pa = Some t -> type t = STRING ->
  get_value d pa m o = Ok (Some (DStr sm so n)) -> rd sm so n = Ok x -> cut0 x = x.
Proof.
  induction pa as [|i pa IH]; intros d m o bs t sm so n x PO H GT T GV R.
  - cbn [get_type_info] in GT. injection GT as ->. pose proof (observe_self t m o bs H) as OS. unfold observe in OS. rewrite GV in OS. cbn [get_type_info bind obs_of] in OS.
    rewrite R in OS. cbn [bind] in OS. unfold obs_self in OS. rewrite T in OS. injection OS as ->. apply cut0_idem.
  - inversion PO as [|? ? P1 P2]; subst. destruct (is_container_type_info d) eqn:C.
    2: { rewrite not_container_value in GV by (congruence || exact C). discriminate. }
    destruct (holds_cv d m o bs H C) as (es & CT & V & _ & GE). 
    destruct (nth_error es (Z.to_nat i)) as [e|] eqn:En.
    + pose proof (znth_some _ _ _ En) as IL. rewrite (step_type d m o _ es i pa CT V ltac:(lia)) in GT. rewrite (value_step d m o _ es i e pa CT V ltac:(lia) En) in GV.
      destruct e as [|z|c]; [discriminate|destruct pa; discriminate|].
      exact (IH _ _ _ _ _ _ _ _ _ P2 (child_holds d m o bs es i c CT V ltac:(lia) En (GE i c ltac:(lia) En)) GT T GV R).
    + apply nth_error_None in En. pose proof (observe_out d m o _ es i pa CT V ltac:(unfold zlen; lia)) as OO. unfold observe in OO. rewrite GV, GT in OO. cbn [bind obs_of] in OO. rewrite R in OO. discriminate.
Qed.
