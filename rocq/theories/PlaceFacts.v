(** * Lemmas about the places of tuples *)
From Coq Require Import ZifyBool ZifyNat ZifyN Zify Permutation Sorted.
From Verif Require Import BytesFacts SpecFacts PageReach PageRewrite ImageFacts UnusedFacts PlaceSpec PageElementFacts.
From Verif Require Import Datum Tuple TupleSpec PageElement.
Ltac Zify.zify_post_hook ::= Z.div_mod_to_equations.

Definition place_of (es : list sentry) : list (option Z) := map (option_map fst) es.

Lemma zlen_place es : zlen (place_of es) = zlen es.
Proof. apply zlen_map. Qed.
Lemma nth_place es n : nth n (place_of es) None = option_map fst (nth n es None).
Proof. unfold place_of. change (@None Z) with (option_map (@fst Z (list byte)) None) at 1. apply map_nth. Qed.
Lemma lowest_place ps es : lowest ps (place_of es) = eofs ps es.
Proof. unfold place_of. induction es as [|[[o t]|] r IH]; cbn [map option_map fst lowest eofs]; [reflexivity| |]; rewrite IH; reflexivity. Qed.

Lemma map_insert_at {A B} (f : A -> B) i x l : map f (insert_at i x l) = insert_at i (f x) (map f l).
Proof. unfold insert_at. rewrite map_app. cbn [map]. rewrite firstn_map, skipn_map. reflexivity. Qed.
Lemma map_replace_at {A B} (f : A -> B) i x l : map f (replace_at i x l) = replace_at i (f x) (map f l).
Proof. unfold replace_at. rewrite map_app. cbn [map]. rewrite firstn_map, skipn_map. reflexivity. Qed.
Lemma map_remove_at {A B} (f : A -> B) i l : map f (remove_at i l) = remove_at i (map f l).
Proof. unfold remove_at. rewrite map_app, firstn_map, skipn_map. reflexivity. Qed.
Lemma map_swap_at {A B} (f : A -> B) i j l : map f (swap_at i j l) = swap_at i j (map f l).
Proof.
  unfold swap_at. rewrite !nth_error_map. destruct (nth_error l (Z.to_nat i)); [|reflexivity]. destruct (nth_error l (Z.to_nat j)); [|reflexivity].
  cbn [option_map]. rewrite !map_replace_at. reflexivity.
Qed.
Lemma eofs_replace_None ps i es : eofs ps (replace_at i None es) = eofs ps (remove_at i es).
Proof. unfold replace_at, remove_at. rewrite eofs_mid. reflexivity. Qed.

(** ** compaction *)
Fixpoint above (o : Z) (l : list (Z * Z)) (es : list sentry) : Z :=
  match l with [] => 0 | (a, i) :: r => (if o <=? a then slen (nth (Z.to_nat i) es None) else 0) + above o r es end.
Lemma above_perm o l l' es : Permutation l l' -> above o l es = above o l' es.
Proof. intro P. induction P as [|[a i] l l' P IH|[a i] [b j] l|l l' l'' P1 IH1 P2 IH2]; cbn [above]; lia. Qed.
Lemma above_ext o l es es' : (forall a i, In (a, i) l -> slen (nth (Z.to_nat i) es None) = slen (nth (Z.to_nat i) es' None)) -> above o l es = above o l es'.
Proof.
  induction l as [|[a i] l IH]; intro H; cbn [above]; [reflexivity|]. rewrite (H a i (or_introl eq_refl)), IH; [reflexivity|]. intros b j Hb. apply (H b j). right. exact Hb.
Qed.
Lemma above_none o l es : (forall a i, In (a, i) l -> a < o) -> above o l es = 0.
Proof.
  induction l as [|[a i] l IH]; intro H; cbn [above]; [reflexivity|]. rewrite IH by (intros b j Hb; apply (H b j); right; exact Hb).
  pose proof (H a i (or_introl eq_refl)). destruct (Z.leb_spec o a); lia.
Qed.
Lemma above_coll o es : forall pre, above o (coll (zlen pre) es) (pre ++ es) = bytes_from o (place_of es) (content_of es).
Proof.
  induction es as [|e r IH]; intro pre; [reflexivity|]. specialize (IH (pre ++ [e])). rewrite <- app_assoc in IH. cbn [app] in IH. rewrite zlen_app, zlen_cons, zlen_nil in IH.
  replace (zlen pre + (1 + 0)) with (zlen pre + 1) in IH by lia. destruct e as [[a t]|]; cbn [coll above place_of content_of map option_map fst snd bytes_from].
  - rewrite IH. replace (Z.to_nat (zlen pre)) with (length pre) by (unfold zlen; lia). rewrite nth_middle. reflexivity.
  - exact IH.
Qed.

Lemma relocate_other l : forall e es j, (forall i, In i (map snd l) -> 0 <= i < zlen es) -> 0 <= j -> ~ In j (map snd l) ->
  nth (Z.to_nat j) (relocate l e es) None = nth (Z.to_nat j) es None.
Proof.
  induction l as [|[o i] l IH]; intros e es j H Hj Nj; cbn [relocate]; [reflexivity|]. cbn [map snd In] in H, Nj. pose proof (H i (or_introl eq_refl)) as Hi.
  destruct (nth (Z.to_nat i) es None) as [[o' t]|].
  - assert (L : zlen (upd es i [Some (e - zlen t, t)]) = zlen es) by (apply zlen_upd; rewrite ?zlen_cons, ?zlen_nil; lia).
    rewrite IH; [|intros k Hk; rewrite L; apply H; right; exact Hk|exact Hj|tauto]. rewrite nth_upd by (rewrite ?zlen_cons, ?zlen_nil; lia). rewrite zlen_cons, zlen_nil. destruct (_ && _) eqn:B; [|reflexivity]. exfalso. assert (i = j) by lia. tauto.
  - apply IH; [intros k Hk; apply H; right; exact Hk|exact Hj|tauto].
Qed.
Lemma relocate_places l : forall e es, StronglySorted strictly l -> NoDup (map snd l) ->
  (forall o i, In (o, i) l -> 0 <= i < zlen es /\ exists t, nth (Z.to_nat i) es None = Some (o, t)) ->
  forall o i t, In (o, i) l -> nth (Z.to_nat i) es None = Some (o, t) -> nth (Z.to_nat i) (relocate l e es) None = Some (e - above o l es, t).
Proof.
  induction l as [|[o1 i1] l IH]; intros e es St Nd H o i t Hin En; [destruct Hin|].
  inversion St as [|? ? St' Fo]; subst. cbn [map snd] in Nd. inversion Nd as [|? ? Ni Nd']; subst. rewrite Forall_forall in Fo.
  destruct (H o1 i1 (or_introl eq_refl)) as (Hi1 & t1 & E1). cbn [relocate above]. rewrite E1. cbn [slen].
  assert (L : zlen (upd es i1 [Some (e - zlen t1, t1)]) = zlen es) by (apply zlen_upd; rewrite ?zlen_cons, ?zlen_nil; lia).
  assert (In_ : forall k, In k (map snd l) -> 0 <= k < zlen es).
  { intros k Hk. apply in_map_iff in Hk as ((a & b) & <- & Hk). apply (H a b). right. exact Hk. }
  destruct Hin as [Q|Hin].
  - injection Q as -> ->. rewrite E1 in En. injection En as ->. rewrite relocate_other; [|intros k Hk; rewrite L; auto|lia|exact Ni].
    rewrite nth_upd by (rewrite ?zlen_cons, ?zlen_nil; lia). rewrite zlen_cons, zlen_nil. replace (_ && _) with true by lia. replace (i - i) with 0 by lia. cbn [nth Z.to_nat].
    rewrite above_none; [|intros a b Hb; apply (Fo (a, b) Hb)]. replace (o <=? o) with true by lia. do 2 f_equal. lia.
  - assert (Hlt : o < o1) by (apply (Fo (o, i) Hin)). replace (o <=? o1) with true by lia.
    assert (Other : forall a k, In (a, k) l -> nth (Z.to_nat k) (upd es i1 [Some (e - zlen t1, t1)]) None = nth (Z.to_nat k) es None).
    { intros a k Hk. assert (Ik : In k (map snd l)) by (apply in_map_iff; exists (a, k); auto). pose proof (In_ k Ik) as Rk.
      rewrite nth_upd by (rewrite ?zlen_cons, ?zlen_nil; lia). rewrite zlen_cons, zlen_nil. destruct (_ && _) eqn:B; [|reflexivity].
      exfalso. apply Ni. replace i1 with k by lia. exact Ik. }
    rewrite (IH (e - zlen t1) (upd es i1 [Some (e - zlen t1, t1)]) St' Nd') with (o := o) (t := t); [|intros a k Hk|exact Hin|rewrite (Other o i Hin); exact En].
    + rewrite (above_ext o l _ es); [do 2 f_equal; lia|]. intros a k Hk. rewrite (Other a k Hk). reflexivity.
    + rewrite L, (Other a k Hk). apply H. right. exact Hk.
Qed.

Section Page.
Variable ps : Z.
Variable d : size_def.
Hypothesis Hps : 128 <= ps <= max_bytes.
Hypothesis Hdef : def_ok d.
Hypothesis Ev : sd_variable d = true.
Local Notation vs := (value_size ps).
Local Notation srep := (srep ps d).

Lemma places_srep p hb es l : srep p hb es -> (places_are ps d p l <-> l = place_of es).
Proof.
  intro S. unfold places_are, get_tuple_count_on_page, get_nth_tuple_on_page, get_page_layout_type, is_variable_sized. rewrite Ev, (s_tuple_count Hps S). split.
  - intros [E N]. injection E as E. apply (nth_ext _ _ None None); [unfold zlen in E; pose proof (zlen_place es); unfold zlen in *; lia|].
    intros n Hn. rewrite nth_place. assert (0 <= Z.of_nat n < zlen l) as R by (unfold zlen; lia). specialize (N _ R). rewrite (s_get_nth Hps S) in N by lia. rewrite Nat2Z.id in N.
    destruct (Z.ltb_spec (Z.of_nat n) (zlen es)); [congruence|lia].
  - intros ->. rewrite zlen_place. split; [reflexivity|]. intros i Hi. rewrite (s_get_nth Hps S), nth_place by lia. destruct (Z.ltb_spec i (zlen es)); [reflexivity|lia].
Qed.

Lemma compact_places srt p hb es : sorts srt -> srep p hb es ->
  place_of (relocate (ordered srt es) ps es) = together_at_end ps (place_of es) (content_of es).
Proof.
  intros Hs S. destruct (ordered_spec srt es Hs) as [P So]. pose proof (offsets_nodup ps d Hps _ _ _ S) as N1. pose proof (coll_nodup ps Hps 0 es) as N2.
  assert (I : forall o i, In (o, i) (ordered srt es) -> 0 <= i < zlen es /\ exists t, nth (Z.to_nat i) es None = Some (o, t)).
  { intros o i H. apply (Permutation_in _ (Permutation_sym P)) in H. apply coll_iff in H as (t & Hi & E). rewrite Z.sub_0_r in E. assert (A : nth_error es (Z.to_nat i) <> None) by congruence.
    apply nth_error_Some in A. split; [unfold zlen; lia|]. exists t. apply nth_error_nth. exact E. }
  assert (St : StronglySorted strictly (ordered srt es)).
  { apply desc_strict; [exact So|]. eapply Permutation_NoDup; [apply Permutation_map; exact P|exact N1]. }
  assert (Nd : NoDup (map snd (ordered srt es))) by (eapply Permutation_NoDup; [apply Permutation_map; exact P|exact N2]).
  assert (Ir : forall i, In i (map snd (ordered srt es)) -> 0 <= i < zlen es).
  { intros i H. apply in_map_iff in H as ((a & b) & <- & H). apply (I a b H). }
  pose proof (zlen_relocate (ordered srt es) ps es Ir) as L.
  apply (nth_ext _ _ None None); [unfold together_at_end, place_of; rewrite !map_length; unfold zlen in L; lia|].
  intros n Hn. rewrite nth_place. unfold together_at_end. change (@None Z) with (option_map (fun o => ps - bytes_from o (place_of es) (content_of es)) None) at 1.
  rewrite map_nth, nth_place. replace n with (Z.to_nat (Z.of_nat n)) by lia. unfold place_of in Hn. rewrite map_length in Hn.
  destruct (nth (Z.to_nat (Z.of_nat n)) es None) as [[o t]|] eqn:E.
  - assert (H : In (o, Z.of_nat n) (ordered srt es)).
    { apply (Permutation_in _ P). apply coll_iff. exists t. split; [lia|]. rewrite Z.sub_0_r. rewrite <- E. apply nth_error_nth'. unfold zlen in L. lia. }
    rewrite (relocate_places _ ps es St Nd I o _ t H E). cbn [option_map fst]. do 2 f_equal. rewrite <- (above_perm o _ _ es P). exact (above_coll o es []).
  - rewrite relocate_other; [rewrite E; reflexivity|exact Ir|lia|]. intro H. apply in_map_iff in H as ((a & b) & Eb & H). cbn in Eb. subst b. destruct (I _ _ H) as (_ & t & E'). congruence.
Qed.

Lemma can_upd_succeeds hb es i x : 0 <= i -> can_upd ps hb es i x = succeeds ps d (sfree ps hb es) (content_of es) (place_of es) (Update i x).
Proof.
  intro Hi. unfold can_upd, succeeds. rewrite content_len, lowest_place, nth_place, nth_content. destruct (Z.leb_spec (zlen es) i); destruct (Z.ltb_spec i (zlen es)); try (exfalso; lia); [reflexivity|].
  cbn [andb]. destruct x as [t|]; [|reflexivity]. destruct (nth (Z.to_nat i) es None) as [[o t0]|]; cbn [option_map fst snd xlen]; [|rewrite orb_false_r; reflexivity].
  pose proof (zlen_nonneg t0). destruct (Z.eqb_spec o (eofs ps es)); lia.
Qed.
Lemma upd_entry_place es i x : 0 <= i < zlen es -> option_map fst (upd_entry ps es i x) = replacing ps (content_of es) (place_of es) i x.
Proof.
  intro Hi. unfold upd_entry, replacing, below. destruct x as [t|]; [|reflexivity]. rewrite nth_place, nth_content.
  assert (R : lowest ps (replace_at i None (place_of es)) = eofs ps (remove_at i es)).
  { change (@None Z) with (option_map (@fst Z (list byte)) None). unfold place_of. rewrite <- map_replace_at. fold (place_of (replace_at i None es)). rewrite lowest_place. apply eofs_replace_None. }
  rewrite R. destruct (nth (Z.to_nat i) es None) as [[o t0]|] eqn:E; cbn [option_map fst snd xlen].
  - rewrite lowest_place. destruct (Z.eqb_spec o (eofs ps es)); cbn [orb negb andb option_map fst]; [reflexivity|].
    destruct (Z.ltb_spec (zlen t0) (zlen t)); destruct (Z.leb_spec (zlen t) (zlen t0)); try lia; reflexivity.
  - do 2 f_equal. rewrite (replace_at_split i es None Hi) at 1. rewrite E. rewrite eofs_mid. reflexivity.
Qed.
Lemma strip_firstn es : place_of (strip es) = firstn (Z.to_nat (zlen (place_of es) - trailing_tomb_stones (content_of es))) (place_of es).
Proof.
  destruct (strip_spec (content_of es)) as (E & _). unfold content_of in E at 1. rewrite strip_map in E. fold (content_of (strip es)) in E.
  assert (L : zlen (strip es) = zlen (drop_last (trailing_tomb_stones (content_of es)) (content_of es))) by (rewrite <- E; symmetry; apply content_len).
  destruct (strip_split es) as (k & Ek). unfold drop_last in L.
  assert (Hn : Z.to_nat (zlen (place_of es) - trailing_tomb_stones (content_of es)) = length (strip es)).
  { rewrite zlen_place. unfold zlen in L. rewrite firstn_length in L. assert (length (content_of es) = length es) by apply map_length.
    pose proof (leading_nonneg (rev (content_of es))). unfold trailing_tomb_stones in *. unfold zlen in *. lia. }
  rewrite Hn. unfold place_of. rewrite firstn_map. f_equal. transitivity (firstn (length (strip es)) (strip es ++ repeat None k)); [|rewrite <- Ek; reflexivity]. rewrite firstn_app, Nat.sub_diag, firstn_all. cbn [firstn]. rewrite app_nil_r. reflexivity.
Qed.

Lemma new_place l1 l2 hb e x : ext_ok d x -> option_map snd e = x ->
  sfree ps hb (l1 ++ e :: l2) = sfree ps hb (l1 ++ l2) - (vs + xlen x) -> option_map fst e = below ps (place_of (l1 ++ l2)) x.
Proof.
  intros Hx E F. unfold below. rewrite lowest_place. destruct x as [t|].
  - pose proof (tuple_ok_pos _ _ Hdef Hx) as Ht. destruct e as [[o t1]|]; [|discriminate]. cbn in E. injection E as ->. unfold sfree in F. rewrite eofs_mid in F. rewrite !zlen_app, !zlen_cons in *. cbn [xlen] in *. cbn [option_map fst].
    f_equal. lia.
  - destruct e; [discriminate|]. reflexivity.
Qed.

Lemma machine p hb es op : srep p hb es -> op_ok (zlen hb) d op ->
  let b := succeeds ps d (sfree ps hb es) (content_of es) (place_of es) op in
  exists r p' hb' es', run_op ps d op p = Ok (r, p') /\ (can_fail op = true -> fst r = b2n b) /\ srep p' hb' es'
    /\ place_of es' = if b then places_after ps (content_of es) op (place_of es) else place_of es.
Proof.
  intros S Ho b. unfold run_op, append_tuple_on_page, insert_tuple_on_page, update_tuple_on_page, discard_tuple_on_page, discard_all_tuples_on_page,
    discard_trailing_tomb_stones_on_page, swap_tuples_on_page, run_page_compaction, zero_out_free_space_on_page, get_page_layout_type, is_variable_sized, answer_of in *. rewrite Ev.
  assert (Sp : forall x, entry_space ps d x = vs + xlen x).
  { intro x. unfold entry_space. rewrite Ev. destruct x; cbn [xlen]; lia. }
  destruct op as [x|i x|i x|i| | |i j|srt ok| |at_ bs]; subst b; cbn [op_ok can_fail succeeds places_after] in *; rewrite ?Sp.
  - destruct (sl_append_spec ps d Hps Hdef p hb es x S Ho) as (p' & E1 & R1). rewrite E1. cbn [bind]. destruct (vs + xlen x <=? sfree ps hb es).
    + destruct R1 as (e & E & R & F). do 4 eexists. split; [reflexivity|]. split; [reflexivity|]. split; [exact R|]. unfold place_of. rewrite map_app. cbn [map]. do 2 f_equal.
      rewrite (new_place es [] hb e x Ho E); rewrite ?app_nil_r; [reflexivity|exact F].
    + subst. do 4 eexists. split; [reflexivity|]. split; [reflexivity|]. split; [exact S|reflexivity].
  - destruct Ho as [Hi Hx]. destruct (sl_insert_spec ps d Hps Hdef p hb es i x S Hx Hi) as (p' & E1 & R1). rewrite E1. cbn [bind]. rewrite content_len. destruct (_ && _).
    + destruct R1 as (e & E & R & F). do 4 eexists. split; [reflexivity|]. split; [reflexivity|]. split; [exact R|]. unfold place_of. rewrite map_insert_at. f_equal.
      unfold insert_at in F. rewrite (new_place (firstn (Z.to_nat i) es) (skipn (Z.to_nat i) es) hb e x Hx E); rewrite ?firstn_skipn; [reflexivity|exact F].
    + subst. do 4 eexists. split; [reflexivity|]. split; [reflexivity|]. split; [exact S|reflexivity].
  - destruct Ho as [Hi Hx]. unfold is_u32 in Hi. destruct (sl_update_places ps d Hps Hdef p hb es i x S Hx ltac:(lia)) as (p' & E1 & R1). rewrite E1. cbn [bind].
    change ((i <? zlen (content_of es)) && _) with (succeeds ps d (sfree ps hb es) (content_of es) (place_of es) (Update i x)).
    rewrite <- (can_upd_succeeds hb es i x ltac:(lia)). destruct (can_upd ps hb es i x) eqn:C.
    + assert (i < zlen es) by (unfold can_upd in C; destruct (Z.leb_spec (zlen es) i); [discriminate|lia]).
      do 4 eexists. split; [reflexivity|]. split; [reflexivity|]. split; [exact R1|]. unfold place_of at 1. rewrite map_replace_at, upd_entry_place by lia. reflexivity.
    + subst. do 4 eexists. split; [reflexivity|]. split; [reflexivity|]. split; [exact S|reflexivity].
  - unfold is_u32 in Ho. destruct (sl_discard_spec ps d Hps p hb es i S ltac:(lia)) as (p' & E1 & R1). rewrite E1. cbn [bind]. rewrite content_len. destruct (i <? zlen es).
    + do 4 eexists. split; [reflexivity|]. split; [reflexivity|]. split; [exact R1|]. apply map_remove_at.
    + subst. do 4 eexists. split; [reflexivity|]. split; [reflexivity|]. split; [exact S|reflexivity].
  - destruct (sl_discard_all_spec ps d Hps p hb es S) as (p' & E1 & R1). rewrite E1. cbn [bind]. do 4 eexists. split; [reflexivity|]. split; [discriminate|]. split; [exact R1|reflexivity].
  - destruct (sl_discard_trailing_spec ps d Hps p hb es S) as (p' & E1 & R1). rewrite E1. cbn [bind]. do 4 eexists. split; [reflexivity|]. split; [discriminate|]. split; [exact R1|]. apply strip_firstn.
  - destruct Ho as [Hi Hj]. unfold is_u32 in *. destruct (sl_swap_spec ps d Hps p hb es i j S ltac:(lia) ltac:(lia)) as (p' & E1 & R1). rewrite E1. cbn [bind]. rewrite content_len. destruct (_ && _).
    + do 4 eexists. split; [reflexivity|]. split; [reflexivity|]. split; [exact R1|]. apply map_swap_at.
    + subst. do 4 eexists. split; [reflexivity|]. split; [reflexivity|]. split; [exact S|reflexivity].
  - destruct ok.
    + destruct (sl_compact_places ps d Hps srt p hb es Ho S) as (p' & e1 & E1 & R1 & _ & _ & P1). rewrite E1. cbn [bind]. do 4 eexists. split; [reflexivity|]. split; [discriminate|]. split; [exact R1|].
      subst e1. exact (compact_places srt p hb es Ho S).
    + rewrite (sl_compact_nomem ps d Hps srt p hb es S). cbn [bind]. do 4 eexists. split; [reflexivity|]. split; [discriminate|]. split; [exact S|reflexivity].
  - destruct (sl_zero_out_spec ps d Hps p hb es S) as (p' & E1 & R1 & _). rewrite E1. cbn [bind]. do 4 eexists. split; [reflexivity|]. split; [discriminate|]. split; [exact R1|reflexivity].
  - destruct Ho as [Ha Hb]. destruct (sl_write_header_spec ps d Hps p hb es at_ bs S Ha Hb) as (p' & E1 & R1). rewrite E1. cbn [bind]. do 4 eexists. split; [reflexivity|]. split; [discriminate|]. split; [exact R1|reflexivity].
Qed.
End Page.
