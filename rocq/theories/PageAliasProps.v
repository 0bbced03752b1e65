(** * A tuple that lies on a page can be given to the operations on that page (C68)

    [append_tuple_on_page], [insert_tuple_on_page] and [update_tuple_on_page]
    take the tuple as a pointer. PageLayout.v models them with a tuple in memory
    of its own; PageAlias.v models the same functions with a pointer that may
    point into the page they modify, as the one returned by
    [get_nth_tuple_on_page] does. *)
From Coq Require Import ZifyBool ZifyNat ZifyN Zify.
From Verif Require Import BytesFacts SpecFacts PageReach PageAliasFacts PageProps.
From Verif Require Export PageExamples PageAlias.
Ltac Zify.zify_post_hook ::= Z.div_mod_to_equations.

(** C68: the entry [j] of the page, at the place [o] where the page reports it,
    is a tuple; giving its pointer to an operation on the same page has the
    answer and the effect that a copy of the tuple kept outside of the page has,
    to the last byte of the page. *)
Theorem C68_same_as_copy : forall ps h d p c j o, limits ps h d -> reachable ps h d p -> contents ps d p = Ok c ->
  is_u32 j -> get_nth_tuple_on_page p ps d j = Ok (Some o) ->
  exists t, entry c j = Some (Some t) /\ ext_ok d (Some t) /\ rd p o (zlen t) = Ok t /\
    append_source_on_page p ps d (Some (Inside o)) = append_tuple_on_page p ps d (Some t) /\
    can_append_source_on_page p ps d (Some (Inside o)) = can_append_tuple_on_page p ps d (Some t) /\
    space_to_be_occupied_by_source p ps d (Some (Inside o)) = get_space_to_be_occupied_by_tuple_on_page ps d (Some t) /\
    forall i, is_u32 i ->
      insert_source_on_page p ps d i (Some (Inside o)) = insert_tuple_on_page p ps d i (Some t) /\
      can_insert_source_on_page p ps d i (Some (Inside o)) = can_insert_tuple_on_page p ps d i (Some t) /\
      update_source_on_page p ps d i (Some (Inside o)) = update_tuple_on_page p ps d i (Some t) /\
      can_update_source_on_page p ps d i (Some (Inside o)) = can_update_tuple_on_page p ps d i (Some t).
Proof.
  intros ps h d p c j o L R Hc Hj G. destruct L as (Hps & Hh & Hdef).
  destruct (reach_contents _ _ Hps Hdef _ _ _ Hh R Hc) as (hb & f & V & Hz). unfold is_u32 in *.
  destruct (alias_ok ps d Hps Hdef p hb c f j o V ltac:(lia) G) as (t & LJ & N & T & TS & SL & A1 & A2 & A3 & A4).
  exists t. split.
  { unfold entry. rewrite <- N. apply nth_error_nth'. unfold zlen in *. lia. }
  split; [exact T|]. split.
  { destruct (v_get_nth ps d Hps Hdef p hb c f j V ltac:(lia)) as (x & E & X). rewrite G in E. injection E as <-.
    destruct X as (_ & t' & N' & _ & RD & _). rewrite N in N'. injection N' as <-. exact RD. }
  do 3 (split; [assumption|]). intros i Hi. apply A4. lia.
Qed.
Print Assumptions C68_same_as_copy.

(** with a tuple outside of the page (or NULL) the functions of PageAlias.v are the ones of PageLayout.v *)
Theorem C68_outside : forall p ps d i x,
  append_source_on_page p ps d (option_map Outside x) = append_tuple_on_page p ps d x /\
  insert_source_on_page p ps d i (option_map Outside x) = insert_tuple_on_page p ps d i x /\
  update_source_on_page p ps d i (option_map Outside x) = update_tuple_on_page p ps d i x.
Proof.
  intros. split; [apply outside_append|]. split; [apply outside_insert|apply outside_update].
Qed.
Print Assumptions C68_outside.

(** appending a copy of an entry *)
Theorem C68_append : forall ps h d p c j o, limits ps h d -> reachable ps h d p -> contents ps d p = Ok c ->
  is_u32 j -> get_nth_tuple_on_page p ps d j = Ok (Some o) ->
  exists b p', append_source_on_page p ps d (Some (Inside o)) = Ok (b, p') /\
    can_append_source_on_page p ps d (Some (Inside o)) = Ok b /\ reachable ps h d p' /\
    if b then contents ps d p' = Ok (c ++ [nth (Z.to_nat j) c None]) else p' = p.
Proof.
  intros ps h d p c j o L R Hc Hj G. destruct (C68_same_as_copy _ _ _ _ _ _ _ L R Hc Hj G) as (t & E & T & _ & A1 & A2 & _).
  assert (N : nth (Z.to_nat j) c None = Some t) by (apply nth_error_nth; exact E).
  destruct (C02_append _ _ _ _ _ _ L R Hc T) as (b & p' & EA & P). rewrite A1, A2, N. exists b, p'. split; [exact EA|].
  destruct (C10_can_predicts _ _ _ _ j _ L R Hj T) as ((b' & p'' & EA' & C) & _). rewrite EA in EA'. injection EA' as <- <-.
  split; [exact C|]. split; [|exact P]. eapply (reachable_op ps h d p (Append (Some t))); [exact R|exact T|].
  cbn [run_op]. rewrite EA. reflexivity.
Qed.
Print Assumptions C68_append.

(** inserting a copy of an entry, also before the entry itself *)
Theorem C68_insert : forall ps h d p c i j o, limits ps h d -> reachable ps h d p -> contents ps d p = Ok c ->
  is_u32 i -> is_u32 j -> get_nth_tuple_on_page p ps d j = Ok (Some o) ->
  exists b p', insert_source_on_page p ps d i (Some (Inside o)) = Ok (b, p') /\
    can_insert_source_on_page p ps d i (Some (Inside o)) = Ok b /\ reachable ps h d p' /\
    if b then contents ps d p' = Ok (insert_at i (nth (Z.to_nat j) c None) c) else p' = p.
Proof.
  intros ps h d p c i j o L R Hc Hi Hj G. destruct (C68_same_as_copy _ _ _ _ _ _ _ L R Hc Hj G) as (t & E & T & _ & _ & _ & _ & A).
  destruct (A i Hi) as (A1 & A2 & _). assert (N : nth (Z.to_nat j) c None = Some t) by (apply nth_error_nth; exact E).
  destruct (C03_insert _ _ _ _ _ _ _ L R Hc Hi T) as (b & p' & EA & _ & P). rewrite A1, A2, N. exists b, p'. split; [exact EA|].
  destruct (C10_can_predicts _ _ _ _ i _ L R Hi T) as (_ & (b' & p'' & EA' & C) & _). rewrite EA in EA'. injection EA' as <- <-.
  split; [exact C|]. split; [|exact P]. eapply (reachable_op ps h d p (Insert i (Some t))); [exact R|split; [exact Hi|exact T]|].
  cbn [run_op]. rewrite EA. reflexivity.
Qed.
Print Assumptions C68_insert.

(** copying an entry over another one *)
Theorem C68_update : forall ps h d p c i j o, limits ps h d -> reachable ps h d p -> contents ps d p = Ok c ->
  is_u32 i -> is_u32 j -> get_nth_tuple_on_page p ps d j = Ok (Some o) ->
  exists b p', update_source_on_page p ps d i (Some (Inside o)) = Ok (b, p') /\
    can_update_source_on_page p ps d i (Some (Inside o)) = Ok b /\ reachable ps h d p' /\
    if b then contents ps d p' = Ok (replace_at i (nth (Z.to_nat j) c None) c) else p' = p.
Proof.
  intros ps h d p c i j o L R Hc Hi Hj G. destruct (C68_same_as_copy _ _ _ _ _ _ _ L R Hc Hj G) as (t & E & T & _ & _ & _ & _ & A).
  destruct (A i Hi) as (_ & _ & A1 & A2). assert (N : nth (Z.to_nat j) c None = Some t) by (apply nth_error_nth; exact E).
  destruct (C04_update _ _ _ _ _ _ _ L R Hc Hi T) as (b & p' & f & EA & _ & _ & _ & _ & _ & P). rewrite A1, A2, N. exists b, p'. split; [exact EA|].
  destruct (C10_can_predicts _ _ _ _ i _ L R Hi T) as (_ & _ & (b' & p'' & EA' & C)). rewrite EA in EA'. injection EA' as <- <-.
  split; [exact C|]. split; [|exact P]. eapply (reachable_op ps h d p (Update i (Some t))); [exact R|split; [exact Hi|exact T]|].
  cbn [run_op]. rewrite EA. reflexivity.
Qed.
Print Assumptions C68_update.

(** an entry written over itself is found unchanged *)
Corollary C68_over_itself : forall ps h d p c j o, limits ps h d -> reachable ps h d p -> contents ps d p = Ok c ->
  is_u32 j -> get_nth_tuple_on_page p ps d j = Ok (Some o) ->
  exists p', update_source_on_page p ps d j (Some (Inside o)) = Ok (true, p') /\ reachable ps h d p' /\ contents ps d p' = Ok c.
Proof.
  intros ps h d p c j o L R Hc Hj G. destruct (C68_update _ _ _ _ _ _ _ _ L R Hc Hj Hj G) as (b & p' & EA & _ & R' & P).
  destruct (C68_same_as_copy _ _ _ _ _ _ _ L R Hc Hj G) as (t & E & T & _ & _ & _ & _ & A).
  destruct (A j Hj) as (_ & _ & A1 & _). assert (N : nth (Z.to_nat j) c None = Some t) by (apply nth_error_nth; exact E).
  assert (LJ : j < zlen c). { assert (Z.to_nat j < length c)%nat by (apply nth_error_Some; unfold entry in E; rewrite E; discriminate). unfold zlen, is_u32 in *. lia. }
  destruct (C04_update _ _ _ _ _ _ _ L R Hc Hj T) as (b' & p'' & f & EA' & _ & _ & _ & B & _). rewrite <- A1, EA in EA'. injection EA' as <- <-.
  assert (b = true) as -> by (apply B; [exact LJ|right; rewrite N; reflexivity]). exists p'. split; [exact EA|]. split; [exact R'|].
  rewrite P. f_equal. unfold replace_at. unfold entry in E. destruct (nth_error_split _ _ E) as (l1 & l2 & -> & Ll). rewrite N, <- Ll.
  rewrite firstn_app, firstn_all, Nat.sub_diag. cbn [firstn]. rewrite app_nil_r. f_equal.
  rewrite skipn_app, skipn_all2 by lia. replace (S (length l1) - length l1)%nat with 1%nat by lia. reflexivity.
Qed.
Print Assumptions C68_over_itself.

(** both layouts, with room for the copy and without: the pages of PageExamples.v *)
Definition place_of (r : res (option Z)) : Z := match r with Ok (Some o) => o | _ => -1 end.
Example C68_cases :
  let ov := place_of (get_nth_tuple_on_page vp 128 vd 1) in
  let of := place_of (get_nth_tuple_on_page fp 128 fd 2) in
  limits 128 10 vd /\ reachable 128 10 vd vp /\ contents 128 vd vp = Ok vc /\
  get_nth_tuple_on_page vp 128 vd 1 = Ok (Some ov) /\ 0 <= ov /\
  (* appended, and inserted before itself *)
  after 128 vd (append_source_on_page vp 128 vd (Some (Inside ov))) = Ok (true, vc ++ [Some (vt 31 Byte.x65)]) /\
  after 128 vd (insert_source_on_page vp 128 vd 0 (Some (Inside ov))) = Ok (true, Some (vt 31 Byte.x65) :: vc) /\
  (* over a shorter tuple, over a tomb stone and over itself *)
  after 128 vd (update_source_on_page vp 128 vd 2 (Some (Inside ov))) = Ok (true, replace_at 2 (Some (vt 31 Byte.x65)) vc) /\
  after 128 vd (update_source_on_page vp 128 vd 0 (Some (Inside ov))) = Ok (true, replace_at 0 (Some (vt 31 Byte.x65)) vc) /\
  after 128 vd (update_source_on_page vp 128 vd 1 (Some (Inside ov))) = Ok (true, vc) /\
  (* fixed sized tuples *)
  limits 128 20 fd /\ reachable 128 20 fd fp /\ contents 128 fd fp = Ok fc /\
  get_nth_tuple_on_page fp 128 fd 2 = Ok (Some of) /\ 0 <= of /\
  after 128 fd (append_source_on_page fp 128 fd (Some (Inside of))) = Ok (true, fc ++ [Some (ft Byte.x64)]) /\
  after 128 fd (insert_source_on_page fp 128 fd 1 (Some (Inside of))) = Ok (true, insert_at 1 (Some (ft Byte.x64)) fc) /\
  after 128 fd (update_source_on_page fp 128 fd 2 (Some (Inside of))) = Ok (true, fc) /\
  update_source_on_page fp 128 fd 4 (Some (Inside of)) = Ok (false, fp).
Proof.
  cbv zeta. destruct v_reachable as [V1 V2], f_reachable as [F1 F2].
  split; [exact v_limits|]. split; [exact V1|]. split; [exact V2|].
  do 7 (split; [vm_compute; congruence|]).
  split; [exact f_limits|]. split; [exact F1|]. split; [exact F2|].
  repeat split; vm_compute; congruence.
Qed.
