(** * The values of datums and of the elements of well formed data *)
From Verif Require Export DataAt CompareSpec NumeralProps IdentFacts.
From Coq Require Import ZifyBool ZifyNat ZifyN Zify.
Ltac Zify.zify_post_hook ::= Z.div_mod_to_equations.

Notation holds := holds.

Inductive means : dti -> datum -> value -> Prop :=
| m_null t : means t DNull VNull
| m_num t v r : is_value t v -> v <> DNull -> obs_of t v = Ok r -> means t v (VNum r)
| m_str t m o n bs : string_type t -> rd m o n = Ok bs -> means t (DStr m o n) (bytes_value bs)
| m_ptr t m o bs es ws l :
    (type t = TUPLE \/ type t = ARRAY) -> holds t m o bs -> container t -> cv t m o (zlen bs) es ->
    zlen l = zlen es -> zlen ws = zlen es ->
    (forall i w, nth_error ws i = Some w -> get_value t [Z.of_nat i] m o = Ok (Some w)) ->
    (forall i w x, nth_error ws i = Some w -> nth_error l i = Some x -> means (etype t (Z.of_nat i)) w x) ->
    means t (DPtr m o) (VList l).

Lemma sdec_range l : 1 <= zlen l -> - (256 ^ zlen l / 2) <= sdec l < 256 ^ zlen l / 2.
Proof.
  intro L. pose proof (dec_range l) as R. unfold sdec. assert (E : 256 ^ zlen l = 2 * (256 ^ zlen l / 2)).
  { rewrite pow256 by lia. rewrite half_pow by lia. rewrite <- Z.pow_succ_r by lia. f_equal. lia. }
  destruct (Z.ltb_spec (dec l) (256 ^ zlen l / 2)); lia.
Qed.
Lemma observe_typed d pa m o w t : get_value d pa m o = Ok (Some w) -> get_type_info d pa = Some t ->
  observe d pa m o = let* r := obs_of t w in Ok (Some r).
Proof. intros E T. unfold observe. rewrite E, T. cbn [bind]. destruct w; reflexivity. Qed.
Lemma nth_ext {A} (l : list A) : forall k, (forall i, nth_error l i = nth_error k i) -> l = k.
Proof.
  induction l as [|a l IH]; intros [|b k] H; [reflexivity|specialize (H O); discriminate|specialize (H O); discriminate|].
  pose proof (H O) as E. injection E as ->. f_equal. apply IH. intro i. apply (H (S i)).
Qed.
Lemma datum_typed t m a c : holds t m a c -> exists w, get_datum t m a = Ok (Some w)
  /\ ((is_container_type_info t = false /\ is_value t w /\ w <> DNull /\ exists r, obs_of t w = Ok r)
      \/ (string_type t /\ exists o n bs, w = DStr m o n /\ rd m o n = Ok bs)
      \/ ((type t = TUPLE \/ type t = ARRAY) /\ w = DPtr m a)).
Proof.
  intro H. pose proof (observe_self t m a c H) as O. unfold observe in O. cbn [get_value get_type_info] in O.
  apply bind_inv in O. destruct O as (w & E & O). destruct w as [w|]; [|discriminate].
  assert (O' : (let* r := obs_of t w in Ok (Some r)) = Ok (Some (obs_self t c))) by (destruct w; exact O). clear O. rename O' into O. apply bind_inv in O. destruct O as (r & O & _).
  exists w. split; [exact E|]. pose proof (h_good _ _ _ _ H) as G. destruct (good_size _ _ G) as (W & B & _ & ZR & _ & FX).
  pose proof (wf_node t W) as (_ & _ & _ & _ & _ & _ & N). unfold get_datum in E. destruct (type t) eqn:T.
  - unfold is_bit_field in B. rewrite T in B. discriminate.
  - left. destruct N as (V & N). apply bind_inv in E. destruct E as (bs & E & K). injection K as <-. apply rd_inv in E. destruct E as (E1 & E2 & E3 & ->).
    assert (L : zlen (slice m a (size t)) = size t) by (apply zlen_slice; lia). pose proof (dec_range (slice m a (size t))) as D. rewrite L in D.
    split; [unfold is_container_type_info; rewrite T; reflexivity|]. split; [split; [exact T|exact D]|]. split; [discriminate|]. eauto.
  - left. destruct N as (V & N). apply bind_inv in E. destruct E as (bs & E & K). injection K as <-. apply rd_inv in E. destruct E as (E1 & E2 & E3 & ->).
    assert (L : zlen (slice m a (size t)) = size t) by (apply zlen_slice; lia). pose proof (sdec_range (slice m a (size t)) ltac:(lia)) as D. rewrite L in D.
    split; [unfold is_container_type_info; rewrite T; reflexivity|]. split; [split; [exact T|exact D]|]. split; [discriminate|]. eauto.
  - left. destruct N as (V & N). apply bind_inv in E. destruct E as (bs & E & K). injection K as <-. apply rd_inv in E. destruct E as (E1 & E2 & E3 & ->).
    assert (L : zlen (slice m a (size t)) = size t) by (apply zlen_slice; lia). pose proof (dec_range (slice m a (size t))) as D. rewrite L in D.
    split; [unfold is_container_type_info; rewrite T; reflexivity|].
    destruct N as [N|N]; rewrite N in *; cbn [Z.eqb Pos.eqb] in *; (split; [split; [exact T|split; [exact N|exact D]]|split; [discriminate|eauto]]).
  - left. destruct N as (V & N). apply bind_inv in E. destruct E as (bs & E & K). injection K as <-. apply rd_inv in E. destruct E as (E1 & E2 & E3 & ->).
    assert (L : zlen (slice m a (size t)) = size t) by (apply zlen_slice; lia). pose proof (dec_range (slice m a (size t))) as D. rewrite L in D.
    split; [unfold is_container_type_info; rewrite T; reflexivity|]. split; [split; [exact T|exact D]|]. split; [discriminate|]. eauto.
  - left. destruct N as (V & N). apply bind_inv in E. destruct E as (bs & E & K). injection K as <-. apply rd_inv in E. destruct E as (E1 & E2 & E3 & ->).
    assert (L : zlen (slice m a (size t)) = size t) by (apply zlen_slice; lia). pose proof (sdec_range (slice m a (size t)) ltac:(lia)) as D. rewrite L in D.
    split; [unfold is_container_type_info; rewrite T; reflexivity|]. split; [split; [exact T|exact D]|]. split; [discriminate|]. eauto.
  - right. left. split; [left; exact T|]. apply bind_inv in E. destruct E as (n & _ & E). apply bind_inv in E. destruct E as (n' & _ & E). injection E as <-.
    cbn [obs_of] in O. apply bind_inv in O. destruct O as (bs & O & _). eauto.
  - right. left. split; [right; exact T|]. apply bind_inv in E. destruct E as (n & _ & E). injection E as <-.
    cbn [obs_of] in O. apply bind_inv in O. destruct O as (bs & O & _). eauto.
  - right. right. injection E as <-. auto.
  - right. right. injection E as <-. auto.
Qed.

Lemma collect {A B} (P : nat -> A -> B -> Prop) n : (forall i, (i < n)%nat -> exists a b, P i a b) ->
  exists la lb, length la = n /\ length lb = n /\ forall i a b, nth_error la i = Some a -> nth_error lb i = Some b -> P i a b.
Proof.
  induction n as [|n IH]; intro H.
  - exists [], []. split; [reflexivity|]. split; [reflexivity|]. intros [|i]; discriminate.
  - destruct IH as (la & lb & L1 & L2 & K); [intros; apply H; lia|]. destruct (H n ltac:(lia)) as (a & b & p).
    exists (la ++ [a]), (lb ++ [b]). rewrite !app_length. cbn [length]. split; [lia|]. split; [lia|]. intros i x y X Y.
    assert (i < n \/ i = n)%nat as [I|I].
    { assert (nth_error (la ++ [a]) i <> None) as Q by congruence. apply nth_error_Some in Q. rewrite app_length in Q. cbn in Q. lia. }
    + rewrite nth_error_app1 in X by lia. rewrite nth_error_app1 in Y by lia. eauto.
    + rewrite nth_error_app2 in X by lia. rewrite nth_error_app2 in Y by lia. replace (i - length la)%nat with O in X by lia. replace (i - length lb)%nat with O in Y by lia.
      injection X as <-. injection Y as <-. subst i. exact p.
Qed.

(** every datum that can be read has a value *)
Lemma means_exists t c : good t c -> forall m a, holds t m a c -> exists w x, get_datum t m a = Ok (Some w) /\ means t w x.
Proof.
  induction 1 as [t c W C B L | t c es CT V GE IH]; intros m a H.
  - destruct (datum_typed t m a c H) as (w & E & [(_ & V & N & r & O)|[(S & _)|(T & _)]]).
    + exists w, (VNum r). split; [exact E|]. constructor; auto.
    + apply string_container in S. congruence.
    + unfold is_container_type_info in C. destruct T as [T|T]; rewrite T in C; discriminate.
  - destruct (datum_typed t m a c H) as (w & E & [(C & _)|[(S & o & n & bs & -> & R)|(T & ->)]]).
    + destruct CT; congruence.
    + exists (DStr m o n), (bytes_value bs). split; [exact E|]. constructor; auto.
    + destruct (holds_cv t m a c H (proj2 CT)) as (es' & _ & Vm & Vc & _). rewrite (cv_same0 t c es' es CT Vc V) in Vm. clear es' Vc.
      destruct (collect (fun i w x => get_value t [Z.of_nat i] m a = Ok (Some w) /\ means (etype t (Z.of_nat i)) w x) (length es)) as (ws & l & L1 & L2 & K).
      { intros i I. destruct (nth_error es i) as [e|] eqn:En; [|apply nth_error_None in En; lia].
        assert (En' : nth_error es (Z.to_nat (Z.of_nat i)) = Some e) by (rewrite Nat2Z.id; exact En).
        rewrite (value_step t m a _ es (Z.of_nat i) e [] CT Vm ltac:(lia) En'). pose proof (cv_el _ _ _ _ _ Vm (Z.of_nat i) e ltac:(lia) En') as [_ EO].
        destruct e as [|z|b].
        - exists DNull, VNull. split; [reflexivity|constructor].
        - exists (DBits z), (VNum (OBits z)). split; [reflexivity|]. constructor; [|discriminate|reflexivity]. destruct EO as (B & Z & _). apply is_bit_field_spec in B. split; auto.
        - cbn [get_value]. apply (IH (Z.of_nat i) b (Zle_0_nat i) En'). apply (child_holds t m a c es (Z.of_nat i) b CT Vm ltac:(lia) En'). apply (GE (Z.of_nat i) b ltac:(lia) En'). }
      exists (DPtr m a), (VList l). split; [exact E|]. apply (m_ptr t m a c es ws l); auto.
      * unfold zlen. lia.
      * unfold zlen. lia.
      * intros i w Ei. destruct (nth_error l i) as [x|] eqn:Ex; [apply (K i w x Ei Ex)|]. apply nth_error_None in Ex.
        assert (nth_error ws i <> None) as Q by congruence. apply nth_error_Some in Q. lia.
      * intros i w x Ei Ex. apply (K i w x Ei Ex).
Qed.

(** ** values are what is read at paths *)
Lemma value_cons d i pb m o t a : pb <> [] -> child d m o i = Ok (Some (Some (t, a))) -> get_value d (i :: pb) m o = get_value t pb m a.
Proof. intros N E. destruct pb as [|j q]; [congruence|]. change (get_value d (i :: j :: q) m o) with (let* c := child d m o i in match c with None => Ok None | Some None => Ok (Some DNull) | Some (Some (t, a)) => get_value t (j :: q) m a end). rewrite E. reflexivity. Qed.
Lemma value_app pa : forall d m o t a pb, element_at d pa m o t a -> pb <> [] ->
  get_value d (pa ++ pb) m o = get_value t pb m a /\ element_count_of d (pa ++ pb) m o = element_count_of t pb m a.
Proof.
  induction pa as [|i pa IH]; intros d m o t a pb H N; inversion H; subst; [auto|]. cbn [app].
  match goal with K : child d m o i = _ |- _ => pose proof K as CH end.
  assert (N' : pa ++ pb <> []) by (destruct pa; [exact N|discriminate]).
  split.
  - erewrite value_cons; [|exact N'|exact CH]. apply IH; auto.
  - cbn [element_count_of]. rewrite CH. cbn [bind]. apply IH; auto.
Qed.
Lemma count_at pa : forall d m o t a, element_at d pa m o t a -> element_count_of d pa m o = get_element_count t m a.
Proof.
  induction pa as [|i pa IH]; intros d m o t a H; inversion H; subst; [reflexivity|]. cbn [element_count_of].
  match goal with K : child d m o i = _ |- _ => rewrite K end. cbn [bind]. apply IH. assumption.
Qed.
Lemma type_app pa : forall d pb t, get_type_info d pa = Some t -> get_type_info d (pa ++ pb) = get_type_info t pb.
Proof.
  induction pa as [|i pa IH]; intros d pb t E; cbn [get_type_info app] in *; [congruence|]. destruct (containee_type_without_data d i); [|discriminate]. apply IH. exact E.
Qed.
Lemma path_app pa pb : path_ok pa -> path_ok pb -> path_ok (pa ++ pb).
Proof. intros. apply Forall_app. auto. Qed.

(** what a path leads to: nothing, or a datum of the type at that path (NULL
    if there is no type) *)
Lemma value_at pa : forall d m o bs, path_ok pa -> holds d m o bs -> 
  get_value d pa m o = Ok None \/ get_value d pa m o = Ok (Some DNull)
  \/ exists t w x, get_value d pa m o = Ok (Some w) /\ get_type_info d pa = Some t /\ means t w x.
Proof.
  induction pa as [|i pa IH]; intros d m o bs PO H.
  - cbn [get_value get_type_info]. destruct (means_exists d bs (h_good _ _ _ _ H) m o H) as (w & x & E & M). right. right. exists d, w, x. auto.
  - pose proof (Forall_inv PO) as I. pose proof (Forall_inv_tail PO) as PO'. cbn beta in I.
    destruct (is_container_type_info d) eqn:C; [|left; apply not_container_value; [discriminate|exact C]].
    destruct (holds_cv d m o bs H C) as (es & CT & V & Vb & GE).
    destruct (Z_lt_le_dec i (zlen es)) as [L|L].
    2: { left. destruct pa as [|j pa]; cbn [get_value].
         - unfold get_containee_datum. rewrite C. cbn [negb]. rewrite (cv_get_count d m o _ es CT V). cbn [bind]. replace (zlen es <=? i) with true by lia. reflexivity.
         - rewrite (child_none d m o _ es i CT V L). reflexivity. }
    destruct (znth_lt es i ltac:(lia)) as [e En]. rewrite (value_step d m o _ es i e pa CT V ltac:(lia) En). rewrite (step_type d m o _ es i pa CT V ltac:(lia)).
    pose proof (cv_el _ _ _ _ _ V i e ltac:(lia) En) as [_ EO].
    destruct e as [|z|c]; [auto| |].
    + destruct pa as [|j pa]; [|auto]. right. right. exists (etype d i), (DBits z), (VNum (OBits z)). cbn [get_type_info]. split; [reflexivity|]. split; [reflexivity|].
      destruct EO as (B & Z & _). apply is_bit_field_spec in B. constructor; [split; auto|discriminate|reflexivity].
    + apply (IH (etype d i) m _ c PO'). apply (child_holds d m o bs es i c CT V ltac:(lia) En (GE i c ltac:(lia) En)).
Qed.

Lemma means_fun t v x : means t v x -> forall y, means t v y -> x = y.
Proof.
  induction 1 as [t | t v r IV NN O | t m o n bs S R | t m o bs es ws l T H CT V L1 L2 G M IH]; intros y Y.
  - inversion Y; subst; auto. congruence.
  - inversion Y; subst; try congruence; try contradiction. 
  - inversion Y; subst; try contradiction. congruence.
  - inversion Y; subst; try contradiction. f_equal. 
    match goal with A : cv t m o _ ?e', B : zlen ?l' = zlen ?e', C : zlen ?w' = zlen ?e', D : holds t m o ?b' |- l = ?l' => rename e' into es2; rename w' into ws2; rename l' into l2; rename b' into bs2; rename B into L1'; rename C into L2'; rename A into V' end.
    assert (ZE : zlen es = zlen es2).
    { pose proof (cv_get_count _ _ _ _ _ CT V) as Q1. pose proof (cv_get_count _ _ _ _ _ CT V') as Q2. congruence. }
    apply nth_ext. intros i. destruct (nth_error l i) as [x|] eqn:Ex.
    + assert (nth_error l i <> None) as Q by congruence. apply nth_error_Some in Q.
      destruct (nth_error l2 i) as [y|] eqn:Ey; [|apply nth_error_None in Ey; unfold zlen in *; lia].
      destruct (nth_error ws i) as [w|] eqn:Ew; [|apply nth_error_None in Ew; unfold zlen in *; lia].
      destruct (nth_error ws2 i) as [w2|] eqn:Ew2; [|apply nth_error_None in Ew2; unfold zlen in *; lia].
      f_equal. apply (IH i w x Ew Ex).
      match goal with A : forall i w, nth_error ws2 i = Some w -> _ |- _ => pose proof (A i w2 Ew2) as G2 end.
      rewrite (G i w Ew) in G2. injection G2 as <-. eauto.
    + apply nth_error_None in Ex. destruct (nth_error l2 i) as [y|] eqn:Ey; [|reflexivity]. assert (nth_error l2 i <> None) as Q by congruence. apply nth_error_Some in Q. unfold zlen in *; lia.
Qed.

Lemma elem_type t m o s es i : container t -> cv t m o s es -> 0 <= i < zlen es -> get_type_info t [i] = Some (etype t i).
Proof. intros CT V I. rewrite (step_type t m o s es i [] CT V I). reflexivity. Qed.
Lemma path_index t n i : count_ok t n -> 0 <= i < n -> path_ok [i].
Proof. intros [R _] I. repeat constructor; lia. Qed.

Lemma reads_means d m o bs pa x : holds d m o bs -> has_value d m o pa x -> path_ok pa ->
  forall t w, get_type_info d pa = Some t -> get_value d pa m o = Ok (Some w) -> means t w x.
Proof.
  intros H R. induction R as [pa O | pa r x O N | pa b O | pa b l O C K IH]; intros PO t w T E; rewrite (observe_typed _ _ _ _ _ _ E T) in O.
  - apply bind_inv in O. destruct O as (r & O & Q). injection Q as ->. destruct w; cbn [obs_of] in O; try discriminate; [constructor|..];
    repeat (apply bind_inv in O; destruct O as (? & _ & O)); discriminate.
  - apply bind_inv in O. destruct O as (r' & O & Q). injection Q as ->. destruct (value_at pa d m o bs PO H) as [V|[V|(t' & w' & y & V & T' & M)]]; rewrite V in E; try discriminate.
    + injection E as <-. cbn in O. injection O as <-. discriminate.
    + injection E as <-. rewrite T in T'. injection T' as <-. inversion M; subst.
      * cbn in O. injection O as <-. discriminate.
      * constructor; auto.
      * cbn in O. apply bind_inv in O. destruct O as (? & _ & O). injection O as <-. discriminate.
      * cbn in O. apply bind_inv in O. destruct O as (? & _ & O). apply bind_inv in O. destruct O as (? & _ & O). injection O as <-. discriminate.
  - apply bind_inv in O. destruct O as (r' & O & Q). injection Q as ->. destruct (value_at pa d m o bs PO H) as [V|[V|(t' & w' & y & V & T' & M)]]; rewrite V in E; try discriminate.
    + injection E as <-. discriminate.
    + injection E as <-. rewrite T in T'. injection T' as <-. inversion M; subst.
      * discriminate.
      * destruct w'; cbn in O; try discriminate; cbn in *; try contradiction.
      * cbn in O. apply bind_inv in O. destruct O as (? & O1 & O). injection O as ->. constructor; auto.
      * cbn in O. apply bind_inv in O. destruct O as (? & _ & O). apply bind_inv in O. destruct O as (? & _ & O). discriminate.
  - apply bind_inv in O. destruct O as (r' & O & Q). injection Q as ->. destruct (value_at pa d m o bs PO H) as [V|[V|(t' & w' & y & V & T' & M)]]; rewrite V in E; try discriminate.
    + injection E as <-. discriminate.
    + injection E as <-. rewrite T in T'. injection T' as <-. inversion M; subst.
      * discriminate.
      * destruct w'; cbn in O; try discriminate; cbn in *; try contradiction.
      * cbn in O. apply bind_inv in O. destruct O as (? & O1 & O). discriminate.
      * destruct (value_ptr pa d m o bs t m0 o0 PO H T V) as (c & -> & HC & _ & EA).
        rewrite (count_at pa _ _ _ _ _ EA) in C.
        match goal with A : cv t m o0 _ es, CT : container t |- _ => rewrite (cv_get_count _ _ _ _ _ CT A) in C; pose proof A as V'; pose proof CT as CT' end. injection C as C.
        apply (m_ptr t m o0 bs0 es ws l); auto. intros i w x Ew Ex.
        pose proof (znth_some _ _ _ Ex) as I.
        assert (PI : path_ok [Z.of_nat i]) by (apply (path_index t (zlen es)); [apply (cv_n _ _ _ _ _ V')|lia]).
        apply (IH i x Ex).
        -- apply path_app; auto.
        -- rewrite (type_app _ _ _ _ T). apply (elem_type t m o0 (zlen bs0) es); auto. lia.
        -- rewrite (proj1 (value_app pa d m o t o0 [Z.of_nat i] EA ltac:(discriminate))). auto.
Qed.
Lemma is_value_obs t v r : is_value t v -> v <> DNull -> obs_of t v = Ok r -> obs_number r = number_of v /\ exists x, number_of v = Some x.
Proof. intros V N O. destruct v; try contradiction; cbn in O; injection O as <-; cbn; eauto. Qed.
Lemma means_reads d m o bs t w x : holds d m o bs -> means t w x -> forall pa, path_ok pa ->
  get_type_info d pa = Some t -> get_value d pa m o = Ok (Some w) -> has_value d m o pa x.
Proof.
  intro H. induction 1 as [t | t v r IV NN O | t m1 o1 n b S R | t m1 o1 b es ws l T HC CT V L1 L2 G M IH]; intros pa PO TI E; pose proof (observe_typed _ _ _ _ _ _ E TI) as OB.
  - apply value_null. exact OB.
  - rewrite O in OB. destruct (is_value_obs t v r IV NN O) as (Q & y & Q'). eapply value_num; [exact OB|]. rewrite Q. exact Q'.
  - apply value_string. cbn [obs_of] in OB. rewrite R in OB. exact OB.
  - destruct (value_ptr pa d m o bs t m1 o1 PO H TI E) as (c & -> & HC' & _ & EA). cbn [obs_of] in OB. rewrite (holds_size _ _ _ _ HC) in OB. cbn [bind] in OB.
    rewrite rd_ok in OB; [|apply (h_o _ _ _ _ HC)|apply zlen_nonneg|apply (h_in _ _ _ _ HC)]. cbn [bind] in OB.
    eapply value_list; [exact OB| |].
    + rewrite (count_at pa _ _ _ _ _ EA), (cv_get_count _ _ _ _ _ CT V). congruence.
    + intros i x Ex. pose proof (znth_some _ _ _ Ex) as I. 
      destruct (nth_error ws i) as [w|] eqn:Ew; [|apply nth_error_None in Ew; unfold zlen in *; lia].
      apply (IH i w x Ew Ex).
      * apply path_app; auto. apply (path_index t (zlen es)); [apply (cv_n _ _ _ _ _ V)|lia].
      * rewrite (type_app _ _ _ _ TI). apply (elem_type t m o1 (zlen b) es); auto. lia.
      * rewrite (proj1 (value_app pa d m o t o1 [Z.of_nat i] EA ltac:(discriminate))). auto.
Qed.
