(** * Deserializing types on the heap: lemmas *)
From Verif Require Export HeapFacts TypeAlloc AcceptFacts.
From Coq Require Import ZifyBool ZifyNat ZifyN Zify.
Ltac Zify.zify_post_hook ::= Z.div_mod_to_equations.

Definition laid_fields (h : Z -> option node) (cs : list (position * dti)) (ls : list (position * Z)) : Prop :=
  Forall2 (fun (a : position * dti) (b : position * Z) => field_name (fst b) = field_name (fst a) /\ laid_out h (snd b) (snd a)) cs ls.
Lemma laid_out_unfold h a d : laid_out h a d <-> exists n, h a = Some n /\ type (scalars n) = type d
  /\ match type d with
     | STRING | BINARY => exists c, h (containee_at n) = Some c /\ type (scalars c) = UINT
     | ARRAY => match containee_ d with Some c => laid_out h (containee_at n) c | None => False end
     | TUPLE => laid_fields h (containees d) (containees_at n)
     | _ => True
     end.
Proof.
  assert (K : forall cs ls, (fix all (cs : list (position * dti)) (ls : list (position * Z)) : Prop :=
            match cs, ls with
            | [], [] => True
            | (p, c) :: cs', (q, b) :: ls' => field_name q = field_name p /\ laid_out h b c /\ all cs' ls'
            | _, _ => False
            end) cs ls <-> laid_fields h cs ls).
  { induction cs as [|[p c] cs IH]; intros [|[q b] ls]; unfold laid_fields in *; split; intro X; try contradiction; try (inversion X; fail); try constructor; try exact I.
    - destruct X as (X1 & X2 & X3). auto.
    - destruct X as (X1 & X2 & X3). apply IH. exact X3.
    - inversion X as [|? ? ? ? [Y1 Y2] Y3]; subst. cbn in *. auto.
    - inversion X as [|? ? ? ? [Y1 Y2] Y3]; subst. cbn in *. split; auto. apply IH. exact Y3. }
  destruct d as [fin nm ty nu vr sz ms hv ec pb ce cs]. cbn [laid_out type containee_ containees].
  split; intros (n & H1 & H2 & H3); exists n; (split; [exact H1|]); (split; [exact H2|]); destruct ty; auto; apply K; exact H3.
Qed.
Lemma laid_more h h' : (forall x n, h x = Some n -> h' x = Some n) -> forall d a, laid_out h a d -> laid_out h' a d.
Proof.
  intros M d. induction d as [d I1 I2] using dti_induction; intros a; rewrite !laid_out_unfold; intros (n & H1 & H2 & H3); exists n; (split; [apply M; exact H1|]); (split; [exact H2|]).
  destruct (type d); auto.
  - destruct H3 as (c & C1 & C2). exists c. auto.
  - destruct H3 as (c & C1 & C2). exists c. auto.
  - unfold laid_fields in *. induction H3 as [|[p c] [q b] cs ls [A B] _ IH]; constructor.
    + cbn in *. split; [exact A|]. apply (I2 p c); [left; reflexivity|exact B].
    + apply IH. intros p' c' X. apply (I2 p' c'). right. exact X.
  - destruct (containee_ d) as [c|]; [|exact H3]. apply (I1 c); auto.
Qed.
(** finalizing keeps the tree *)
Lemma finalize_kind t : type (snd (finalize t)) = type t.
Proof.
  destruct t as [fin nm ty nu vr sz ms hv ec pb ce cs]. destruct fin; [reflexivity|]. destruct ty; cbn [type].
  9: { rewrite finalize_tuple_eq by reflexivity. cbn [containees]. destruct cs as [|x cs]; [reflexivity|]. destruct (finalize_elements _ _ _) as [[[ok vs] bits] l]. destruct ok; [|reflexivity]. cbn [negb].
    unfold finalize_tuple. destruct (assign_offsets _ _ _) as [z l']. destruct (vs && _); reflexivity. }
  9: { cbn [finalize is_finalized type containee_]. destruct ce as [c|]; [|reflexivity]. destruct (finalize c) as [ok c1]. destruct ok; [|reflexivity]. cbn [negb]. unfold finalize_array.
    destruct (negb _ && _); [reflexivity|]. destruct (negb _); [reflexivity|]. match goal with |- context[if ?b then _ else _] => destruct b end; reflexivity. }
  all: cbn [finalize is_finalized type]; match goal with |- context[if ?b then _ else _] => destruct b end; try reflexivity; destruct hv; reflexivity.
Qed.
Definition kept (a b : position * dti) : Prop := field_name (fst b) = field_name (fst a) /\ (snd b = snd a \/ snd b = snd (finalize (snd a))).
Lemma kept_refl l : Forall2 kept l l.
Proof. induction l; constructor; auto. split; auto. Qed.
Lemma finalize_elements_kept cs : forall vs bits ok vs' bits' cs', finalize_elements cs vs bits = (ok, vs', bits', cs') -> Forall2 kept cs cs'.
Proof.
  induction cs as [|[p t] cs IH]; intros vs bits ok vs' bits' cs'; cbn [finalize_elements].
  - intro E; injection E as <- <- <- <-. constructor.
  - destruct (finalize t) as [o1 t1] eqn:Ef. destruct o1; cbn [negb].
    + destruct (assign_bits p t1 bits) as [p1 b1] eqn:Ea. destruct (finalize_elements cs (if is_variable_sized_type_info t1 then true else vs) b1) as [[[ok2 vs2] bits2] cs2] eqn:Ee.
      intro E; injection E as <- <- <- <-. constructor; [|apply (IH _ _ _ _ _ _ Ee)]. split; cbn [fst snd]; [|right; rewrite Ef; reflexivity].
      unfold assign_bits in Ea. destruct (needs_is_valid_bit t1), (type t1); injection Ea as <- <-; reflexivity.
    + intro E; injection E as <- <- <- <-. constructor; [|apply kept_refl]. split; cbn [fst snd]; [reflexivity|]. right. rewrite Ef. reflexivity.
Qed.
Lemma finalize_tree t : is_finalized t = false -> (type t = TUPLE -> Forall2 kept (containees t) (containees (snd (finalize t))))
  /\ (type t = ARRAY -> forall c, containee_ t = Some c -> containee_ (snd (finalize t)) = Some (snd (finalize c))).
Proof.
  intro F. split; intro T.
  - rewrite finalize_tuple_eq by assumption. destruct (containees t) as [|x l] eqn:C; [cbn; rewrite C; constructor|]. rewrite <- C. destruct (finalize_elements _ _ _) as [[[ok vs] bits] cs] eqn:E. apply finalize_elements_kept in E.
    destruct ok; cbn [negb]; [|exact E]. unfold finalize_tuple. destruct (assign_offsets _ _ _) as [z cs2] eqn:O. apply assign_offsets_children in O.
    match goal with |- Forall2 _ _ ?x => replace x with cs2 by (destruct (vs && _); reflexivity) end. clear - E O. revert cs2 O. induction E as [|[p x] [q y] l r [A B] _ IH]; intros cs2 O; inversion O as [|? [u z] ? ? [A' B']]; subst; constructor; eauto.
    unfold kept; cbn [fst snd] in *. subst z. split; [congruence|exact B].
  - intros c C. destruct t as [fin nm ty nu vr sz ms hv ec pb ce cs]. cbn in F, T, C. subst fin ty ce. cbn [finalize is_finalized type containee_]. destruct (finalize c) as [ok c1]. destruct ok; [|reflexivity]. cbn [negb snd]. unfold finalize_array.
    destruct (negb _ && _); [reflexivity|]. destruct (negb _); [reflexivity|]. match goal with |- context[if ?b then _ else _] => destruct b end; reflexivity.
Qed.
Lemma laid_finalize h : forall t a, laid_out h a t -> laid_out h a (snd (finalize t)).
Proof.
  intro t. induction t as [t I1 I2] using dti_induction; intros a H. destruct (is_finalized t) eqn:F; [rewrite finalize_done by exact F; exact H|].
  destruct (finalize_tree t F) as [T1 T2]. apply laid_out_unfold in H. apply laid_out_unfold. destruct H as (n & H1 & H2 & H3). exists n. split; [exact H1|]. rewrite finalize_kind. split; [exact H2|].
  destruct (type t) eqn:T; auto.
  - specialize (T1 eq_refl). unfold laid_fields in *. revert H3. generalize (containees_at n). clear - T1 I2. induction T1 as [|[p c] [q d] l r [A B] _ IH]; intros ls X; inversion X as [|? [u b] ? ? [Y1 Y2] Y3]; subst; constructor.
    + cbn [fst snd] in *. split; [congruence|]. destruct B as [->| ->]; [exact Y2|]. apply (I2 p c); [left; reflexivity|exact Y2].
    + apply IH; [|exact Y3]. intros p' c' Z'. apply (I2 p' c'). right. exact Z'.
  - destruct (containee_ t) as [c|] eqn:C; [|contradiction]. rewrite (T2 eq_refl c eq_refl). apply (I1 c); auto.
Qed.
(** changes elsewhere do not matter *)
Lemma laid_frame h h' : forall t d, shape_at h t -> (forall x, In x (statics t) -> exists n, h x = Some n /\ numeral_kind (type (scalars n))) -> (forall x, In x (cells t) -> h' x = h x) ->
  laid_out h (root t) d -> laid_out h' (root t) d.
Proof.
  intro t. induction t as [a|a ps IH] using shape_ind'; intros d SH NK AG L; apply laid_out_unfold in L; apply laid_out_unfold; destruct L as (n & L1 & L2 & L3); exists n; cbn [root] in *.
  - destruct (NK a) as (n' & K1 & K2); [left; reflexivity|]. assert (n' = n) as -> by congruence. split; [rewrite AG by (left; reflexivity); exact L1|]. split; [exact L2|]. rewrite L2 in K2. destruct (type d); auto; contradiction.
  - apply shape_block in SH. destruct SH as (n' & S1 & S2 & S3 & S4). assert (n' = n) as -> by congruence. split; [rewrite AG by (left; reflexivity); exact L1|]. split; [exact L2|].
    assert (ONE : forall p c, In p ps -> laid_out h (root p) c -> laid_out h' (root p) c).
    { intros p c P X. rewrite Forall_forall in IH, S4. apply (IH p P c); auto.
      - intros x Y. apply NK. cbn [statics]. apply in_flat_map. eauto.
      - intros x Y. apply AG. unfold cells in *. cbn [blocks statics]. apply in_app_iff in Y. destruct Y as [Y|Y]; [right; apply in_or_app; left|cbn; right; apply in_or_app; right]; apply in_flat_map; eauto. }
    assert (RC : forall p, In p ps -> h' (root p) = h (root p)).
    { intros p P. apply AG. unfold cells. cbn [blocks statics]. destruct p as [x|x qs]; cbn [root]; [cbn; right; apply in_or_app; right|right; apply in_or_app; left]; apply in_flat_map; [exists (Static x)|exists (Block x qs)]; (split; [exact P|left; reflexivity]). }
    unfold links in S3. rewrite L2 in S3. destruct (type d); auto.
    + destruct ps as [|p [|? ?]]; try discriminate. cbn in S3. injection S3 as S3. destruct L3 as (c & C1 & C2). exists c. split; [|exact C2]. rewrite S3 in *. rewrite RC by (left; reflexivity). exact C1.
    + destruct ps as [|p [|? ?]]; try discriminate. cbn in S3. injection S3 as S3. destruct L3 as (c & C1 & C2). exists c. split; [|exact C2]. rewrite S3 in *. rewrite RC by (left; reflexivity). exact C1.
    + assert (G : forall p, In p (containees_at n) -> forall c, laid_out h (snd p) c -> laid_out h' (snd p) c).
      { intros p P c. apply (in_map snd) in P. rewrite S3 in P. apply in_map_iff in P. destruct P as (q & Q1 & Q2). rewrite <- Q1. apply ONE. exact Q2. }
      unfold laid_fields in *. clear - L3 G. induction L3 as [|x y l k [A B] _ I]; constructor; [split; [exact A|]; apply G; [left; reflexivity|exact B]|]. apply I. intros p P. apply G. right. exact P.
    + destruct ps as [|p [|? ?]]; try discriminate. cbn in S3. injection S3 as S3. rewrite S3 in *. destruct (containee_ d) as [c|]; [|exact L3]. apply ONE; [left; reflexivity|exact L3].
Qed.

(** the loop of a TUPLE in the model without a heap *)
Definition elements (e : environment) (m : mem) (f : Z -> Z -> res (parsed dti)) (o n : Z) :=
  fix elements (k : nat) (left c : Z) : res (parsed (list (position * dti))) :=
                       if left =? 0 then Ok (Parsed [])
                       else
                         match k with
                         | O => UB
                         | S k' =>
                             let* f0 := deserialize_name m (o + c) (u32 (n - c)) in
                             match f0 with
                             | None => Ok Failed
                             | Some (fname, l) =>
                                 let c1 := u32 (c + l) in
                                 let* t := f (o + c1) (u32 (n - c1)) in
                                 match t with
                                 | Failed => Ok Failed
                                 | Rejected => Ok Rejected
                                 | Parsed t =>
                                     if negb true then Ok Rejected
                                     else
                                       let t1 := snd (finalize t) in
                                       let q := old_position e (o + c) in
                                       let* r := elements k' (left - 1) (u32 (c1 + byte_count t1)) in
                                       Ok (match r with
                                           | Parsed cs => Parsed ((mk_position fname (p_off q) (p_valid q), t1) :: cs)
                                           | Failed => Failed
                                           | Rejected => Rejected
                                           end)
                                 end
                             end
                         end.
Lemma read_header_eq m o n two : read_header m o n two =
  let* h := read_numbers m o n two in
  match h with
  | None => Ok None
  | Some (v1, v2) =>
      let c := if two then 9 else 5 in
      let* r := deserialize_name m (o + c) (u32 (n - c)) in
      match r with None => Ok None | Some (name, l) => Ok (Some (v1, v2, name, u32 (c + l))) end
  end.
Proof.
  unfold read_header, read_numbers. destruct (read_u32 m o n 1) as [[v1|]|]; cbn [bind]; auto. destruct (if two then read_u32 m o n 5 else Ok (Some 0)) as [[v2|]|]; reflexivity.
Qed.

Section AllocFacts.
  Variable (malloc : nat -> (Z -> option node) -> Z) (static_at : data_type -> bool -> Z -> Z).
  Hypothesis AL : allocates malloc.
  Variable (e : environment) (m : mem).

  Definition library (x : Z) : Prop := exists ty nu sz, numeral_kind ty /\ x = static_at ty nu sz.
  (** the structs of [t] were added *)
  Definition made (h h' : Z -> option node) (t : shape) : Prop :=
    shape_at h' t /\ NoDup (blocks t) /\ (forall x, In x (blocks t) -> h x = None /\ x <> 0) /\ (forall x, ~ In x (blocks t) -> h' x = h x) /\ (forall x, In x (statics t) -> library x).
  Definition undone (w w' : world) {A} (pure : res (parsed A)) (h0 : Z -> option node) : Prop :=
    (forall x, heap w' x = h0 x) /\ called w' = called w /\ (alloc_error w' = false -> pure = Ok Failed) /\ (alloc_error w' = true -> exists k h, malloc k h = 0).
  Definition outcome (fuel : nat) (w : world) (pure : res (parsed dti)) (r : res (option (dti * Z) * world)) : Prop :=
    match r with
    | UB => pure = UB
    | Ok (Some (d, a), w') => pure = Ok (Parsed d) /\ alloc_error w' = false /\ called w' = called w /\ laid_out (heap w') a d
        /\ exists t, root t = a /\ made (heap w) (heap w') t /\ (depth t <= S fuel)%nat
    | Ok (None, w') => undone w w' pure (heap w)
    end.
  Definition good (w : world) : Prop := heap w 0 = None /\ alloc_error w = false /\ statics_exist static_at (heap w).

  Lemma made_more h h' t : made h h' t -> forall x n, h x = Some n -> h' x = Some n.
  Proof. intros (_ & _ & F & K & _) x n X. rewrite K; [exact X|]. intro Y. apply F in Y. destruct Y. congruence. Qed.
  Lemma more_good w w' : (forall x n, heap w x = Some n -> heap w' x = Some n) -> heap w' 0 = None -> alloc_error w' = false -> good w -> good w'.
  Proof. intros M Z0 A (_ & _ & G). split; [exact Z0|]. split; [exact A|]. intros ty nu sz K. destruct (G ty nu sz K) as (n & N1 & N2). exists n. split; [apply M; exact N1|exact N2]. Qed.
  Lemma made_null h h' t : made h h' t -> h 0 = None -> h' 0 = None.
  Proof. intros (_ & _ & F & K & _) X. rewrite K; [exact X|]. intro Y. apply F in Y. tauto. Qed.

  Lemma new_type_ok w d c : good w ->
    match type d with STRING | BINARY => c = static_at UINT false 1 | TUPLE | ARRAY => False | _ => True end ->
    outcome 1 w (Ok (Parsed d)) (Ok (new_type malloc w d c)).
  Proof.
    intros (N0 & AE & G) C. unfold new_type. pose proof (new_ok malloc AL w (mk_node false (scalars_of d) c []) N0) as NW. destruct (new malloc w _) as [b w1].
    destruct NW as (_ & C1 & [(-> & Hw & A1 & ML)|(B0 & Bf & Hw & A1)]).
    - cbn [Z.eqb]. split; [intro x; rewrite Hw; reflexivity|]. split; [exact C1|]. split; [congruence|]. eauto.
    - replace (b =? 0) with false by lia. cbn [outcome]. split; [reflexivity|]. split; [congruence|]. split; [exact C1|]. rewrite Hw.
      set (n := mk_node false (scalars_of d) c []). set (h' := store (heap w) b (Some n)).
      assert (HB : h' b = Some n) by apply store_same.
      assert (SK : forall ty nu sz, numeral_kind ty -> exists k, h' (static_at ty nu sz) = Some k /\ is_static k = true /\ type (scalars k) = ty).
      { intros ty nu sz K. destruct (G ty nu sz K) as (k & K1 & K2 & K3). exists k. split; [|auto]. unfold h'. rewrite store_other by (intros E; rewrite E in K1; congruence). exact K1. }
      assert (OT : forall x, ~ In x [b] -> h' x = heap w x) by (intros x X; apply store_other; intros ->; apply X; left; reflexivity).
      assert (FR : forall x, In x [b] -> heap w x = None /\ x <> 0) by (intros x [<-|[]]; auto).
      destruct (match type d with STRING | BINARY => true | _ => false end) eqn:SB.
      + assert (CC : c = static_at UINT false 1) by (destruct (type d); auto; discriminate). destruct (SK UINT false 1 I) as (k & K1 & K2 & K3). rewrite <- CC in K1. split.
        * apply laid_out_unfold. exists n. split; [exact HB|]. split; [reflexivity|]. destruct (type d); try contradiction; try exact I; exists k; auto.
        * exists (Block b [Static c]). split; [reflexivity|]. split; [|cbn; lia]. split; [|split; [|split; [|split]]]; cbn [blocks statics flat_map app]; auto.
          -- apply shape_block. exists n. split; [exact HB|]. split; [reflexivity|]. split; [unfold links; cbn; destruct (type d); try discriminate; reflexivity|]. constructor; [exists k; auto|constructor].
          -- constructor; [auto|constructor].
          -- intros x [<-|[]]. exists UINT, false, 1. split; [exact I|exact CC].
      + split.
        * apply laid_out_unfold. exists n. split; [exact HB|]. split; [reflexivity|]. destruct (type d); try contradiction; try exact I; discriminate.
        * exists (Block b []). split; [reflexivity|]. split; [|cbn; lia]. split; [|split; [|split; [|split]]]; cbn [blocks statics flat_map app]; auto.
          -- apply shape_block. exists n. split; [exact HB|]. split; [reflexivity|]. split; [unfold links; cbn; destruct (type d); try discriminate; try contradiction; reflexivity|constructor].
          -- constructor; [auto|constructor].
          -- contradiction.
  Qed.
  Lemma outcome_mono f g w p r : (f <= g)%nat -> outcome f w p r -> outcome g w p r.
  Proof. intros L. unfold outcome. destruct r as [[[[d a]|] w']|]; auto. intros (A & B & C & D & t & T1 & T2 & T3). repeat (split; [assumption|]). exists t. repeat (split; [assumption|]). lia. Qed.
  Lemma numeral_at_ok w d : good w -> numeral_kind (type d) -> outcome 1 w (Ok (Parsed d)) (Ok (numeral_at malloc static_at w d)).
  Proof.
    intros GW K. unfold numeral_at. destruct (type_name d); [|apply new_type_ok; auto; destruct (type d); auto; contradiction].
    destruct GW as (N0 & AE & G). destruct (G (type d) (is_nullable d) (size d) K) as (n & N1 & N2 & N3). cbn [outcome]. split; [reflexivity|]. split; [exact AE|]. split; [reflexivity|]. split.
    - apply laid_out_unfold. exists n. split; [exact N1|]. split; [exact N3|]. destruct (type d); auto; contradiction.
    - eexists (Static _). split; [reflexivity|]. split; [|cbn; lia]. split; [exists n; auto|]. split; [constructor|]. split; [contradiction|]. split; [auto|]. intros x [<-|[]]. exists (type d), (is_nullable d), (size d). auto.
  Qed.
  Lemma fail_ok f w : good w -> outcome f w (Ok Failed) (Ok (None, w)).
  Proof. intros (_ & AE & _). split; [auto|]. split; [auto|]. split; [auto|]. congruence. Qed.

  (** the TUPLE at [b], with the elements [td] so far, which are the fields [cs]; [h0] is the heap before *)
  Definition building (F : nat) (h0 : Z -> option node) (b : Z) (td : list shape) (cs : list (position * dti)) (h : Z -> option node) : Prop :=
    exists nb, h b = Some nb /\ is_static nb = false /\ type (scalars nb) = TUPLE /\ map snd (containees_at nb) = map root td /\ laid_fields h cs (containees_at nb)
    /\ Forall (shape_at h) td /\ NoDup (b :: flat_map blocks td) /\ (forall x, In x (b :: flat_map blocks td) -> h0 x = None /\ x <> 0) /\ (forall x, ~ In x (b :: flat_map blocks td) -> h x = h0 x)
    /\ (forall x, In x (flat_map statics td) -> library x) /\ Forall (fun t => (depth t <= F)%nat) td.
  Lemma building_more F h0 b td cs h : building F h0 b td cs h -> (forall x n, h0 x = Some n -> h x = Some n) /\ (h0 0 = None -> h 0 = None).
  Proof.
    intros (nb & _ & _ & _ & _ & _ & _ & _ & FR & OT & _). split.
    - intros x n X. rewrite OT; [exact X|]. intro Y. apply FR in Y. destruct Y. congruence.
    - intro X. rewrite OT; [exact X|]. intro Y. apply FR in Y. tauto.
  Qed.
  Lemma children_ok F h0 b td cs w : building F h0 b td cs (heap w) ->
    exists w', destroy_children F w b = Ok w' /\ (forall x, heap w' x = h0 x) /\ alloc_error w' = alloc_error w /\ called w' = called w.
  Proof.
    intros (nb & B1 & B2 & B3 & B4 & _ & SH & ND & FR & OT & _ & DP). unfold destroy_children, deref. rewrite B1. cbn [bind]. rewrite B4. inversion ND as [|? ? N1 N2]; subst.
    assert (FD : Forall (destroys F None) td). { rewrite Forall_forall in *. intros q Q. apply destroy_ok. apply DP. exact Q. }
    destruct (each_ok F None td FD w SH N2) as (w1 & E1 & (F1 & F2) & _ & A1 & C1). rewrite E1. cbn [bind].
    destruct (free_ok w1 b nb) as (w2 & E2 & H2 & _ & A2 & C2); [rewrite F2 by exact N1; exact B1|exact B2|]. rewrite E2. exists w2. split; [reflexivity|]. split; [|split; [congruence|]].
    - intro x. rewrite H2. destruct (Z.eq_dec x b) as [->|XB]; [rewrite store_same; symmetry; apply FR; left; reflexivity|]. rewrite store_other by exact XB.
      destruct (in_dec Z.eq_dec x (flat_map blocks td)) as [X|X]; [rewrite F1 by exact X; symmetry; apply FR; right; exact X|]. rewrite F2 by exact X. apply OT. intros [Y|Y]; [congruence|contradiction].
    - rewrite C2, C1. apply app_nil_r.
  Qed.
  Lemma step_ok F h0 b td cs w w1 t d p : building F h0 b td cs (heap w) -> good w -> made (heap w) (heap w1) t -> laid_out (heap w1) (root t) d -> (depth t <= F)%nat ->
    exists w2, add_containee w1 b p (root t) = Ok w2 /\ building F h0 b (td ++ [t]) (cs ++ [(p, d)]) (heap w2) /\ alloc_error w2 = alloc_error w1 /\ called w2 = called w1.
  Proof.
    intros (nb & B1 & B2 & B3 & B4 & LF & SH & ND & FR & OT & LB & DP) (N0 & AE & G) MA LA DT. pose proof (made_more _ _ _ MA) as MO. destruct MA as (S1 & NT & FT & KT & LT).
    unfold add_containee, deref. rewrite (MO b nb B1). cbn [bind]. eexists. split; [reflexivity|]. split; [|auto]. cbn [heap]. set (nb' := mk_node _ _ _ _).
    assert (H2 : forall x, x <> b -> store (heap w1) b (Some nb') x = heap w1 x) by (intros x X; apply store_other; exact X). set (h2 := store (heap w1) b (Some nb')) in *.
    inversion ND as [|? ? N1 N2]; subst.
    assert (STB : forall x, library x -> exists n, heap w x = Some n /\ is_static n = true /\ numeral_kind (type (scalars n))).
    { intros x (ty & nu & sz & K & ->). destruct (G ty nu sz K) as (n & K1 & K2 & K3). exists n. rewrite K3. auto. }
    assert (NLB : ~ library b). { intro X. destruct (STB b X) as (n & K1 & K2 & _). congruence. }
    assert (CT : forall q x, In q td -> In x (cells q) -> h2 x = heap w x).
    { intros q x Q X. assert (SQ : shape_at (heap w) q) by (rewrite Forall_forall in SH; auto). destruct (shape_live _ _ SQ) as [L1 L2]. apply in_app_iff in X.
      assert (XB : x <> b). { intros ->. destruct X as [X|X]; [apply N1; apply in_flat_map; eauto|]. destruct (L2 b X) as (n & K1 & K2). congruence. }
      rewrite H2 by exact XB. destruct X as [X|X]; [destruct (L1 x X) as (n & K1 & K2)|destruct (L2 x X) as (n & K1 & K2)]; rewrite K1; apply MO; exact K1. }
    assert (NBT : ~ In b (blocks t)). { intro X. apply FT in X. destruct X. congruence. }
    assert (CT1 : forall x, In x (cells t) -> h2 x = heap w1 x).
    { intros x X. apply H2. intros ->. apply in_app_iff in X. destruct X as [X|X]; [contradiction|]. apply NLB. apply LT. exact X. }
    assert (DJ : forall x, In x (flat_map blocks td) -> ~ In x (blocks t)).
    { intros x X Y. apply FT in Y. destruct Y as [Y _]. apply in_flat_map in X. destruct X as (q & Q1 & Q2). rewrite Forall_forall in SH. destruct (shape_live _ _ (SH q Q1)) as [L1 _]. destruct (L1 x Q2) as (n & K & _). congruence. }
    exists nb'. split; [apply store_same|]. split; [exact B2|]. split; [exact B3|]. split; [unfold nb'; cbn [containees_at]; rewrite !map_app, B4; reflexivity|]. split; [|split; [|split; [|split; [|split; [|split]]]]].
    - unfold nb', laid_fields in *. cbn [containees_at]. apply Forall2_app.
      + assert (IN : forall y, In y (containees_at nb) -> exists q, In q td /\ root q = snd y). { intros y Y. apply (in_map snd) in Y. rewrite B4 in Y. apply in_map_iff in Y. destruct Y as (q & Q1 & Q2). eauto. }
        apply (Forall2_impl_in _ _ _ _ LF). intros x y X Y [K1 K2]. split; [exact K1|]. destruct (IN y Y) as (q & Q1 & Q2). rewrite <- Q2 in *. assert (SQ : shape_at (heap w) q) by (rewrite Forall_forall in SH; auto).
        apply (laid_frame (heap w)); auto.
        * intros z Z'. destruct (STB z) as (n & M1 & _ & M3); [apply LB; apply in_flat_map; eauto|]. eauto.
        * intros z Z'. apply (CT q); auto.
      + constructor; [|constructor]. split; [reflexivity|]. cbn [fst snd]. apply (laid_frame (heap w1)); auto. intros z Z'. destruct (STB z (LT z Z')) as (n & M1 & _ & M3). exists n. split; [apply MO; exact M1|exact M3].
    - apply Forall_app. split; [|constructor; [|constructor]].
      + rewrite Forall_forall in *. intros q Q. apply (shape_frame (heap w)); [auto|]. intros x X. apply (CT q); auto.
      + apply (shape_frame (heap w1)); auto.
    - rewrite flat_map_app. cbn [flat_map]. rewrite app_nil_r. constructor; [intro X; apply in_app_iff in X; tauto|]. apply NoDup_join; auto.
    - intros x X. rewrite flat_map_app in X. cbn [flat_map] in X. rewrite app_nil_r in X. destruct X as [X|X]; [apply FR; left; exact X|]. apply in_app_iff in X. destruct X as [X|X]; [apply FR; right; exact X|].
      destruct (FT x X) as [Y Z0]. split; [|exact Z0]. rewrite <- OT; [exact Y|]. intros [Q|Q]; [congruence|]. exact (DJ x Q X).
    - intros x X. rewrite flat_map_app in X. cbn [flat_map] in X. rewrite app_nil_r in X. rewrite H2 by (intros ->; apply X; left; reflexivity).
      rewrite KT, OT; [reflexivity| |]; intro Y; apply X; [destruct Y as [Y|Y]; [left; exact Y|right; apply in_or_app; left; exact Y]|right; apply in_or_app; right; exact Y].
    - intros x X. rewrite flat_map_app in X. cbn [flat_map] in X. rewrite app_nil_r in X. apply in_app_iff in X. destruct X; auto.
    - apply Forall_app. split; [exact DP|]. constructor; [exact DT|constructor].
  Qed.

  Definition tuple_outcome (F : nat) (h0 : Z -> option node) (b : Z) (td : list shape) (cs0 : list (position * dti)) (w : world) (pure : res (parsed (list (position * dti)))) (r : res (option (list (position * dti)) * world)) : Prop :=
    match r with
    | UB => pure = UB
    | Ok (Some cs, w') => pure = Ok (Parsed cs) /\ alloc_error w' = false /\ called w' = called w /\ exists tr, building F h0 b (td ++ tr) (cs0 ++ cs) (heap w')
    | Ok (None, w') => undone w w' pure h0
    end.
  Lemma building_good F w0 b td cs w : building F (heap w0) b td cs (heap w) -> good w0 -> alloc_error w = false -> good w.
  Proof. intros B G A. destruct (building_more _ _ _ _ _ _ B) as [M1 M2]. apply (more_good w0); auto. apply M2. apply G. Qed.
  Lemma elements_ok fuel w0 b o n : good w0 -> (forall w o n, good w -> outcome fuel w (deserialize (fun _ => true) e m fuel o n) (deserialize_at malloc static_at e m fuel w o n)) ->
    forall k left c w td cs0, building (S fuel) (heap w0) b td cs0 (heap w) -> alloc_error w = false ->
    tuple_outcome (S fuel) (heap w0) b td cs0 w (elements e m (deserialize (fun _ => true) e m fuel) o n k left c) (elements_at e m (deserialize_at malloc static_at e m fuel) (S fuel) o n b k left c w).
  Proof.
    intros G0 IH k. induction k as [|k IHk]; intros left c w td cs0 B AE; cbn [elements elements_at]; destruct (left =? 0).
    - cbn [tuple_outcome]. split; [reflexivity|]. split; [exact AE|]. split; [reflexivity|]. exists []. rewrite !app_nil_r. exact B.
    - reflexivity.
    - cbn [tuple_outcome]. split; [reflexivity|]. split; [exact AE|]. split; [reflexivity|]. exists []. rewrite !app_nil_r. exact B.
    - destruct (deserialize_name m (o + c) (u32 (n - c))) as [[[fname l]|]|]; cbn [bind]; [| |reflexivity].
      2: { destruct (children_ok _ _ _ _ _ _ B) as (w' & E & H & A & C). rewrite E. cbn [bind tuple_outcome]. split; [exact H|]. split; [exact C|]. split; [reflexivity|]. congruence. }
      pose proof (building_good _ _ _ _ _ _ B G0 AE) as GW. pose proof (IH w (o + u32 (c + l)) (u32 (n - u32 (c + l))) GW) as R.
      destruct (deserialize_at malloc static_at e m fuel w (o + u32 (c + l)) (u32 (n - u32 (c + l)))) as [[[[t a]|] w1]|]; cbn [outcome bind] in *.
      + destruct R as (-> & A1 & C1 & LA & s & <- & MA & DS). cbn [bind negb]. set (q := old_position e (o + c)).
        destruct (step_ok (S fuel) (heap w0) b td cs0 w w1 s (snd (finalize t)) (mk_position fname (p_off q) (p_valid q)) B GW MA (laid_finalize _ _ _ LA) DS) as (w2 & E2 & B2 & A2 & C2).
        rewrite E2. cbn [bind]. pose proof (IHk (left - 1) (u32 (u32 (c + l) + byte_count (snd (finalize t)))) w2 _ _ B2 ltac:(congruence)) as R.
        destruct (elements_at e m (deserialize_at malloc static_at e m fuel) (S fuel) o n b k _ _ w2) as [[[cs|] w3]|]; cbn [tuple_outcome bind] in *.
        * destruct R as (-> & A3 & C3 & tr & B3). cbn [bind]. split; [reflexivity|]. split; [exact A3|]. split; [congruence|]. exists (s :: tr). rewrite <- !app_assoc in B3. exact B3.
        * destruct R as (H3 & C3 & X & Y). split; [exact H3|]. split; [congruence|]. split; [|exact Y]. intro Q. rewrite (X Q). reflexivity.
        * rewrite R. reflexivity.
      + destruct R as (H1 & C1 & X & Y).
        assert (B1 : building (S fuel) (heap w0) b td cs0 (heap w1)).
        { destruct B as (nb & B1 & B2 & B3 & B4 & LF & SH & ND & FR & OT & LB & DP). exists nb. rewrite H1. repeat (split; [assumption|]). split.
          - unfold laid_fields in *. apply (Forall2_impl_in _ _ _ _ LF). intros u v _ _ [K1 K2]. split; [exact K1|]. apply (laid_more (heap w)); [|exact K2]. intros z k0 Z'. rewrite H1. exact Z'.
          - split; [rewrite Forall_forall in *; intros z Z'; apply (shape_frame (heap w)); auto|]. repeat (split; [assumption|]). split; [intros z Z'; rewrite H1; apply OT; exact Z'|]. auto. }
        destruct (children_ok _ _ _ _ _ _ B1) as (w' & E & H & A & C). rewrite E. cbn [bind tuple_outcome]. split; [exact H|]. split; [congruence|]. rewrite A. split; [intro Q; rewrite (X Q); reflexivity|exact Y].
      + rewrite R. reflexivity.
  Qed.

  Lemma numeral_codes code ty nu limit : numeral_code code = Some (ty, nu, limit) -> numeral_kind ty.
  Proof. unfold numeral_code. repeat match goal with |- context[if ?b then _ else _] => destruct b end; intro E; try discriminate; injection E as <- <- <-; exact I. Qed.
  Lemma string_ok w ty code o n : good w -> ty = STRING \/ ty = BINARY ->
    outcome 1 w (deserialize_string m ty code o n) (deserialize_string_at malloc static_at m w ty code o n).
  Proof.
    intros G T. unfold deserialize_string_at, deserialize_string. destruct (read_u32 m o n 1) as [[v|]|]; cbn [bind]; [|apply fail_ok; exact G|reflexivity].
    destruct (deserialize_name m (o + 5) (u32 (n - 5))) as [[[name l]|]|]; cbn [bind]; [|apply fail_ok; exact G|reflexivity].
    apply new_type_ok; [exact G|]. destruct (code <=? 1); cbn [type]; destruct T as [-> | ->]; reflexivity.
  Qed.
  Lemma deserialize_ok fuel : forall w o n, good w -> outcome fuel w (deserialize (fun _ => true) e m fuel o n) (deserialize_at malloc static_at e m fuel w o n).
  Proof.
    induction fuel as [|fuel IH]; intros w o n G; [reflexivity|]. cbn [deserialize deserialize_at]. destruct (n <? 1); [apply fail_ok; exact G|].
    destruct (rd m o 1) as [bs|]; cbn [bind]; [|reflexivity]. set (code := dec bs). clearbody code.
    destruct (if 2 <=? n then numeral_code code else None) as [[[ty nu] limit]|] eqn:NC.
    { assert (K : numeral_kind ty) by (destruct (2 <=? n); [apply (numeral_codes _ _ _ _ NC)|discriminate]). unfold deserialize_numeral_at, deserialize_numeral. destruct (rd m (o + 1) 1) as [b1|]; cbn [bind]; [|reflexivity].
      destruct (_ || _); cbn [bind]; [apply fail_ok; exact G|]. destruct (deserialize_name m (o + 2) (u32 (n - 2))) as [[[name l]|]|]; cbn [bind]; [|apply fail_ok; exact G|reflexivity].
      apply (outcome_mono 1); [lia|]. apply numeral_at_ok; [exact G|exact K]. }
    clear NC. destruct ((5 <? code) && (code <=? 11)).
    { destruct (deserialize_name m (o + 1) (u32 (n - 1))) as [[[name l]|]|]; cbn [bind]; [|apply fail_ok; exact G|reflexivity]. apply (outcome_mono 1); [lia|].
      assert (K : forall nu no, outcome 1 w (Ok (Parsed (float_type e nu no name))) (Ok (float_at malloc static_at w no (float_type e nu no name)))).
      { intros nu no. unfold float_at, float_type. destruct (no =? 1); [apply numeral_at_ok; [exact G|exact I]|]. destruct (no =? 2); [apply numeral_at_ok; [exact G|exact I]|]. apply new_type_ok; [exact G|exact I]. }
      destruct (code <=? 8); apply K. }
    destruct ((120 <=? code) && (code <=? 122)); [apply (outcome_mono 1); [lia|]; apply string_ok; auto|].
    destruct ((123 <=? code) && (code <=? 125)); [apply (outcome_mono 1); [lia|]; apply string_ok; auto|].
    destruct ((126 <=? code) && (code <=? 128)).
    { rewrite read_header_eq. destruct (read_numbers m o n (code =? 128)) as [[[count ms]|]|]; cbn [bind]; [|apply fail_ok; exact G|reflexivity].
      set (nd := mk_node false _ 0 []). pose proof (new_ok malloc AL w nd (proj1 G)) as NW. destruct (new malloc w nd) as [b w1]. pose proof G as (N0 & AE & GS).
      destruct NW as (_ & C1 & [(-> & Hw & A1 & ML)|(B0 & Bf & Hw & A1)]).
      { cbn [Z.eqb outcome]. split; [intro x; rewrite Hw; reflexivity|]. split; [exact C1|]. split; [congruence|]. eauto. }
      replace (b =? 0) with false by lia. set (c0 := if code =? 128 then 9 else 5).
      destruct (deserialize_name m (o + c0) (u32 (n - c0))) as [[[name l]|]|]; cbn [bind]; [| |reflexivity].
      2: { destruct (free_ok w1 b nd) as (w2 & E2 & H2 & _ & A2 & C2); [rewrite Hw; apply store_same|reflexivity|]. rewrite E2. cbn [bind outcome]. split; [|split; [congruence|split; [reflexivity|congruence]]].
        intro x. rewrite H2, Hw. unfold store. destruct (Z.eqb_spec x b) as [->|]; [symmetry; exact Bf|reflexivity]. }
      assert (B : building (S fuel) (heap w) b [] [] (heap w1)).
      { exists nd. rewrite Hw. split; [apply store_same|]. do 3 (split; [reflexivity|]). split; [constructor|]. split; [constructor|]. cbn [flat_map]. split; [constructor; [auto|constructor]|]. split; [intros x [<-|[]]; auto|].
        split; [intros x X; apply store_other; intros ->; apply X; left; reflexivity|]. split; [contradiction|constructor]. }
      pose proof (elements_ok fuel w b o n G IH fuel count (u32 (c0 + l)) w1 [] [] B ltac:(congruence)) as R.
      change (outcome (S fuel) w
        (let* cs := elements e m (deserialize (fun _ => true) e m fuel) o n fuel count (u32 (c0 + l)) in
         let old := old_struct e o in
         Ok (match cs with
             | Parsed cs => Parsed (mk_dti false name TUPLE (if code =? 128 then true else code =? 126) (is_variable_sized_ old) (size old) ms false (element_count_ old) (prefix_bitmap_size_in_bits old) (containee_ old) cs)
             | Failed => Failed | Rejected => Rejected end))
        (let* (cs, w2) := elements_at e m (deserialize_at malloc static_at e m fuel) (S fuel) o n b fuel count (u32 (c0 + l)) w1 in
         let old := old_struct e o in
         Ok (match cs with
             | Some cs => Some (mk_dti false name TUPLE (if code =? 128 then true else code =? 126) (is_variable_sized_ old) (size old) ms false (element_count_ old) (prefix_bitmap_size_in_bits old) (containee_ old) cs, b)
             | None => None end, w2))).
      destruct (elements_at e m (deserialize_at malloc static_at e m fuel) (S fuel) o n b fuel count (u32 (c0 + l)) w1) as [[[cs|] w2]|]; cbn [tuple_outcome bind outcome] in *.
      - destruct R as (-> & A2 & C2 & tr & nb & K1 & K2 & K3 & K4 & LF & SH & ND & FR & OT & LB & DP). cbn [app] in *. split; [reflexivity|]. split; [exact A2|]. split; [congruence|]. split.
        + apply laid_out_unfold. exists nb. split; [exact K1|]. split; [exact K3|]. exact LF.
        + exists (Block b tr). split; [reflexivity|]. split.
          * split; [|auto]. apply shape_block. exists nb. split; [exact K1|]. split; [exact K2|]. split; [unfold links; rewrite K3; exact K4|exact SH].
          * cbn [depth]. assert (fold_right Nat.max 0 (map depth tr) <= S fuel)%nat; [|lia]. clear - DP. induction DP; cbn; lia.
      - destruct R as (H2 & C2 & X & Y). split; [exact H2|]. split; [congruence|]. split; [|exact Y]. intro Q. rewrite (X Q). reflexivity.
      - rewrite R. reflexivity. }
    destruct ((129 <=? code) && (code <=? 132)); [|apply fail_ok; exact G].
    destruct (read_header m o n (code =? 131)) as [[[[[v1 v2] name] c]|]|]; cbn [bind]; [|apply fail_ok; exact G|reflexivity].
    pose proof (IH w (o + c) (u32 (n - c)) G) as R. destruct (deserialize_at malloc static_at e m fuel w (o + c) (u32 (n - c))) as [[[[t a]|] w1]|]; cbn [outcome bind] in *.
    - destruct R as (-> & A1 & C1 & LA & s & <- & MA & DS). cbn [bind]. set (d := if code <=? 130 then _ else _).
      assert (D : type d = ARRAY /\ containee_ d = Some t). { unfold d. destruct (code <=? 130); [auto|]. destruct (code <=? 131); auto. }
      clearbody d. destruct D as [D1 D2]. unfold new_type. set (nd := mk_node false (scalars_of d) (root s) []).
      pose proof (made_null _ _ _ MA (proj1 G)) as Z1. pose proof (new_ok malloc AL w1 nd Z1) as NW. destruct (new malloc w1 nd) as [b w2]. pose proof (made_more _ _ _ MA) as MO. pose proof MA as (S1 & NT & FT & KT & LT).
      destruct NW as (_ & C2 & [(-> & Hw & A2 & ML)|(B0 & Bf & Hw & A2)]).
      + cbn [Z.eqb]. destruct (destroy_ok s (S fuel) None DS w2) as (w3 & E3 & (F1 & F2) & _ & A3 & C3); [rewrite Hw; exact S1|exact NT|]. rewrite E3. cbn [bind outcome]. split; [|split; [|split]].
        * intro x. destruct (in_dec Z.eq_dec x (blocks s)) as [X|X]; [rewrite F1 by exact X; symmetry; apply FT; exact X|rewrite F2 by exact X; rewrite Hw; apply KT; exact X].
        * rewrite C3, C2, C1. apply app_nil_r.
        * congruence.
        * eauto.
      + replace (b =? 0) with false by lia. cbn [outcome]. split; [reflexivity|]. split; [congruence|]. split; [congruence|].
        assert (NB : ~ In b (blocks s)). { intro X. destruct (shape_live _ _ S1) as [L1 _]. destruct (L1 b X) as (k & K1 & _). congruence. }
        assert (NBS : ~ In b (statics s)). { intro X. destruct (shape_live _ _ S1) as [_ L2]. destruct (L2 b X) as (k & K1 & _). congruence. }
        assert (CS : forall x, In x (cells s) -> heap w2 x = heap w1 x). { intros x X. rewrite Hw. apply store_other. intros ->. apply in_app_iff in X. tauto. }
        assert (HB : heap w2 b = Some nd) by (rewrite Hw; apply store_same). split.
        * apply laid_out_unfold. exists nd. split; [exact HB|]. split; [reflexivity|]. rewrite D1, D2. cbn [nd containee_at]. apply (laid_more (heap w1)); [|exact LA]. intros x k X. rewrite Hw. rewrite store_other by (intros ->; congruence). exact X.
        * exists (Block b [s]). split; [reflexivity|]. split.
          -- split; [|split; [|split; [|split]]]; cbn [blocks statics flat_map]; rewrite ?app_nil_r.
             ++ apply shape_block. exists nd. split; [exact HB|]. split; [reflexivity|]. split; [unfold links; cbn; rewrite D1; reflexivity|]. constructor; [|constructor]. apply (shape_frame (heap w1)); auto.
             ++ constructor; auto.
             ++ intros x [<-|X]; [|apply FT; exact X]. split; [|exact B0]. rewrite <- KT by exact NB. exact Bf.
             ++ intros x X. rewrite Hw. rewrite store_other by (intros ->; apply X; left; reflexivity). apply KT. intro Y. apply X. right. exact Y.
             ++ exact LT.
          -- cbn [depth map fold_right]. lia.
    - destruct R as (H1 & C1 & X & Y). split; [exact H1|]. split; [exact C1|]. split; [|exact Y]. intro Q. rewrite (X Q). reflexivity.
    - rewrite R. reflexivity.
  Qed.
End AllocFacts.
