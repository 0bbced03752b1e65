(** * Cloning and destroying types: lemmas *)
From Verif Require Export HeapSpec TypeFacts.
From Coq Require Export Permutation.
From Coq Require Import ZifyBool ZifyNat ZifyN Zify.
Ltac Zify.zify_post_hook ::= Z.div_mod_to_equations.

Section ShapeInd.
  Variable P : shape -> Prop.
  Hypothesis Hs : forall a, P (Static a).
  Hypothesis Hb : forall a ps, Forall P ps -> P (Block a ps).
  Fixpoint shape_ind' (t : shape) : P t :=
    match t with
    | Static a => Hs a
    | Block a ps => Hb a ps ((fix all ps := match ps return Forall P ps with [] => Forall_nil _ | p :: ps' => Forall_cons _ (shape_ind' p) (all ps') end) ps)
    end.
End ShapeInd.

Lemma shape_block h a ps : shape_at h (Block a ps) <-> exists n, h a = Some n /\ is_static n = false /\ links n = map root ps /\ Forall (shape_at h) ps.
Proof.
  cbn [shape_at]. split; intros (n & H1 & H2 & H3 & H4); exists n; repeat (split; [assumption|]); clear H3; induction ps as [|p ps IH].
  - constructor.
  - destruct H4. constructor; auto.
  - exact I.
  - inversion H4; subst. split; [assumption|]. apply IH. assumption.
Qed.
Lemma store_same h a n : store h a n a = n.
Proof. unfold store. rewrite Z.eqb_refl. reflexivity. Qed.
Lemma store_other h a n x : x <> a -> store h a n x = h x.
Proof. intro N. unfold store. replace (x =? a) with false by lia. reflexivity. Qed.

Definition cells (t : shape) : list Z := blocks t ++ statics t.
Lemma shape_frame h h' t : shape_at h t -> (forall x, In x (cells t) -> h' x = h x) -> shape_at h' t.
Proof.
  unfold cells. induction t as [a|a ps IH] using shape_ind'; intros H E.
  - destruct H as (n & H1 & H2). exists n. rewrite E by (cbn; auto). auto.
  - apply shape_block in H. destruct H as (n & H1 & H2 & H3 & H4). apply shape_block. exists n. rewrite E by (cbn; auto). repeat (split; [assumption|]).
    clear H3. cbn [blocks statics] in E. rewrite Forall_forall in *. intros p IN. apply IH; [exact IN|apply H4; exact IN|]. intros x X. apply E. apply in_app_iff in X. apply in_app_iff. destruct X as [X|X].
    + left. right. apply in_flat_map. eauto.
    + right. apply in_flat_map. eauto.
Qed.
(** static structs and blocks exist *)
Lemma shape_live h t : shape_at h t -> (forall x, In x (blocks t) -> exists n, h x = Some n /\ is_static n = false) /\ (forall x, In x (statics t) -> exists n, h x = Some n /\ is_static n = true).
Proof.
  induction t as [a|a ps IH] using shape_ind'; intro H.
  - split; [contradiction|]. intros x [<-|[]]. exact H.
  - apply shape_block in H. destruct H as (n & H1 & H2 & _ & H4). rewrite Forall_forall in *. split; intros x X; cbn [blocks statics] in X.
    + destruct X as [<-|X]; [eauto|]. apply in_flat_map in X. destruct X as (p & P1 & P2). apply (proj1 (IH p P1 (H4 p P1))). exact P2.
    + apply in_flat_map in X. destruct X as (p & P1 & P2). apply (proj2 (IH p P1 (H4 p P1))). exact P2.
Qed.
Lemma depth_part a ps p : In p ps -> (depth p < depth (Block a ps))%nat.
Proof.
  cbn [depth]. intro I. assert (depth p <= fold_right Nat.max 0 (map depth ps))%nat; [|lia]. induction ps as [|q ps IH]; [contradiction|]. cbn. destruct I as [->|I]; [lia|]. specialize (IH I). lia.
Qed.
Lemma depth_pos t : (1 <= depth t)%nat.
Proof. destruct t; cbn; lia. Qed.

Definition freed (l : list Z) (h h' : Z -> option node) : Prop := (forall x, In x l -> h' x = None) /\ (forall x, ~ In x l -> h' x = h x).
Lemma calls_app cb l k : calls cb (l ++ k) = calls cb l ++ calls cb k.
Proof. unfold calls. destruct cb; [apply map_app|reflexivity]. Qed.

(** ** destroying *)
Definition destroys (fuel : nat) (cb : option Z) (t : shape) : Prop := forall w, shape_at (heap w) t -> NoDup (blocks t) ->
  exists w', destroy_type fuel cb w (root t) = Ok w' /\ freed (blocks t) (heap w) (heap w') /\ mallocs w' = mallocs w /\ alloc_error w' = alloc_error w /\ called w' = called w ++ calls cb (statics t).
Lemma NoDup_app {A} (l k : list A) : NoDup (l ++ k) -> NoDup l /\ NoDup k /\ forall x, In x l -> ~ In x k.
Proof.
  induction l as [|a l IH]; cbn; intro N; [repeat split; auto; constructor|]. inversion N as [|? ? N1 N2]; subst. destruct (IH N2) as (I1 & I2 & I3). repeat split; auto.
  - constructor; auto. intro X. apply N1. apply in_or_app. auto.
  - intros x [<-|X]; auto. intro Y. apply N1. apply in_or_app. auto.
Qed.
Lemma each_ok fuel cb ps : Forall (destroys fuel cb) ps -> forall w, Forall (shape_at (heap w)) ps -> NoDup (flat_map blocks ps) ->
  exists w', each (destroy_type fuel cb) (map root ps) w = Ok w' /\ freed (flat_map blocks ps) (heap w) (heap w') /\ mallocs w' = mallocs w /\ alloc_error w' = alloc_error w
  /\ called w' = called w ++ calls cb (flat_map statics ps).
Proof.
  induction 1 as [|p ps Hp _ IH]; intros w F N; cbn [map each flat_map].
  - exists w. split; [reflexivity|]. split; [split; [contradiction|reflexivity]|]. repeat split. destruct cb; cbn; rewrite app_nil_r; reflexivity.
  - inversion F as [|? ? F1 F2]; subst. cbn [flat_map] in N. apply NoDup_app in N. destruct N as (N1 & N2 & N3). destruct (Hp w F1 N1) as (w1 & E1 & (Fr1 & Fr2) & M1 & A1 & C1). rewrite E1. cbn [bind].
    destruct (IH w1) as (w2 & E2 & (Fr3 & Fr4) & M2 & A2 & C2); [|exact N2|].
    + rewrite Forall_forall in *. intros q Q. apply (shape_frame (heap w)); [apply F2; exact Q|]. intros x X. apply Fr2. intro Y. unfold cells in X. apply in_app_iff in X. destruct X as [X|X].
      * apply (N3 x Y). apply in_flat_map. eauto.
      * destruct (shape_live _ _ F1) as [L1 _]. destruct (shape_live _ _ (F2 q Q)) as [_ L2]. destruct (L1 x Y) as (n & K1 & K2). destruct (L2 x X) as (n' & K3 & K4). congruence.
    + exists w2. split; [exact E2|]. split; [|split; [congruence|split; [congruence|]]].
      * split; intros x X; [|rewrite in_app_iff in X; rewrite Fr4, Fr2; tauto]. apply in_app_iff in X. destruct X as [X|X]; [|apply Fr3; exact X].
        rewrite Fr4 by (intro Y; exact (N3 x X Y)). apply Fr1. exact X.
      * rewrite C2, C1, calls_app, app_assoc. reflexivity.
Qed.
Lemma free_ok w a n : heap w a = Some n -> is_static n = false -> exists w', free w a = Ok w' /\ heap w' = store (heap w) a None /\ mallocs w' = mallocs w /\ alloc_error w' = alloc_error w /\ called w' = called w.
Proof. intros H S. unfold free, deref. rewrite H. cbn [bind]. rewrite S. eexists. split; [reflexivity|]. cbn. auto. Qed.
Lemma destroy_ok t : forall fuel cb, (depth t <= fuel)%nat -> destroys fuel cb t.
Proof.
  induction t as [a|a ps IH] using shape_ind'; intros fuel cb D w H N.
  - destruct H as (n & H1 & H2). destruct fuel; [cbn in D; lia|]. cbn [destroy_type root]. unfold deref. rewrite H1. cbn [bind]. rewrite H2. eexists. split; [reflexivity|].
    cbn [blocks statics]. destruct cb; cbn; rewrite ?app_nil_r; (split; [split; [contradiction|reflexivity]|]); auto.
  - apply shape_block in H. destruct H as (n & H1 & H2 & H3 & H4). destruct fuel as [|fuel]; [cbn in D; lia|]. cbn [destroy_type root]. unfold deref at 1. rewrite H1. cbn [bind]. rewrite H2.
    cbn [blocks] in N. inversion N as [|? ? N1 N2]; subst.
    assert (FD : Forall (destroys fuel cb) ps). { rewrite Forall_forall in *. intros p P. apply IH; [exact P|]. pose proof (depth_part a ps p P). lia. }
    destruct (each_ok fuel cb ps FD w H4 N2) as (w1 & E1 & (Fr1 & Fr2) & M1 & A1 & C1). rewrite <- H3 in E1.
    assert (K : heap w1 a = Some n) by (rewrite Fr2 by exact N1; exact H1). destruct (free_ok w1 a n K H2) as (w2 & E2 & Hw & M2 & A2 & C2).
    exists w2. split.
    + assert (Q : (let* w1 := each (destroy_type fuel cb) (links n) w in free w1 a) = Ok w2) by (rewrite E1; exact E2). unfold links in Q, E1. destruct (type (scalars n)) eqn:T; cbn [each bind] in Q, E1; auto;
      destruct (destroy_type fuel cb w (containee_at n)); cbn [bind] in *; auto.
    + split; [|split; [congruence|split; [congruence|]]]; [|cbn [statics]; congruence]. cbn [blocks]. rewrite Hw. split; intros x X.
      * destruct (Z.eq_dec x a) as [->|Na]; [apply store_same|]. rewrite store_other by exact Na. destruct X as [X|X]; [congruence|]. apply Fr1. exact X.
      * rewrite store_other by (intros ->; apply X; left; reflexivity). apply Fr2. intro Y. apply X. right. exact Y.
Qed.

(** ** copies *)
Fixpoint copy_of (h h' : Z -> option node) (t t' : shape) : Prop :=
  match t, t' with
  | Static a, Static b => a = b
  | Block a ps, Block b qs => (exists n n', h a = Some n /\ h' b = Some n' /\ scalars n' = scalars n /\ map fst (containees_at n') = map fst (containees_at n))
      /\ (fix all ps qs := match ps, qs with [], [] => True | p :: ps', q :: qs' => copy_of h h' p q /\ all ps' qs' | _, _ => False end) ps qs
  | _, _ => False
  end.
Lemma copy_block h h' a ps b qs : copy_of h h' (Block a ps) (Block b qs) <->
  (exists n n', h a = Some n /\ h' b = Some n' /\ scalars n' = scalars n /\ map fst (containees_at n') = map fst (containees_at n)) /\ Forall2 (copy_of h h') ps qs.
Proof.
  cbn [copy_of]. split; intros [H1 H2]; (split; [exact H1|]); clear H1; revert qs H2; induction ps as [|p ps IH]; intros [|q qs] H2; try contradiction; try (inversion H2; fail); auto.
  - destruct H2. constructor; auto.
  - inversion H2; subst. split; [assumption|]. apply IH. assumption.
Qed.
Lemma Forall2_impl_in {A B} (P Q : A -> B -> Prop) l k : Forall2 P l k -> (forall x y, In x l -> In y k -> P x y -> Q x y) -> Forall2 Q l k.
Proof. induction 1; intro I; constructor; [apply I; cbn; auto|]. apply IHForall2. intros. apply I; cbn; auto. Qed.
Lemma copy_frame h g h' g' t : forall t', copy_of h h' t t' -> (forall x, In x (blocks t) -> g x = h x) -> (forall x, In x (blocks t') -> g' x = h' x) -> copy_of g g' t t'.
Proof.
  induction t as [a|a ps IH] using shape_ind'; intros [b|b qs] C E1 E2; try contradiction; [exact C|]. apply copy_block in C. destruct C as ((n & n' & C1 & C2 & C3 & C4) & C5). apply copy_block.
  split; [exists n, n'; rewrite E1, E2 by (left; reflexivity); auto|]. rewrite Forall_forall in IH. apply (Forall2_impl_in _ _ _ _ C5). intros p q Ip Iq C. apply IH; auto; intros x X; [apply E1|apply E2]; right; apply in_flat_map; eauto.
Qed.
Lemma describes_unfold h a d : describes h a d <-> exists n, h a = Some n /\ same_scalars n d
  /\ match type d with
     | STRING | BINARY | ARRAY => exists c, containee_ d = Some c /\ describes h (containee_at n) c
     | TUPLE => Forall2 (fun pc qb => fst pc = fst qb /\ describes h (snd qb) (snd pc)) (containees d) (containees_at n)
     | _ => True
     end.
Proof.
  assert (L : forall cs ls, (fix all (cs : list (position * dti)) (ls : list (position * Z)) : Prop :=
            match cs, ls with
            | [], [] => True
            | (p, c) :: cs', (q, b) :: ls' => p = q /\ describes h b c /\ all cs' ls'
            | _, _ => False
            end) cs ls <-> Forall2 (fun pc qb => fst pc = fst qb /\ describes h (snd qb) (snd pc)) cs ls).
  { induction cs as [|[p c] cs IH]; intros [|[q b] ls]; split; intro H; try contradiction; try (inversion H; fail); auto.
    - destruct H as (H1 & H2 & H3). constructor; [auto|]. apply IH. exact H3.
    - inversion H as [|? ? ? ? [H1 H2] H3]; subst. split; [exact H1|]. split; [exact H2|]. apply IH. exact H3. }
  destruct d as [fin nm ty nu vr sz ms hv ec pb ce cs]. cbn [describes type containee_ containees].
  split; intros (n & H1 & H2 & H3); exists n; (split; [exact H1|]); (split; [exact H2|]); destruct ty; auto; try (apply L; exact H3); try (destruct ce as [c|]; [eauto|contradiction]);
    destruct H3 as (c & -> & H3); exact H3.
Qed.
Lemma describes_more h h' : (forall x n, h x = Some n -> h' x = Some n) -> forall d a, describes h a d -> describes h' a d.
Proof.
  intros M d. induction d as [d IHc IHs] using dti_induction. intros a H. apply describes_unfold in H. apply describes_unfold. destruct H as (n & H1 & H2 & H3). exists n. split; [auto|]. split; [exact H2|].
  destruct (type d); auto; try (destruct H3 as (c & E & H3); exists c; split; [exact E|]; apply (IHc c E); exact H3).
  apply (Forall2_impl_in _ _ _ _ H3). intros [p c] [q b] I1 _ [K1 K2]. split; [exact K1|]. apply (IHs p c I1). exact K2.
Qed.
Lemma copied h h' : (forall x n, h x = Some n -> h' x = Some n) -> forall t t' d, shape_at h t -> shape_at h' t' -> copy_of h h' t t' -> describes h (root t) d -> describes h' (root t') d.
Proof.
  intro M. induction t as [a|a ps IH] using shape_ind'; intros [b|b qs] d H H' C DS; try contradiction.
  - cbn [copy_of] in C. subst b. apply (describes_more h); auto.
  - apply copy_block in C. destruct C as ((n & n' & C1 & C2 & C3 & C4) & C5). apply shape_block in H, H'. destruct H as (n0 & H1 & H2 & H3 & H4). destruct H' as (n0' & H1' & H2' & H3' & H4').
    assert (n0 = n) by congruence. assert (n0' = n') by congruence. subst n0 n0'. cbn [root] in *. apply describes_unfold in DS. destruct DS as (n0 & D1 & D2 & D3). assert (n0 = n) by congruence. subst n0.
    apply describes_unfold. exists n'. split; [exact C2|]. split; [unfold same_scalars in *; congruence|].
    assert (T : type (scalars n) = type d) by (rewrite D2; reflexivity). unfold links in H3, H3'. rewrite C3, T in H3'. rewrite T in H3. clear D2 C3 D1 C1 C2 H1 H1'.
    destruct (type d); auto.
    1,2,4: destruct D3 as (c & E & D3); exists c; split; [exact E|]; destruct ps as [|p [|? ?]]; try discriminate; destruct qs as [|q [|? ?]]; try discriminate; cbn in H3, H3'; injection H3 as H3; injection H3' as H3';
      inversion C5; inversion H4; inversion H4'; inversion IH; subst; rewrite H3'; rewrite H3 in D3; match goal with X : forall t', _ |- _ => apply X; assumption end.
    clear T H2 H2'. revert D3 C4 H3 H3'. generalize (containees d) (containees_at n) (containees_at n'). clear n n'. induction C5 as [|p q ps qs C5 _ IH5]; intros cs ln ln' D3 C4 H3 H3'.
    + destruct ln; [|discriminate]. destruct ln'; [|discriminate]. inversion D3. constructor.
    + destruct ln as [|[x u] ln]; [discriminate|]. destruct ln' as [|[x' u'] ln']; [discriminate|]. cbn in *. inversion IH; inversion H4; inversion H4'; subst. injection C4 as -> C4. injection H3 as -> H3. injection H3' as -> H3'.
      inversion D3 as [|[y c] ? cs' ? [K1 K2] K3]; subst. constructor; [|apply (IH5 ltac:(assumption) ltac:(assumption) ltac:(assumption) cs' ln ln'); auto]. cbn in *. split; [exact K1|]. auto.
Qed.

(** ** cloning *)
Section CloneFacts.
  Variable (malloc : nat -> (Z -> option node) -> Z) (stic on_destroy : option Z).
  Hypothesis AL : allocates malloc.

  Definition cloned (w w' : world) (t t' : shape) : Prop :=
    shape_at (heap w') t' /\ copy_of (heap w) (heap w') t t' /\ NoDup (blocks t') /\ (forall x, In x (blocks t') -> heap w x = None /\ x <> 0)
    /\ (forall x, ~ In x (blocks t') -> heap w' x = heap w x) /\ statics t' = statics t /\ depth t' = depth t.
  Definition balanced (ev : list (Z * Z)) : Prop := exists l, Permutation ev (calls stic l ++ calls on_destroy l).
  Definition gave_up (w w' : world) : Prop :=
    alloc_error w' = true /\ (forall x, heap w' x = heap w x) /\ (exists ev, called w' = called w ++ ev /\ balanced ev)
    /\ exists k h, (mallocs w <= k < mallocs w')%nat /\ malloc k h = 0.
  Definition clones (fuel : nat) (t : shape) : Prop := forall w, shape_at (heap w) t -> alloc_error w = false -> heap w 0 = None ->
    exists r w', clone_type malloc stic on_destroy fuel w (root t) = Ok (r, w') /\ (mallocs w <= mallocs w')%nat
    /\ ((r <> 0 /\ alloc_error w' = false /\ called w' = called w ++ calls stic (statics t) /\ exists t', root t' = r /\ cloned w w' t t')
        \/ (r = 0 /\ gave_up w w')).

  Lemma balanced_around l ev : balanced ev -> balanced (calls stic l ++ ev ++ calls on_destroy l).
  Proof.
    intros (k & P). exists (l ++ k). rewrite !calls_app, <- !app_assoc. apply Permutation_app_head. rewrite P, <- app_assoc. apply Permutation_app_head. apply Permutation_app_comm.
  Qed.
  Lemma balanced_nil : balanced [].
  Proof. exists []. destruct stic, on_destroy; reflexivity. Qed.

  (** the clone at [b] of the TUPLE [n] of the heap [h0], with the elements [td] so far *)
  Definition partly (h0 : Z -> option node) (n : node) (b : Z) (pd td : list shape) (h : Z -> option node) : Prop :=
    (exists nb, h b = Some nb /\ is_static nb = false /\ scalars nb = scalars n /\ map fst (containees_at nb) = map fst (containees_at n) /\ firstn (length td) (map snd (containees_at nb)) = map root td)
    /\ Forall (shape_at h) td /\ Forall2 (copy_of h0 h) pd td /\ NoDup (b :: flat_map blocks td)
    /\ (forall x, In x (b :: flat_map blocks td) -> h0 x = None /\ x <> 0) /\ (forall x, ~ In x (b :: flat_map blocks td) -> h x = h0 x)
    /\ flat_map statics td = flat_map statics pd /\ map depth td = map depth pd.

  Lemma set_link_fst l i p : map fst (set_link l i p) = map fst l.
  Proof.
    unfold set_link. rewrite map_app. rewrite <- (firstn_skipn i l) at 3. rewrite map_app. f_equal. destruct (skipn i l) as [|[q x] l']; reflexivity.
  Qed.
  Lemma set_link_snd l i p : (i < length l)%nat -> firstn (S i) (map snd (set_link l i p)) = firstn i (map snd l) ++ [p].
  Proof.
    intro L. unfold set_link. rewrite map_app. rewrite <- firstn_map. rewrite firstn_app. rewrite firstn_length, map_length. replace (Nat.min i (length l)) with i by lia.
    rewrite firstn_all2 by (rewrite firstn_length, map_length; lia). replace (S i - i)%nat with 1%nat by lia. f_equal.
    destruct (skipn i l) as [|[q x] l'] eqn:E; [|reflexivity]. pose proof (skipn_length i l) as K. rewrite E in K. cbn in K. lia.
  Qed.
  Lemma NoDup_join {A} (l k : list A) : NoDup l -> NoDup k -> (forall x, In x l -> ~ In x k) -> NoDup (l ++ k).
  Proof.
    induction l as [|a l IH]; intros N1 N2 D; [exact N2|]. inversion N1; subst. cbn. constructor; [|apply IH; auto; intros x X; apply D; right; exact X].
    intro X. apply in_app_iff in X. destruct X as [X|X]; [auto|]. apply (D a); [left; reflexivity|exact X].
  Qed.

  Lemma clone_each_ok fuel h0 n b pr : Forall (clones fuel) pr -> Forall (fun p => (depth p <= fuel)%nat) pr -> forall w pd td,
    Forall (shape_at h0) (pd ++ pr) -> Forall (fun p => (depth p <= fuel)%nat) pd -> partly h0 n b pd td (heap w) -> h0 0 = None -> length (containees_at n) = length (pd ++ pr) -> length td = length pd ->
    alloc_error w = false ->
    exists r w', clone_each on_destroy fuel (clone_type malloc stic on_destroy fuel) b (map root pr) (length td) w = Ok (r, w') /\ (mallocs w <= mallocs w')%nat
    /\ ((r = b /\ alloc_error w' = false /\ called w' = called w ++ calls stic (flat_map statics pr) /\ exists tr, partly h0 n b (pd ++ pr) (td ++ tr) (heap w') /\ length tr = length pr)
        \/ (r = 0 /\ alloc_error w' = true /\ (forall x, heap w' x = h0 x) /\ (exists ev e, called w' = called w ++ ev /\ balanced e /\ Permutation ev (e ++ calls on_destroy (flat_map statics pd)))
            /\ exists k h, (mallocs w <= k < mallocs w')%nat /\ malloc k h = 0)).
  Proof.
    induction 1 as [|p pr Cp _ IH]; intros DP w pd td SH DD PA NUL LEN LTD AE; cbn [map clone_each].
    - exists b, w. split; [reflexivity|]. split; [lia|]. left. split; [reflexivity|]. split; [exact AE|]. split; [destruct stic; cbn; rewrite app_nil_r; reflexivity|]. exists []. rewrite !app_nil_r. auto.
    - inversion DP as [|? ? DP1 DP2]; subst.
      pose proof PA as ((nb & B1 & B2 & B3 & B4 & B5) & P1 & P2 & P3 & P4 & P5 & P6 & P7).
      assert (SP : shape_at h0 p) by (rewrite Forall_forall in SH; apply SH; apply in_or_app; right; left; reflexivity).
      assert (LIVE : forall x m, h0 x = Some m -> heap w x = Some m). { intros x m X. rewrite P5; [exact X|]. intro Y. apply P4 in Y. destruct Y. congruence. }
      assert (SPw : shape_at (heap w) p).
      { apply (shape_frame h0); [exact SP|]. intros x X. destruct (shape_live _ _ SP) as [L1 L2]. apply in_app_iff in X. destruct X as [X|X]; [destruct (L1 x X) as (m & K & _)|destruct (L2 x X) as (m & K & _)]; rewrite K; apply LIVE; exact K. }
      assert (N0 : heap w 0 = None). { rewrite P5; [exact NUL|]. intro Y. apply P4 in Y. destruct Y. congruence. }
      destruct (Cp w SPw AE N0) as (r & w1 & E1 & M1 & K). rewrite E1. cbn [bind].
      destruct K as [(R0 & A1 & C1 & t' & <- & T1 & T2 & T3 & T4 & T5 & T6 & T7)|(R0 & A1 & H1 & (ev & C1 & BA) & KM)].
      + assert (NB : ~ In b (blocks t')). { intro X. apply T4 in X. destruct X. congruence. }
        assert (B1' : heap w1 b = Some nb) by (rewrite T5 by exact NB; exact B1).
        unfold set_containees, deref. rewrite B1'. cbn [bind alloc_error]. rewrite A1. set (nb' := mk_node _ _ _ _). set (w2 := mk_world _ _ _ _).
        assert (H2 : forall x, x <> b -> heap w2 x = heap w1 x) by (intros x X; apply store_other; exact X).
        assert (LT : (length td < length (containees_at nb))%nat). { apply (f_equal (@length _)) in B4. rewrite !map_length in B4. rewrite app_length in LEN. cbn in LEN. lia. }
        assert (NDT : forall x, In x (flat_map blocks td) -> ~ In x (blocks t')).
        { intros x X Y. apply T4 in Y. destruct Y as [Y _]. apply in_flat_map in X. destruct X as (q & Q1 & Q2). rewrite Forall_forall in P1. destruct (shape_live _ _ (P1 q Q1)) as [L1 _]. destruct (L1 x Q2) as (m & K & _). congruence. }
        assert (PA2 : partly h0 n b (pd ++ [p]) (td ++ [t']) (heap w2)).
        { split; [|split; [|split; [|split; [|split; [|split; [|split]]]]]].
          - exists nb'. split; [apply store_same|]. unfold nb'. cbn [is_static scalars containees_at]. split; [exact B2|]. split; [exact B3|]. split; [rewrite set_link_fst; exact B4|].
            rewrite app_length, map_app. cbn [length map]. rewrite Nat.add_1_r. rewrite set_link_snd by exact LT. rewrite B5. reflexivity.
          - apply Forall_app. split; [|constructor; [|constructor]].
            + rewrite Forall_forall in *. intros q Q. apply (shape_frame (heap w)); [apply P1; exact Q|]. intros x X. pose proof X as X0. destruct (shape_live _ _ (P1 q Q)) as [L1 L2]. apply in_app_iff in X.
              assert (XB : x <> b). { intros ->. destruct X as [X|X]; [|destruct (L2 b X) as (m & K1 & K2); congruence]. inversion P3 as [|? ? P3a _]; subst. apply P3a. apply in_flat_map. eauto. }
              rewrite H2 by exact XB. apply T5. intro Y. apply T4 in Y. destruct Y as [Y _]. destruct X as [X|X]; [destruct (L1 x X) as (m & K1 & _)|destruct (L2 x X) as (m & K1 & _)]; congruence.
            + apply (shape_frame (heap w1)); [exact T1|]. intros x X. apply H2. intros ->. apply in_app_iff in X. destruct X as [X|X]; [exact (NB X)|]. destruct (shape_live _ _ T1) as [_ L2]. destruct (L2 b X) as (m & K1 & K2). congruence.
          - apply Forall2_app; [|constructor; [|constructor]].
            + apply (Forall2_impl_in _ _ _ _ P2). intros q q' Q Q' C. apply (copy_frame h0 h0 (heap w)); [exact C|reflexivity|]. intros x X.
              assert (XI : In x (flat_map blocks td)) by (apply in_flat_map; eauto).
              rewrite H2 by (intros ->; inversion P3; contradiction). apply T5. apply NDT. exact XI.
            + apply (copy_frame (heap w) h0 (heap w1)); [exact T2| |].
              * intros x X. destruct (shape_live _ _ SP) as [L1 _]. destruct (L1 x X) as (m & K & _). rewrite K. symmetry. apply LIVE. exact K.
              * intros x X. apply H2. intros ->. exact (NB X).
          - rewrite flat_map_app. cbn [flat_map]. rewrite app_nil_r. inversion P3; subst. constructor.
            + intro X. apply in_app_iff in X. tauto.
            + apply NoDup_join; auto.
          - intros x X. rewrite flat_map_app in X. cbn [flat_map] in X. rewrite app_nil_r in X. destruct X as [X|X]; [apply P4; left; exact X|]. apply in_app_iff in X. destruct X as [X|X]; [apply P4; right; exact X|].
            destruct (T4 x X) as [Y Z0]. split; [|exact Z0]. destruct (h0 x) as [m|] eqn:K; [|reflexivity]. apply LIVE in K. congruence.
          - intros x X. rewrite flat_map_app in X. cbn [flat_map] in X. rewrite app_nil_r in X. rewrite H2 by (intros ->; apply X; left; reflexivity).
            rewrite T5, P5; [reflexivity| |]; intro Y; apply X; [destruct Y as [Y|Y]; [left; exact Y|right; apply in_or_app; left; exact Y]|right; apply in_or_app; right; exact Y].
          - rewrite !flat_map_app. cbn [flat_map]. congruence.
          - rewrite !map_app. cbn [map]. congruence. }
        destruct (IH DP2 w2 (pd ++ [p]) (td ++ [t'])) as (r & w' & E2 & M2 & K); auto; try (rewrite <- app_assoc; assumption).
        { apply Forall_app. split; [exact DD|]. constructor; [exact DP1|constructor]. }
        { rewrite !app_length. cbn. lia. }
        rewrite app_length in E2. cbn [length] in E2. rewrite Nat.add_1_r in E2. exists r, w'. split; [exact E2|]. cbn [mallocs] in M2. split; [cbn in M2; lia|].
        destruct K as [(R1 & A2 & C2 & tr & PA3 & LR)|(R1 & A2 & H3 & (ev & e & C2 & BA & PE) & k & h & KR & KM)].
        * left. split; [exact R1|]. split; [exact A2|]. split; [rewrite C2; cbn [called w2 flat_map]; rewrite C1, calls_app, app_assoc; reflexivity|].
          exists (t' :: tr). rewrite <- !app_assoc in PA3. split; [exact PA3|cbn; lia].
        * right. split; [exact R1|]. split; [exact A2|]. split; [exact H3|]. split; [|exists k, h; split; [cbn in KR; lia|exact KM]].
          exists (calls stic (statics p) ++ ev), (calls stic (statics p) ++ e ++ calls on_destroy (statics p)). split; [rewrite C2; cbn [called w2]; rewrite C1, app_assoc; reflexivity|]. split; [apply balanced_around; exact BA|].
          rewrite PE. rewrite flat_map_app. cbn [flat_map]. rewrite app_nil_r, calls_app, <- !app_assoc. do 2 apply Permutation_app_head. apply Permutation_app_comm.
      + (* the element could not be cloned: destroy those before it *)
        assert (B1' : heap w1 b = Some nb) by (rewrite H1; exact B1).
        unfold set_containees, deref at 1. rewrite B1'. cbn [bind alloc_error]. rewrite A1. set (nb' := mk_node _ _ _ _). set (w2 := mk_world _ _ _ _).
        assert (H2 : forall x, x <> b -> heap w2 x = heap w x) by (intros x X; cbn [heap w2]; rewrite store_other by exact X; apply H1).
        assert (Hb : heap w2 b = Some nb') by apply store_same. unfold deref at 1. rewrite Hb. cbn [bind].
        assert (LT : (length td < length (containees_at nb))%nat). { apply (f_equal (@length _)) in B4. rewrite !map_length in B4. rewrite app_length in LEN. cbn in LEN. lia. }
        assert (FR : firstn (length td) (map snd (containees_at nb')) = map root td).
        { unfold nb'. cbn [containees_at]. rewrite <- B5. pose proof (set_link_snd (containees_at nb) (length td) r LT) as Q. apply (f_equal (firstn (length td))) in Q. rewrite firstn_firstn, Nat.min_l in Q by lia. rewrite Q.
          rewrite firstn_app, firstn_firstn, Nat.min_id, firstn_length, map_length, Nat.min_l by lia. rewrite Nat.sub_diag. cbn. apply app_nil_r. }
        rewrite FR. assert (FD : Forall (destroys fuel on_destroy) td).
        { rewrite Forall_forall in *. intros q Q. apply destroy_ok. apply (in_map depth) in Q. rewrite P7 in Q. apply in_map_iff in Q. destruct Q as (q' & <- & Q'). apply DD. exact Q'. }
        inversion P3 as [|? ? P3a P3b]; subst.
        assert (SD : Forall (shape_at (heap w2)) td).
        { rewrite Forall_forall in *. intros q Q. apply (shape_frame (heap w)); [apply P1; exact Q|]. intros x X. apply H2. intros ->. apply in_app_iff in X. destruct X as [X|X]; [apply P3a; apply in_flat_map; eauto|].
          destruct (shape_live _ _ (P1 q Q)) as [_ L2]. destruct (L2 b X) as (m & K1 & K2). congruence. }
        destruct (each_ok fuel on_destroy td FD w2 SD P3b) as (w3 & E3 & (Fr1 & Fr2) & M3 & A3 & C3). rewrite E3. cbn [bind].
        assert (Hb3 : heap w3 b = Some nb') by (rewrite Fr2 by exact P3a; exact Hb). destruct (free_ok w3 b nb' Hb3 B2) as (w4 & E4 & H4 & M4 & A4 & C4). rewrite E4. cbn [bind].
        exists 0, w4. split; [reflexivity|]. cbn [mallocs w2] in M3. split; [lia|]. right. split; [reflexivity|]. split; [rewrite A4, A3; cbn [alloc_error w2]; first [exact A1|reflexivity]|]. split; [|split].
        * intro x. rewrite H4. destruct (Z.eq_dec x b) as [->|XB]; [rewrite store_same; symmetry; apply P4; left; reflexivity|]. rewrite store_other by exact XB.
          destruct (in_dec Z.eq_dec x (flat_map blocks td)) as [X|X]; [rewrite Fr1 by exact X; symmetry; apply P4; right; exact X|].
          rewrite Fr2, H2 by assumption. apply P5. intros [Y|Y]; [congruence|contradiction].
        * exists (ev ++ calls on_destroy (flat_map statics td)), ev. split; [rewrite C4, C3; cbn [called w2]; rewrite C1, app_assoc; reflexivity|]. split; [exact BA|]. rewrite P6. reflexivity.
        * destruct KM as (k & h & K1 & K2). exists k, h. split; [lia|exact K2].
  Qed.

  Lemma new_ok w n : heap w 0 = None -> let (b, w1) := new malloc w n in mallocs w1 = S (mallocs w) /\ called w1 = called w /\
    ((b = 0 /\ heap w1 = heap w /\ alloc_error w1 = true /\ malloc (mallocs w) (heap w) = 0)
     \/ (b <> 0 /\ heap w b = None /\ heap w1 = store (heap w) b (Some n) /\ alloc_error w1 = alloc_error w)).
  Proof.
    intro N. unfold new. destruct (Z.eqb_spec (malloc (mallocs w) (heap w)) 0) as [E|E]; cbn; (split; [reflexivity|]); (split; [reflexivity|]); [left; auto|right]. split; [exact E|]. split; [apply AL; exact E|]. auto.
  Qed.
  Lemma clone_ok t : forall fuel, (depth t <= fuel)%nat -> clones fuel t.
  Proof.
    induction t as [a|a ps IH] using shape_ind'; intros fuel D w H AE N0.
    - destruct H as (n & H1 & H2). destruct fuel; [cbn in D; lia|]. cbn [clone_type root]. unfold deref. rewrite H1. cbn [bind]. rewrite H2. eexists _, _. split; [reflexivity|].
      assert (K : heap (callback stic w a) = heap w /\ mallocs (callback stic w a) = mallocs w /\ alloc_error (callback stic w a) = alloc_error w /\ called (callback stic w a) = called w ++ calls stic [a]).
      { destruct stic; cbn; rewrite ?app_nil_r; auto. }
      destruct K as (K1 & K2 & K3 & K4). split; [lia|]. left. split; [intros ->; congruence|]. split; [congruence|]. split; [exact K4|]. exists (Static a). split; [reflexivity|]. unfold cloned. rewrite K1.
      split; [exists n; auto|]. split; [reflexivity|]. split; [constructor|]. split; [contradiction|]. auto.
    - apply shape_block in H. destruct H as (n & H1 & H2 & H3 & H4). destruct fuel as [|fuel]; [cbn in D; lia|]. cbn [clone_type root]. unfold deref at 1. rewrite H1. cbn [bind]. rewrite H2.
      pose proof (new_ok w n N0) as NW. destruct (new malloc w n) as [b w1]. destruct NW as (M1 & C1 & [(-> & Hw & A1 & ML)|(B0 & Bf & Hw & A1)]).
      { cbn [Z.eqb]. exists 0, w1. split; [reflexivity|]. split; [lia|]. right. split; [reflexivity|]. split; [exact A1|]. split; [intro x; rewrite Hw; reflexivity|]. split.
        - exists []. rewrite app_nil_r. split; [exact C1|apply balanced_nil].
        - exists (mallocs w), (heap w). split; [lia|exact ML]. }
      replace (b =? 0) with false by lia.
      assert (FC : Forall (clones fuel) ps). { rewrite Forall_forall in *. intros p P. apply IH; [exact P|]. pose proof (depth_part a ps p P). lia. }
      assert (FD : Forall (fun p => (depth p <= fuel)%nat) ps). { rewrite Forall_forall. intros p P. pose proof (depth_part a ps p P). lia. }
      assert (PA : partly (heap w) n b [] [] (heap w1)).
      { split; [exists n; rewrite Hw, store_same; auto|]. split; [constructor|]. split; [constructor|]. cbn [flat_map]. split; [constructor; [auto|constructor]|]. split; [intros x [<-|[]]; auto|].
        split; [intros x X; rewrite Hw; apply store_other; intros ->; apply X; left; reflexivity|]. auto. }
      (* from the parts to the whole *)
      assert (DONE : forall w' tr nb, heap w' b = Some nb -> is_static nb = false -> scalars nb = scalars n -> map fst (containees_at nb) = map fst (containees_at n) -> links nb = map root tr ->
        Forall (shape_at (heap w')) tr -> Forall2 (copy_of (heap w) (heap w')) ps tr -> NoDup (b :: flat_map blocks tr) -> (forall x, In x (b :: flat_map blocks tr) -> heap w x = None /\ x <> 0) ->
        (forall x, ~ In x (b :: flat_map blocks tr) -> heap w' x = heap w x) -> flat_map statics tr = flat_map statics ps -> map depth tr = map depth ps -> cloned w w' (Block a ps) (Block b tr)).
      { intros w' tr nb Q1 Q2 Q3 Q4 Q5 Q6 Q7 Q8 Q9 Q10 Q11 Q12. split; [apply shape_block; exists nb; auto|]. split; [apply copy_block; split; [exists n, nb; auto|exact Q7]|].
        split; [exact Q8|]. split; [exact Q9|]. split; [exact Q10|]. split; [exact Q11|]. cbn [depth]. rewrite Q12. reflexivity. }
      assert (CE : match type (scalars n) with STRING | BINARY | ARRAY => True | TUPLE => True | _ => ps = [] end).
      { unfold links in H3. destruct (type (scalars n)); auto; destruct ps; auto; discriminate. }
      assert (NUMERAL : ps = [] -> links n = [] -> exists r w', Ok (b, w1) = Ok (r, w') /\ (mallocs w <= mallocs w')%nat
        /\ ((r <> 0 /\ alloc_error w' = false /\ called w' = called w ++ calls stic (statics (Block a ps)) /\ exists t', root t' = r /\ cloned w w' (Block a ps) t') \/ (r = 0 /\ gave_up w w'))).
      { intros -> LK. exists b, w1. split; [reflexivity|]. split; [lia|]. left. split; [exact B0|]. split; [congruence|]. split; [cbn [statics flat_map]; rewrite C1; destruct stic; cbn; rewrite app_nil_r; reflexivity|].
        exists (Block b []). split; [reflexivity|]. destruct PA as ((nb & Q1 & Q2 & Q3 & Q4 & Q5) & _ & _ & P3 & P4 & P5 & _). apply (DONE w1 [] n); auto; first [constructor; fail|rewrite Hw, store_same; reflexivity]. }
      assert (CONTAINEE : links n = [containee_at n] -> type (scalars n) <> TUPLE -> (match type (scalars n) with STRING | BINARY | ARRAY => True | _ => False end) -> exists r w',
        (let* (r, w2) := clone_type malloc stic on_destroy fuel w1 (containee_at n) in let* w3 := set_containee w2 b r in if alloc_error w3 then let* w4 := free w3 b in Ok (0, w4) else Ok (b, w3)) = Ok (r, w') /\ (mallocs w <= mallocs w')%nat
        /\ ((r <> 0 /\ alloc_error w' = false /\ called w' = called w ++ calls stic (statics (Block a ps)) /\ exists t', root t' = r /\ cloned w w' (Block a ps) t') \/ (r = 0 /\ gave_up w w'))).
      { intros LK NT LT. rewrite LK in H3. destruct ps as [|p [|? ?]]; try discriminate. cbn in H3. injection H3 as RP. inversion H4 as [|? ? SP _]; subst. inversion FC as [|? ? CP _]; subst.
        assert (LIVE : forall x m, heap w x = Some m -> heap w1 x = Some m) by (intros x m X; rewrite Hw, store_other by (intros ->; congruence); exact X).
        assert (SP1 : shape_at (heap w1) p).
        { apply (shape_frame (heap w)); [exact SP|]. intros x X. destruct (shape_live _ _ SP) as [L1 L2]. apply in_app_iff in X. destruct X as [X|X]; [destruct (L1 x X) as (m & K & _)|destruct (L2 x X) as (m & K & _)]; rewrite K; apply LIVE; exact K. }
        assert (N1 : heap w1 0 = None) by (rewrite Hw, store_other by auto; exact N0). rewrite RP.
        destruct (CP w1 SP1 ltac:(congruence) N1) as (r & w2 & E2 & M2 & K). rewrite E2. cbn [bind].
        assert (Hb : heap w1 b = Some n) by (rewrite Hw; apply store_same).
        destruct K as [(R0 & A2 & C2 & t' & <- & T1 & T2 & T3 & T4 & T5 & T6 & T7)|(R0 & A2 & H5 & (ev & C2 & BA) & k & h & KR & KM)].
        - assert (NB : ~ In b (blocks t')) by (intro X; apply T4 in X; destruct X; congruence).
          assert (Hb2 : heap w2 b = Some n) by (rewrite T5 by exact NB; exact Hb).
          unfold set_containee, deref at 1. rewrite Hb2. cbn [bind alloc_error]. rewrite A2. set (nb := mk_node _ _ _ _). set (w3 := mk_world _ _ _ _).
          assert (H6 : forall x, x <> b -> heap w3 x = heap w2 x) by (intros x X; apply store_other; exact X).
          exists b, w3. split; [reflexivity|]. split; [cbn [mallocs w3]; lia|]. left. split; [exact B0|]. split; [reflexivity|]. split; [cbn [called w3 statics flat_map]; rewrite app_nil_r, C2; congruence|].
          exists (Block b [t']). split; [reflexivity|]. apply (DONE w3 [t'] nb); auto; try (cbn [flat_map]; rewrite ?app_nil_r).
          + apply store_same.
          + unfold links, nb. cbn [scalars containee_at]. destruct (type (scalars n)); try contradiction; reflexivity.
          + constructor; [|constructor]. apply (shape_frame (heap w2)); [exact T1|]. intros x X. apply H6. intros ->. apply in_app_iff in X. destruct X as [X|X]; [exact (NB X)|]. destruct (shape_live _ _ T1) as [_ L2]. destruct (L2 b X) as (m & K1 & K2). congruence.
          + constructor; [|constructor]. apply (copy_frame (heap w1) _ (heap w2)); [exact T2| |].
            * intros x X. destruct (shape_live _ _ SP) as [L1 _]. destruct (L1 x X) as (m & K & _). rewrite K. symmetry. apply LIVE. exact K.
            * intros x X. apply H6. intros ->. exact (NB X).
          + constructor; assumption.
          + intros x [<-|X]; [auto|]. destruct (T4 x X) as [Y Z0]. split; [|exact Z0]. rewrite Hw, store_other in Y; [exact Y|]. intros ->. contradiction.
          + intros x X. rewrite H6, T5, Hw, store_other; [reflexivity| | |]; intro Y; apply X; subst; cbn; auto.
          + exact T6.
          + cbn [map]. congruence.
        - unfold set_containee, deref at 1. rewrite H5, Hb. cbn [bind alloc_error]. rewrite A2. set (nb := mk_node _ _ _ _). set (w3 := mk_world _ _ _ _).
          assert (Hb3 : heap w3 b = Some nb) by apply store_same. destruct (free_ok w3 b nb Hb3 H2) as (w4 & E4 & H7 & M4 & A4 & C4). rewrite E4. cbn [bind].
          exists 0, w4. split; [reflexivity|]. cbn [mallocs w3] in M4. split; [lia|]. right. split; [reflexivity|]. split; [rewrite A4; reflexivity|]. split; [|split].
          + intro x. rewrite H7. destruct (Z.eq_dec x b) as [->|XB]; [rewrite store_same; congruence|]. rewrite store_other by exact XB. cbn [heap w3]. rewrite store_other, H5, Hw, store_other by exact XB. reflexivity.
          + exists ev. split; [rewrite C4; cbn [called w3]; congruence|exact BA].
          + exists k, h. split; [lia|exact KM]. }
      destruct (type (scalars n)) eqn:T; try (apply NUMERAL; [exact CE|unfold links; rewrite T; reflexivity]); try (apply CONTAINEE; [unfold links; rewrite T; reflexivity|congruence|exact I]).
      clear NUMERAL CONTAINEE. unfold links in H3. rewrite T in H3. assert (LN : length (containees_at n) = length ps) by (apply (f_equal (@length _)) in H3; rewrite !map_length in H3; exact H3). rewrite H3.
      destruct (clone_each_ok fuel (heap w) n b ps FC FD w1 [] []) as (r & w' & E & M & K); auto; [congruence|]. cbn [length app] in *. rewrite E. exists r, w'. split; [reflexivity|]. split; [lia|].
      destruct K as [(-> & A2 & C2 & tr & ((nb & B1 & B2 & B3 & B4 & B5) & P1 & P2 & P3 & P4 & P5 & P6 & P7) & LR)|(-> & A2 & H5 & (ev & e & C2 & BA & PE) & k & h & KR & KM)].
      + left. split; [exact B0|]. split; [exact A2|]. split; [cbn [statics]; congruence|]. exists (Block b tr). split; [reflexivity|]. apply (DONE w' tr nb); auto.
        unfold links. rewrite B3, T. rewrite <- B5, firstn_all2; [reflexivity|]. apply (f_equal (@length _)) in B4. rewrite !map_length in *. lia.
      + right. split; [reflexivity|]. split; [exact A2|]. split; [exact H5|]. split; [|exists k, h; split; [lia|exact KM]].
        exists ev. split; [congruence|]. destruct BA as (l & PB). exists l. rewrite PE. cbn [flat_map]. destruct on_destroy; cbn; rewrite app_nil_r; exact PB.
  Qed.
End CloneFacts.
