(** * C48 and C53: positional accessors *)
From Coq Require Import String.
From Verif Require Import Accessor HashFacts SizeProps TupleProps TupleExamples SerdeProps CompareProps HashProps NestedProps.
From Coq Require Import ZifyBool ZifyNat ZifyN Zify.
Ltac Zify.zify_post_hook ::= Z.div_mod_to_equations.
Open Scope list_scope.
Open Scope Z_scope.

(** an accessor in an array of less than 2^32 positions *)
Definition accessor_ok (p : accessor) : Prop := 0 <= positions_length p <= zlen (positions p) /\ zlen (positions p) < 2 ^ 32.

Lemma firstn_app_exact {A} (l k : list A) : firstn (length l) (l ++ k) = l.
Proof. rewrite firstn_app, Nat.sub_diag, firstn_O, app_nil_r. apply firstn_all. Qed.
Lemma path_length p : accessor_ok p -> zlen (path_of p) = positions_length p.
Proof. intros [L _]. unfold path_of, zlen in *. rewrite firstn_length. lia. Qed.
Lemma u32_small z : 0 <= z < 2 ^ 32 -> u32 z = z.
Proof. intro. unfold u32. apply Z.mod_small. assumption. Qed.

(** appending concatenates the paths, if there is room *)
Theorem C48_append p t : accessor_ok p -> positions_length p + zlen t <= zlen (positions p) ->
  exists q, append_positions p t = Ok q /\ accessor_ok q /\ zlen (positions q) = zlen (positions p) /\ path_of q = path_of p ++ t.
Proof.
  intros OK R. pose proof (path_length p OK) as PL. destruct OK as [L B]. pose proof (zlen_nonneg t) as T0. unfold append_positions. replace (positions_length p + zlen t <=? zlen (positions p)) with true by lia. eexists. split; [reflexivity|].
  assert (ZL : zlen (firstn (Z.to_nat (positions_length p)) (positions p) ++ t ++ skipn (Z.to_nat (positions_length p + zlen t)) (positions p)) = zlen (positions p)).
  { unfold zlen in *. rewrite !app_length, firstn_length, skipn_length. lia. }
  split; [|split; [exact ZL|]].
  - split; cbn [positions positions_length]; rewrite ZL; [|exact B]. rewrite u32_small; lia.
  - unfold path_of at 1. cbn [positions positions_length]. rewrite u32_small by lia. rewrite app_assoc. fold (path_of p).
    replace (Z.to_nat (positions_length p + zlen t)) with (length (path_of p ++ t)) by (rewrite app_length; unfold zlen in *; lia). apply firstn_app_exact.
Qed.
Print Assumptions C48_append.
(** the parent: the path without its last position; none for the root *)
Theorem C48_parent p : accessor_ok p ->
  match path_of p with
  | [] => point_to_parent p = (false, p)
  | _ => exists q, point_to_parent p = (true, q) /\ accessor_ok q /\ positions q = positions p /\ path_of q = removelast (path_of p)
  end.
Proof.
  intros OK. pose proof (path_length p OK) as PL. destruct OK as [L B]. unfold point_to_parent, is_self. destruct (path_of p) as [|i l] eqn:E.
  - replace (positions_length p =? 0) with true; [reflexivity|]. cbn in PL. lia.
  - rewrite zlen_cons in PL. pose proof (zlen_nonneg l). replace (positions_length p =? 0) with false by lia. eexists. split; [reflexivity|]. rewrite u32_small by lia.
    split; [split; cbn [positions positions_length]; lia|]. split; [reflexivity|]. unfold path_of. cbn [positions positions_length]. rewrite <- E. unfold path_of.
    rewrite removelast_firstn_len, firstn_firstn, firstn_length. f_equal. unfold zlen in *. lia.
Qed.
Print Assumptions C48_parent.
Lemma increment_ok p l i : accessor_ok p -> path_of p = l ++ [i] -> exists q, increment_last p = Ok q /\ accessor_ok q /\ zlen (positions q) = zlen (positions p) /\ path_of q = l ++ [u32 (i + 1)].
Proof.
  intros OK E. pose proof (path_length p OK) as PL. destruct OK as [L B]. rewrite E in PL. rewrite zlen_app in PL. change (zlen [i]) with 1 in PL. pose proof (zlen_nonneg l) as L0.
  assert (BUF : positions p = l ++ [i] ++ skipn (Z.to_nat (positions_length p)) (positions p)).
  { rewrite app_assoc, <- E. unfold path_of. symmetry. apply firstn_skipn. }
  assert (LN : Z.to_nat (positions_length p - 1) = length l) by (unfold zlen in *; lia).
  unfold increment_last. rewrite LN. assert (NE : nth_error (positions p) (length l) = Some i) by (rewrite BUF, nth_error_app2, Nat.sub_diag by lia; reflexivity). rewrite NE. eexists. split; [reflexivity|].
  assert (F : firstn (length l) (positions p) = l) by (rewrite BUF; apply firstn_app_exact). rewrite F.
  assert (ZL : zlen (l ++ [u32 (i + 1)] ++ skipn (Z.to_nat (positions_length p)) (positions p)) = zlen (positions p)).
  { apply (f_equal (@length Z)) in BUF. unfold zlen. rewrite !app_length in *. cbn [length] in *. lia. }
  split; [split; cbn [positions positions_length]; rewrite ZL; auto|]. split; [exact ZL|]. unfold path_of. cbn [positions positions_length].
  rewrite app_assoc. replace (Z.to_nat (positions_length p)) with (length (l ++ [u32 (i + 1)])) at 1 by (rewrite app_length; cbn; unfold zlen in *; lia). apply firstn_app_exact.
Qed.
(** the next sibling: the last position plus one; none for the root *)
Theorem C48_next_sibling p : accessor_ok p ->
  (path_of p = [] -> point_to_next_sibling p = Ok (false, p))
  /\ forall l i, path_of p = l ++ [i] -> exists q, point_to_next_sibling p = Ok (true, q) /\ accessor_ok q /\ zlen (positions q) = zlen (positions p) /\ path_of q = l ++ [u32 (i + 1)].
Proof.
  intro OK. pose proof (path_length p OK) as PL. unfold point_to_next_sibling, is_self. split.
  - intro E. rewrite E in PL. change (zlen []) with 0 in PL. rewrite <- PL. reflexivity.
  - intros l i E. destruct (increment_ok p l i OK E) as (q & I & R). rewrite E, zlen_app in PL. change (zlen [i]) with 1 in PL. pose proof (zlen_nonneg l). replace (positions_length p =? 0) with false by lia.
    exists q. rewrite I. split; [reflexivity|exact R].
Qed.
Print Assumptions C48_next_sibling.
(** the next uncle: the next sibling of the parent; none for the root and its children *)
Theorem C48_next_uncle p : accessor_ok p ->
  (zlen (path_of p) <= 1 -> point_to_next_uncle p = Ok (false, p))
  /\ forall l i j, path_of p = l ++ [i; j] -> exists q, point_to_next_uncle p = Ok (true, q) /\ accessor_ok q /\ zlen (positions q) = zlen (positions p) /\ path_of q = l ++ [u32 (i + 1)]
       /\ point_to_next_sibling (snd (point_to_parent p)) = Ok (true, q).
Proof.
  intro OK. pose proof (path_length p OK) as PL. split.
  - intro E. unfold point_to_next_uncle. replace (positions_length p <=? 1) with true by lia. reflexivity.
  - intros l i j E. assert (PL' : positions_length p = zlen l + 2) by (rewrite <- PL, E, zlen_app; reflexivity). pose proof (zlen_nonneg l). pose proof OK as [L B].
    pose proof (C48_parent p OK) as PP. rewrite E in PP. assert (P1 : exists q, point_to_parent p = (true, q) /\ accessor_ok q /\ positions q = positions p /\ path_of q = removelast (l ++ [i; j])) by (destruct l; exact PP). clear PP.
    destruct P1 as (q & Q & OKq & BQ & PQ). replace (l ++ [i; j]) with ((l ++ [i]) ++ [j]) in PQ by (rewrite <- app_assoc; reflexivity). rewrite removelast_last in PQ.
    destruct (proj2 (C48_next_sibling q OKq) l i PQ) as (r & R & OKr & BR & PR). exists r. rewrite Q. cbn [snd].
    assert (U : point_to_next_uncle p = point_to_next_sibling q).
    { unfold point_to_parent, is_self in Q. replace (positions_length p =? 0) with false in Q by lia. injection Q as <-. unfold point_to_next_uncle, point_to_next_sibling, is_self.
      replace (positions_length p <=? 1) with false by lia. cbn [positions_length]. rewrite u32_small by lia. replace (positions_length p - 1 =? 0) with false by lia. reflexivity. }
    rewrite U. split; [exact R|]. split; [exact OKr|]. split; [congruence|]. split; [exact PR|exact R].
Qed.
Print Assumptions C48_next_uncle.
(** a child and back: the same path.  The sibling of a child is the next child. *)
Theorem C48_child p i : accessor_ok p -> positions_length p < zlen (positions p) -> 0 <= i < 2 ^ 32 - 1 ->
  exists q r s, point_to_child p i = Ok q /\ path_of q = path_of p ++ [i] /\ point_to_parent q = (true, r) /\ path_of r = path_of p /\ positions_length r = positions_length p
    /\ point_to_next_sibling q = Ok (true, s) /\ point_to_child p (i + 1) = Ok s.
Proof.
  intros OK R I. destruct (C48_append p [i] OK ltac:(change (zlen [i]) with 1; lia)) as (q & Q & OKq & BQ & PQ). pose proof (C48_parent q OKq) as PP. rewrite PQ in PP.
  assert (P1 : exists r, point_to_parent q = (true, r) /\ accessor_ok r /\ positions r = positions q /\ path_of r = removelast (path_of p ++ [i])) by (destruct (path_of p); exact PP). clear PP.
  destruct P1 as (r & P & OKr & BR & PR). rewrite removelast_last in PR. destruct (proj2 (C48_next_sibling q OKq) (path_of p) i PQ) as (s & S & OKs & BS & PS). exists q, r, s.
  split; [exact Q|]. split; [exact PQ|]. split; [exact P|]. split; [exact PR|]. split; [rewrite <- (path_length r OKr), PR; apply path_length; exact OK|]. split; [exact S|].
  pose proof (path_length p OK) as PL. destruct OK as [L B]. unfold point_to_child, append_positions in *. change (zlen [i]) with 1 in Q. change (zlen [i + 1]) with 1. replace (positions_length p + 1 <=? zlen (positions p)) with true in * by lia.
  injection Q as <-. unfold point_to_next_sibling, is_self in S. cbn [positions positions_length] in S. rewrite u32_small in S by lia. rewrite u32_small by lia. replace (positions_length p + 1 =? 0) with false in S by lia.
  unfold increment_last in S. cbn [positions positions_length] in S. replace (positions_length p + 1 - 1) with (positions_length p) in S by lia. fold (path_of p) in *.
  assert (LP : Z.to_nat (positions_length p) = length (path_of p)) by (unfold zlen in *; lia). rewrite LP in S. rewrite nth_error_app2 in S by lia. rewrite Nat.sub_diag in S. cbn [nth_error app bind] in S.
  rewrite firstn_app_exact in S. rewrite u32_small in S by lia. injection S as <-. do 2 f_equal. cbn [app]. f_equal. f_equal.
  replace (path_of p ++ i :: skipn (Z.to_nat (positions_length p + 1)) (positions p)) with ((path_of p ++ [i]) ++ skipn (Z.to_nat (positions_length p + 1)) (positions p)) by (rewrite <- app_assoc; reflexivity).
  replace (Z.to_nat (positions_length p + 1)) with (length (path_of p ++ [i])) at 2 by (rewrite app_length; cbn; lia). rewrite skipn_app, Nat.sub_diag, skipn_all, skipn_O. reflexivity.
Qed.
Print Assumptions C48_child.

(** ** C53: the traversal *)
(** the elements from [pa] on, at most [k] levels deep, in pre-order *)
Fixpoint elements_below (k : nat) (d : dti) (m : mem) (o : Z) (pa : list Z) : list (list Z) :=
  pa :: match k with
        | O => []
        | S k' =>
            match element_count_of d pa m o with
            | Ok n => flat_map (fun i => elements_below k' d m o (pa ++ [Z.of_nat i])) (seq 0 (Z.to_nat n))
            | UB => []
            end
        end.

Lemma null_count pa : forall d m o bs, holds d m o bs -> path_ok pa -> get_value d pa m o = Ok (Some DNull) -> element_count_of d pa m o = Ok 0.
Proof.
  induction pa as [|j pa IH]; intros d m o bs HD PO E.
  - cbn [get_value] in E. destruct (datum_typed _ _ _ _ HD) as (w & W & K). assert (w = DNull) as -> by congruence. destruct K as [(_ & _ & N & _)|[(_ & ? & ? & ? & N & _)|(_ & N)]]; congruence.
  - inversion PO as [|? ? I PO']; subst. cbn [element_count_of]. destruct (is_container_type_info d) eqn:C; [|unfold child; rewrite C; reflexivity].
    destruct (holds_cv d m o bs HD C) as (es & CT & V & _ & GE). destruct (Z_lt_le_dec j (zlen es)) as [L|L].
    + destruct (znth_lt es j ltac:(lia)) as [e En]. rewrite (child_ok d m o _ es j e CT V (proj1 I) En). cbn [bind]. rewrite (value_step d m o _ es j e pa CT V (proj1 I) En) in E. destruct e as [|z|b]; cbn [ptr_of]; [reflexivity|destruct pa; discriminate|].
      apply (IH _ _ _ b (child_holds d m o bs es j b CT V (proj1 I) En (GE j b (proj1 I) En)) PO' E).
    + rewrite (child_none d m o _ es j CT V L). reflexivity.
Qed.
Lemma element_info d m o bs pa v t : holds d m o bs -> path_ok pa -> get_value d pa m o = Ok (Some v) -> get_type_info d pa = Some t ->
  if is_container_type_info t && negb (is_datum_NULL v) then
    exists n, element_count_of d pa m o = Ok n /\ 0 <= n < 2 ^ 32 /\ get_value d (pa ++ [n]) m o = Ok None
      /\ forall i, 0 <= i < n -> exists w t', get_value d (pa ++ [i]) m o = Ok (Some w) /\ get_type_info d (pa ++ [i]) = Some t'
  else element_count_of d pa m o = Ok 0.
Proof.
  intros HD PO E T. assert (DN : v = DNull \/ v <> DNull) by (destruct v; (left; reflexivity) || (right; discriminate)). destruct DN as [->|NV].
  { rewrite andb_false_r. apply (null_count pa d m o bs HD PO E). }
  destruct (reached d pa m o bs v HD PO E NV) as (t' & a & EA & T' & K). assert (t' = t) as -> by congruence. clear T'. rewrite (count_at pa d m o t a EA).
  destruct (is_container_type_info t) eqn:C; cbn [andb]; [|unfold get_element_count; rewrite C; reflexivity].
  destruct K as [(c & HC & G)|B]; [|unfold is_container_type_info in C; rewrite B in C; discriminate].
  assert (DN : is_datum_NULL v = false) by (destruct v; try reflexivity; congruence). rewrite DN. cbn [negb].
  destruct (holds_cv t m a c HC C) as (es & CT & V & _ & GE). pose proof (cv_get_count _ _ _ _ _ CT V) as EC. exists (zlen es). split; [exact EC|]. pose proof (cv_n _ _ _ _ _ V) as [R _]. pose proof (zlen_nonneg es).
  split; [lia|]. split.
  - destruct (value_app pa d m o t a [zlen es] EA ltac:(discriminate)) as [-> _]. cbn [get_value]. unfold get_containee_datum. rewrite C. cbn [negb]. rewrite EC. cbn [bind]. rewrite Z.leb_refl. reflexivity.
  - intros i I. destruct (value_app pa d m o t a [i] EA ltac:(discriminate)) as [-> _]. rewrite (type_app pa d [i] t T), (elem_type t m a _ es i CT V I). destruct (znth_lt es i I) as [e En].
    rewrite (value_step t m a _ es i e [] CT V (proj1 I) En). destruct e as [|z|b]; [eauto|eauto|].
    destruct (datum_typed _ _ _ _ (child_holds t m a c es i b CT V (proj1 I) En (GE i b (proj1 I) En))) as (w & W & _). cbn [get_value]. eauto.
Qed.

Section traversal.
  Variables (d : dti) (m : mem) (o : Z) (bs : list byte) (base depth : Z).
  Hypothesis HD : holds d m o bs.
  Notation run := (fun f p acc => traverse f d m o base depth p acc).
  (** accessors of the traversal *)
  Definition at_path (p : accessor) (pa : list Z) : Prop := accessor_ok p /\ zlen (positions p) = depth /\ path_of p = pa.
  (** the traversal goes on behind [pa] *)
  Definition continues (f : nat) (pa : list Z) (acc : list (list Z)) (r : res (option (list (list Z)))) : Prop :=
    if base <? zlen pa then forall l i, pa = l ++ [i] -> exists q, at_path q (l ++ [u32 (i + 1)]) /\ run f q acc = r else r = Ok (Some acc).

  Lemma sibling_continues f p pa acc : at_path p pa -> (base <? zlen pa) = true -> 0 <= base ->
    continues f pa acc (let* (_, q) := point_to_next_sibling p in run f q acc).
  Proof.
    intros (OK & B & P) L B0. unfold continues. rewrite L. intros l i ->. destruct (proj2 (C48_next_sibling p OK) l i P) as (q & Q & OKq & BQ & PQ). exists q. split; [split; [exact OKq|split; [congruence|exact PQ]]|]. rewrite Q. reflexivity.
  Qed.
  Lemma visit k : forall pa v t, path_ok pa -> zlen pa + Z.of_nat k = depth -> 0 <= base <= zlen pa -> get_value d pa m o = Ok (Some v) -> get_type_info d pa = Some t ->
    exists f, forall p, at_path p pa -> forall g acc, continues g pa (acc ++ elements_below k d m o pa) (run (f + g)%nat p acc).
  Proof.
    induction k as [|k IH]; intros pa v t PO LK BP E T.
    - exists 1%nat. intros p AP g acc. pose proof AP as (OK & B & P); pose proof (path_length p OK) as PL; rewrite P in PL. cbn [Nat.add traverse elements_below]. rewrite P, E. cbn [bind]. replace (positions_length p <? depth) with false by lia. rewrite <- PL.
      destruct (base <? zlen pa) eqn:L; [apply (sibling_continues g p pa); auto; lia|]. unfold continues. rewrite L. reflexivity.
    - pose proof (element_info d m o bs pa v t HD PO E T) as INFO. destruct (is_container_type_info t && negb (is_datum_NULL v)) eqn:C.
      2: { exists 1%nat. intros p AP g acc. pose proof AP as (OK & B & P); pose proof (path_length p OK) as PL; rewrite P in PL. cbn [Nat.add traverse elements_below]. rewrite P, E, INFO. cbn [bind Z.to_nat seq flat_map]. replace (positions_length p <? depth) with true by lia. rewrite T, C. rewrite <- PL.
           destruct (base <? zlen pa) eqn:L; [apply (sibling_continues g p pa); auto; lia|]. unfold continues. rewrite L. reflexivity. }
      destruct INFO as (n & N & NR & GN & GI).
      (* the children from i on *)
      assert (KIDS : forall j i, Z.of_nat i + Z.of_nat j = n ->
        exists f, forall q, at_path q (pa ++ [Z.of_nat i]) -> forall g acc, continues g pa (acc ++ flat_map (fun i => elements_below k d m o (pa ++ [Z.of_nat i])) (seq i j)) (run (f + g)%nat q acc)).
      { induction j as [|j IHj]; intros i IJ.
        - exists 1%nat. intros q AQ g acc. pose proof AQ as (OKq & Bq & Pq); pose proof (path_length q OKq) as PLq; rewrite Pq, zlen_app in PLq; change (zlen [Z.of_nat i]) with 1 in PLq.
          cbn [Nat.add traverse seq flat_map]. rewrite app_nil_r. rewrite Pq. replace (Z.of_nat i) with n by lia. rewrite GN. cbn [bind]. unfold continues.
          destruct (base <? zlen pa) eqn:L; [|replace (base + 2 <=? positions_length q) with false by lia; reflexivity]. replace (base + 2 <=? positions_length q) with true by lia.
          intros l x ->. rewrite <- app_assoc in Pq. destruct (proj2 (C48_next_uncle q OKq) l x (Z.of_nat i) Pq) as (r & R & OKr & BR & PR & _). exists r. split; [split; [exact OKr|split; [congruence|exact PR]]|]. rewrite R. reflexivity.
        - destruct (GI (Z.of_nat i) ltac:(lia)) as (w & t' & W & T'). assert (Z1 : zlen (pa ++ [Z.of_nat i]) = zlen pa + 1) by (rewrite zlen_app; reflexivity).
          destruct (IH (pa ++ [Z.of_nat i]) w t') as (f1 & F1); auto; [apply Forall_app; split; [exact PO|constructor; [lia|constructor]]|lia|lia|].
          destruct (IHj (S i) ltac:(lia)) as (f2 & F2). exists (f1 + f2)%nat. intros q AQ g acc. specialize (F1 q AQ (f2 + g)%nat acc). rewrite Nat.add_assoc in F1. unfold continues at 1 in F1.
          replace (base <? zlen (pa ++ [Z.of_nat i])) with true in F1 by lia. destruct (F1 pa (Z.of_nat i) eq_refl) as (q' & AQ' & R). rewrite <- R. rewrite u32_small in AQ' by lia. replace (Z.of_nat i + 1) with (Z.of_nat (S i)) in AQ' by lia.
          cbn [seq flat_map]. rewrite app_assoc. apply F2. exact AQ'. }
      destruct (KIDS (Z.to_nat n) O ltac:(lia)) as (f & F). exists (S f). intros p AP g acc. pose proof AP as (OK & B & P); pose proof (path_length p OK) as PL; rewrite P in PL.
      cbn [Nat.add traverse elements_below]. rewrite P, E, N. cbn [bind]. replace (positions_length p <? depth) with true by lia. rewrite T, C.
      destruct (C48_append p [0] OK ltac:(change (zlen [0]) with 1; lia)) as (q & Q & OKq & BQ & PQ). unfold point_to_first_child, point_to_child. rewrite Q. cbn [bind].
      change (pa :: flat_map _ _) with ([pa] ++ flat_map (fun i => elements_below k d m o (pa ++ [Z.of_nat i])) (seq 0 (Z.to_nat n))). rewrite app_assoc. apply F. split; [exact OKq|]. split; [congruence|]. rewrite PQ, P. reflexivity.
  Qed.
End traversal.

(** the documented traversal from an element visits this element and all those
    below it, down to the given depth, each once and in pre-order *)
Theorem C53_traversal d m o base v t k junk : data_at d m o -> path_ok base -> get_value d base m o = Ok (Some v) -> get_type_info d base = Some t ->
  zlen junk = zlen base + Z.of_nat k -> zlen junk < 2 ^ 32 ->
  exists f0, forall f, (f0 <= f)%nat -> traverse_from f d m o base (Z.of_nat k) junk = Ok (Some (elements_below k d m o base)).
Proof.
  intros D PO E T L B. destruct (data_holds _ _ _ D) as [bs HD]. pose proof (zlen_nonneg base) as B0. pose proof (zlen_nonneg junk) as J0.
  destruct (visit d m o bs (zlen base) (zlen base + Z.of_nat k) HD k base v t PO eq_refl ltac:(lia) E T) as (f & F). exists f. intros g G. unfold traverse_from.
  destruct (C48_append (mk_accessor 0 junk) base) as (p & P & OK & BP & PP); [split; cbn [positions positions_length]; lia|cbn [positions positions_length]; lia|]. rewrite P. cbn [bind].
  specialize (F p). assert (AP : at_path (zlen base + Z.of_nat k) p base) by (split; [exact OK|]; split; [cbn [positions] in BP; lia|exact PP]). specialize (F AP (g - f)%nat []). replace (f + (g - f))%nat with g in F by lia.
  unfold continues in F. rewrite Z.ltb_irrefl in F. exact F.
Qed.
Print Assumptions C53_traversal.
Lemma NoDup_flat_map {A B} (f : A -> list B) l : NoDup l -> (forall x, In x l -> NoDup (f x)) -> (forall x y z, In x l -> In y l -> In z (f x) -> In z (f y) -> x = y) -> NoDup (flat_map f l).
Proof.
  induction 1 as [|x l NI ND IH]; intros F D; cbn [flat_map]; [constructor|].
  assert (ND' : NoDup (flat_map f l)) by (apply IH; [intros; apply F; right; assumption|intros a b z A' B'; apply D; right; assumption]).
  assert (K : forall z, In z (f x) -> ~ In z (flat_map f l)) by (intros z Z1 Z2; apply in_flat_map in Z2; destruct Z2 as (y & Y & Z2); apply NI; rewrite (D x y z (or_introl eq_refl) (or_intror Y) Z1 Z2); exact Y).
  pose proof (F x (or_introl eq_refl)) as NF. clear - ND' K NF. induction (f x) as [|b bs IH]; [exact ND'|]. inversion NF; subst. cbn [app]. constructor.
  - rewrite in_app_iff. intros [Q|Q]; [contradiction|]. apply (K b); [left; reflexivity|exact Q].
  - apply IH; auto. intros z Z. apply K. right. exact Z.
Qed.
Lemma below_prefix k : forall d m o base pa, In pa (elements_below k d m o base) -> exists q, pa = base ++ q.
Proof.
  induction k as [|k IH]; intros d m o base pa I; cbn [elements_below] in I; destruct I as [<-|I]; try (exists []; rewrite app_nil_r; reflexivity); [contradiction|].
  destruct (element_count_of d base m o); [|contradiction]. apply in_flat_map in I. destruct I as (i & _ & I). apply IH in I. destruct I as (q & ->). exists ([Z.of_nat i] ++ q). rewrite app_assoc. reflexivity.
Qed.
Lemma beyond d m o bs pa v n i q : holds d m o bs -> path_ok pa -> get_value d pa m o = Ok (Some v) -> v <> DNull -> element_count_of d pa m o = Ok n -> n <= i -> get_value d (pa ++ i :: q) m o = Ok None.
Proof.
  intros HD PO E NV N L. destruct (reached d pa m o bs v HD PO E NV) as (t & a & EA & T & K). rewrite (count_at pa d m o t a EA) in N. destruct (value_app pa d m o t a (i :: q) EA ltac:(discriminate)) as [-> _].
  destruct (is_container_type_info t) eqn:C; [|apply not_container_value; [discriminate|exact C]].
  destruct q as [|j q]; cbn [get_value]; [unfold get_containee_datum|unfold child]; rewrite C; cbn [negb]; rewrite N; cbn [bind]; replace (n <=? i) with true by lia; reflexivity.
Qed.
(** [elements_below] is what it says: the elements that exist at or below
    [base], but not below a NULL, down to the depth; and none of them twice *)
Theorem C53_all_once d m o base v t k : data_at d m o -> path_ok base -> get_value d base m o = Ok (Some v) -> get_type_info d base = Some t ->
  NoDup (elements_below k d m o base)
  /\ forall pa, In pa (elements_below k d m o base) <->
       exists q, pa = base ++ q /\ zlen q <= Z.of_nat k /\ path_ok q /\ (exists w, get_value d pa m o = Ok (Some w))
         /\ forall q1 q2, q = q1 ++ q2 -> q2 <> [] -> get_value d (base ++ q1) m o <> Ok (Some DNull).
Proof.
  intros D. destruct (data_holds _ _ _ D) as [bs HD]. clear D. revert base v t. induction k as [|k IH]; intros base v t PO E T.
  - cbn [elements_below]. split; [repeat constructor; auto|]. intro pa. split.
    + intros [<-|[]]. exists []. rewrite app_nil_r. split; [reflexivity|]. split; [cbn; lia|]. split; [constructor|]. split; [eauto|]. intros q1 q2 Q NE. destruct q1; [cbn in Q; congruence|discriminate].
    + intros (q & -> & L & _). destruct q as [|i q]; [left; rewrite app_nil_r; reflexivity|]. rewrite zlen_cons in L. pose proof (zlen_nonneg q). lia.
  - pose proof (element_info d m o bs base v t HD PO E T) as INFO.
    assert (N : exists n, element_count_of d base m o = Ok n /\ 0 <= n < 2 ^ 32 /\ (0 < n -> v <> DNull) /\ forall i, 0 <= i < n -> exists w t', get_value d (base ++ [i]) m o = Ok (Some w) /\ get_type_info d (base ++ [i]) = Some t').
    { destruct (is_container_type_info t && negb (is_datum_NULL v)) eqn:C.
      - destruct INFO as (n & N & NR & _ & GI). exists n. split; [exact N|]. split; [exact NR|]. split; [|exact GI]. intros _ ->. rewrite andb_false_r in C. discriminate.
      - exists 0. split; [exact INFO|]. split; [lia|]. split; [lia|]. intros i I. lia. }
    clear INFO. destruct N as (n & N & NR & NV & GI).
    assert (KID : forall i, In i (seq 0 (Z.to_nat n)) -> exists w t', 0 <= Z.of_nat i < n /\ path_ok (base ++ [Z.of_nat i]) /\ get_value d (base ++ [Z.of_nat i]) m o = Ok (Some w) /\ get_type_info d (base ++ [Z.of_nat i]) = Some t').
    { intros i I. apply in_seq in I. destruct (GI (Z.of_nat i) ltac:(lia)) as (w & t' & W & T'). exists w, t'. split; [lia|]. split; [apply Forall_app; split; [exact PO|constructor; [lia|constructor]]|]. auto. }
    cbn [elements_below]. rewrite N. split.
    + constructor.
      * intro I. apply in_flat_map in I. destruct I as (i & _ & I). apply below_prefix in I. destruct I as (q & Q). apply (f_equal (@length Z)) in Q. rewrite !app_length in Q. cbn in Q. lia.
      * apply NoDup_flat_map; [apply seq_NoDup| |].
        -- intros i I. destruct (KID i I) as (w & t' & _ & P & W & T'). apply (IH _ w t' P W T').
        -- intros i j z _ _ A B. apply below_prefix in A, B. destruct A as (q1 & ->). destruct B as (q2 & B). rewrite <- !app_assoc in B. apply app_inv_head in B. cbn in B. injection B as B _. lia.
    + intro pa. split.
      * intros [<-|I].
        -- exists []. rewrite app_nil_r. split; [reflexivity|]. split; [cbn; lia|]. split; [constructor|]. split; [eauto|]. intros q1 q2 Q NE. destruct q1; [cbn in Q; congruence|discriminate].
        -- apply in_flat_map in I. destruct I as (i & I & P). destruct (KID i I) as (w & t' & R & PI & W & T'). apply (IH _ w t' PI W T') in P. destruct P as (q & -> & L & PQ & EX & NN). exists (Z.of_nat i :: q).
           rewrite <- app_assoc in *. split; [reflexivity|]. split; [rewrite zlen_cons; lia|]. split; [constructor; [apply Forall_app in PI; destruct PI as [_ PI]; inversion PI; assumption|exact PQ]|]. split; [exact EX|].
           intros [|x q1] q2 Q NE; [rewrite app_nil_r, E; intro X; injection X as ->; apply NV; [lia|reflexivity]|]. cbn in Q. injection Q as <- ->. specialize (NN q1 q2 eq_refl NE). rewrite <- app_assoc in NN. exact NN.
      * intros (q & -> & L & PQ & (w & W) & NN). destruct q as [|i q]; [left; rewrite app_nil_r; reflexivity|right]. inversion PQ as [|? ? PI PQ']; subst. rewrite zlen_cons in L.
        assert (VN : v <> DNull) by (intros ->; apply (NN [] (i :: q) eq_refl); [discriminate|rewrite app_nil_r; exact E]).
        destruct (Z_lt_le_dec i n) as [LN|LN]; [|rewrite (beyond d m o bs base v n i q HD PO E VN N LN) in W; discriminate].
        apply in_flat_map. exists (Z.to_nat i). assert (I : In (Z.to_nat i) (seq 0 (Z.to_nat n))) by (apply in_seq; lia). split; [exact I|].
        destruct (KID _ I) as (w' & t' & R & P & W' & T'). apply (IH _ w' t' P W' T'). rewrite Z2Nat.id in * by lia. exists q. rewrite <- app_assoc. split; [reflexivity|]. split; [lia|]. split; [exact PQ'|]. split; [exists w; exact W|].
        intros q1 q2 -> NE. specialize (NN (i :: q1) q2 eq_refl NE). rewrite <- app_assoc. exact NN.
Qed.
Print Assumptions C53_all_once.

(** ** examples *)
Example ex_accessor : let p := mk_accessor 1 [7; 0; 9] in
  accessor_ok p /\ match append_positions p [3; 4] with Ok q => path_of q = [7; 3; 4] | UB => False end
  /\ match point_to_child p 5 with Ok q => path_of q = [7; 5] /\ match point_to_next_uncle q with Ok (b, r) => b = true /\ path_of r = [8] | UB => False end | UB => False end.
Proof. vm_compute. intuition discriminate. Qed.
(** all elements of e7; the array at [3] has a NULL and a pair *)
Example ex_traversal : traverse_from 50 exd e7 0 [] 3 [0; 0; 0]
  = Ok (Some ([[]; [0]; [1]] ++ map (fun i => [1; Z.of_nat i]) (seq 0 8) ++ [[2]; [3]; [3; 0]; [3; 1]; [3; 1; 0]; [3; 1; 1]])).
Proof. vm_compute. reflexivity. Qed.
Example ex_traversal_theorem : exists f, traverse_from f exd e7 0 [3] (Z.of_nat 2) [9; 9; 9] = Ok (Some [[3]; [3; 0]; [3; 1]; [3; 1; 0]; [3; 1; 1]]).
Proof.
  assert (E : exists v, get_value exd [3] e7 0 = Ok (Some v)) by (eexists; vm_compute; reflexivity). destruct E as [v E]. assert (T : exists t, get_type_info exd [3] = Some t) by (eexists; vm_compute; reflexivity). destruct T as [t T].
  destruct (C53_traversal exd e7 0 [3] v t 2 [9; 9; 9] data_e7 ltac:(pathy) E T eq_refl eq_refl) as (f & F). exists f. rewrite (F f (le_n f)). vm_compute. reflexivity.
Qed.
