(** * Running a function inside a larger buffer

    Every function of the tuple layer that runs on a buffer [t] without
    leaving it does the same inside [A ++ t ++ B]. *)
From Verif Require Export Tuple.
From Verif Require Import BytesFacts.
From Coq Require Import ZifyBool ZifyNat ZifyN Zify.
Ltac Zify.zify_post_hook ::= Z.div_mod_to_equations.

Section Frame.
Variables A B : mem.
Notation K := (zlen A).
Definition emb (t : mem) : mem := A ++ t ++ B.

Definition fr {X Y} (R : X -> Y -> Prop) (x : res X) (y : res Y) : Prop :=
  forall a, x = Ok a -> exists b, y = Ok b /\ R a b.
Definition rm (t m : mem) : Prop := m = emb t.
Definition rp {X} (a b : X * mem) : Prop := fst b = fst a /\ snd b = emb (snd a).
Definition ro (a b : option Z) : Prop := b = option_map (Z.add K) a.

Lemma fr_ub {X Y} (R : X -> Y -> Prop) y : fr R UB y.
Proof. intros a E. discriminate. Qed.
Lemma fr_ok {X Y} (R : X -> Y -> Prop) a b : R a b -> fr R (Ok a) (Ok b).
Proof. intros H a' E. injection E as <-. eauto. Qed.
Lemma fr_bind {X Y X' Y'} (R : X -> Y -> Prop) (Q : X' -> Y' -> Prop) x y f g :
  fr R x y -> (forall a b, R a b -> fr Q (f a) (g b)) -> fr Q (bind x f) (bind y g).
Proof.
  intros H1 H2 c E. apply bind_inv in E as (a & Ea & Ec). destruct (H1 a Ea) as (b & Eb & Rab). rewrite Eb. exact (H2 a b Rab c Ec).
Qed.
Lemma fr_same {X} (x : res X) : fr eq x x.
Proof. intros a E. eauto. Qed.

Lemma slice_emb t x n : 0 <= x -> 0 <= n -> x + n <= zlen t -> slice (emb t) (K + x) n = slice t x n.
Proof.
  intros. unfold slice, emb. rewrite skipn_app, skipn_all2 by (unfold zlen in *; lia). cbn [app].
  replace (Z.to_nat (K + x) - length A)%nat with (Z.to_nat x) by (unfold zlen in *; lia).
  rewrite skipn_app, firstn_app. replace (Z.to_nat n - length (skipn (Z.to_nat x) t))%nat with 0%nat by (rewrite skipn_length; unfold zlen in *; lia).
  cbn [firstn]. apply app_nil_r.
Qed.
Lemma upd_emb t x bs : 0 <= x -> x + zlen bs <= zlen t -> upd (emb t) (K + x) bs = emb (upd t x bs).
Proof.
  intros. unfold upd, emb. pose proof (zlen_nonneg bs).
  rewrite firstn_app, firstn_all2 by (unfold zlen in *; lia).
  replace (Z.to_nat (K + x) - length A)%nat with (Z.to_nat x) by (unfold zlen in *; lia).
  rewrite firstn_app. replace (Z.to_nat x - length t)%nat with 0%nat by (unfold zlen in *; lia). cbn [firstn]. rewrite app_nil_r.
  rewrite skipn_app, (skipn_all2 A) by (unfold zlen in *; lia). cbn [app].
  replace (Z.to_nat (K + x + zlen bs) - length A)%nat with (Z.to_nat (x + zlen bs)) by (unfold zlen in *; lia).
  rewrite skipn_app. replace (Z.to_nat (x + zlen bs) - length t)%nat with 0%nat by (unfold zlen in *; lia). cbn [skipn].
  rewrite <- !app_assoc. reflexivity.
Qed.
Lemma zlen_emb t : zlen (emb t) = K + zlen t + zlen B.
Proof. unfold emb. rewrite !zlen_app. lia. Qed.

Lemma fr_rd t x y n : y = K + x -> fr eq (rd t x n) (rd (emb t) y n).
Proof.
  intros -> bs E. apply rd_inv in E as (H1 & H2 & H3 & ->). exists (slice t x n). split; [|reflexivity].
  pose proof (zlen_nonneg B). pose proof (zlen_nonneg A).
  rewrite rd_ok by (rewrite ?zlen_emb; lia). rewrite slice_emb by lia. reflexivity.
Qed.
Lemma fr_wr t x y bs : y = K + x -> fr rm (wr t x bs) (wr (emb t) y bs).
Proof.
  intros -> m E. unfold wr in E. destruct ((0 <=? x) && (x + zlen bs <=? zlen t)) eqn:C; [|discriminate]. injection E as <-.
  apply andb_prop in C as [C1 C2]. apply Z.leb_le in C1, C2. pose proof (zlen_nonneg B). pose proof (zlen_nonneg A).
  eexists. split; [apply wr_ok; rewrite ?zlen_emb; lia|]. unfold rm. apply upd_emb; lia.
Qed.

Ltac rels := unfold rm, ro, rp in *; cbn [fst snd option_map] in *;
  repeat match goal with
  | H : _ /\ _ |- _ => destruct H
  | p : (_ * mem)%type |- _ => destruct p; cbn [fst snd] in *
  end; subst.
Ltac here := lia.
Ltac prim := first [apply fr_same | apply fr_rd; here | apply fr_wr; here].
(** walk through both runs *)
Ltac go tac :=
  lazymatch goal with
  | |- fr _ UB _ => apply fr_ub
  | |- fr _ (Ok _) (Ok _) => apply fr_ok; unfold rm, ro, rp; cbn [fst snd option_map]; first [reflexivity | split; reflexivity | f_equal; lia | idtac]
  | |- fr _ (@bind mem _ _ _) _ => apply (fr_bind rm); [go tac|intros ? ? ?; rels; go tac]
  | |- fr _ (@bind (prod _ mem) _ _ _) _ => apply (fr_bind rp); [go tac|intros ? ? ?; rels; go tac]
  | |- fr _ (@bind (option Z) _ _ _) _ => apply (fr_bind ro); [go tac|intros [?|] ? ?; rels; cbv beta iota; go tac]
  | |- fr _ (bind _ _) _ => apply (fr_bind eq); [go tac|intros ? ? ?; rels; go tac]
  | |- fr _ (if ?c then _ else _) (if ?c' then _ else _) =>
      tryif constr_eq c c' then idtac else replace c' with c by first [f_equal; lia | repeat f_equal; lia]; destruct c; go tac
  | |- fr _ (match type ?d with _ => _ end) _ => destruct (type d); go tac
  | |- fr _ (match ?x with _ => _ end) (match ?x with _ => _ end) => destruct x; go tac
  | |- fr _ (match ?x with _ => _ end) (match option_map _ ?x with _ => _ end) => destruct x; cbn [option_map]; go tac
  | |- fr _ _ _ => tac
  end.

Lemma fr_read t x y k : y = K + x -> fr eq (read_value t x k) (read_value (emb t) y k).
Proof. intro. unfold read_value. go prim. Qed.
Lemma fr_write t x y k v : y = K + x -> fr rm (write_value t x k v) (write_value (emb t) y k v).
Proof. intro. unfold write_value. go prim. Qed.
Lemma fr_memmove t a b a' b' n : a' = K + a -> b' = K + b -> fr rm (memmove t a b n) (memmove (emb t) a' b' n).
Proof. intros. unfold memmove. go prim. Qed.
Lemma fr_memcopy t a a' m2 b n : a' = K + a -> fr rm (memcopy t a m2 b n) (memcopy (emb t) a' m2 b n).
Proof. intros. unfold memcopy. go prim. Qed.
Lemma fr_memset t a a' b n : a' = K + a -> fr rm (memset t a b n) (memset (emb t) a' b n).
Proof. intros. unfold memset. go prim. Qed.
Lemma fr_rotl t a a' s n : a' = K + a -> fr rm (mem_left_rotate t a s n) (mem_left_rotate (emb t) a' s n).
Proof. intros. unfold mem_left_rotate. go prim. Qed.
Lemma fr_get_bit t a a' i : a' = K + a -> fr eq (get_bit t a i) (get_bit (emb t) a' i).
Proof. intros. unfold get_bit. go prim. Qed.
Lemma fr_put_bit t a a' i b : a' = K + a -> fr rm (put_bit t a i b) (put_bit (emb t) a' i b).
Proof. intros. unfold put_bit. go prim. Qed.
Lemma fr_get_bits t a a' f l : a' = K + a -> fr eq (get_bits t a f l) (get_bits (emb t) a' f l).
Proof.
  intros ->. unfold get_bits. destruct (_ && _); [|apply fr_ub]. generalize (Z.to_nat (l - f + 1)); clear l; intro n. revert f.
  induction n as [|n IH]; intro f; cbn [get_bits_from]; go ltac:(first [apply fr_get_bit; here | apply IH]).
Qed.
Lemma fr_set_bits t a a' f l v : a' = K + a -> fr rm (set_bits t a f l v) (set_bits (emb t) a' f l v).
Proof.
  intros ->. unfold set_bits. destruct (_ && _); [|apply fr_ub]. generalize (Z.to_nat (l - f + 1)); clear l; intro n. revert f t v.
  induction n as [|n IH]; intros f t v; cbn [set_bits_from]; go ltac:(first [apply fr_put_bit; here | apply IH]).
Qed.
Lemma fr_for k body body' : (forall i t, fr rm (body i t) (body' i (emb t))) -> forall i t, fr rm (for_loop k i body t) (for_loop k i body' (emb t)).
Proof. intro H. induction k as [|k IH]; intros i t; cbn [for_loop]; go ltac:(first [apply H | apply IH]). Qed.

Ltac prim2 := first [apply fr_read; here | apply fr_write; here | apply fr_memmove; here | apply fr_memcopy; here | apply fr_memset; here
  | apply fr_rotl; here | apply fr_get_bit; here | apply fr_put_bit; here | apply fr_get_bits; here | apply fr_set_bits; here | prim].

Lemma fr_get_size d t x y : y = K + x -> fr eq (get_size d t x) (get_size d (emb t) y).
Proof. intro. unfold get_size. go prim2. Qed.
Lemma fr_count d t x y : y = K + x -> fr eq (get_element_count d t x) (get_element_count d (emb t) y).
Proof. intro. unfold get_element_count. go prim2. Qed.
Lemma fr_bitmap d t x y : y = K + x -> fr eq (prefix_bitmap_bits d t x) (prefix_bitmap_bits d (emb t) y).
Proof. intro. unfold prefix_bitmap_bits. go ltac:(first [apply fr_count; here|prim2]). Qed.
Lemma fr_overwrite d t x y n : y = K + x -> fr rm (overwrite_size d t x n) (overwrite_size d (emb t) y n).
Proof. intro. unfold overwrite_size. go prim2. Qed.
Lemma fr_pos d t x y i : y = K + x -> fr eq (get_pos d t x i) (get_pos d (emb t) y i).
Proof. intro. unfold get_pos. go ltac:(first [apply fr_bitmap; here|prim2]). Qed.
Lemma fr_is_null d t x y p : y = K + x -> fr eq (is_null d t x p) (is_null d (emb t) y p).
Proof. intro. unfold is_null. go prim2. Qed.
Lemma fr_ptr d t x y p : y = K + x -> fr ro (get_ptr d t x p) (get_ptr d (emb t) y p).
Proof.
  intro. unfold get_ptr. cbv zeta. destruct (needs_is_valid_bit (pi_type p)); go prim2.
  all: try (destruct (_ =? 0); cbn [option_map]; [reflexivity|f_equal; lia]).
Qed.
Lemma fr_csize d t x y p : y = K + x -> fr eq (containee_size d t x p) (containee_size d (emb t) y p).
Proof. intro. unfold containee_size. go ltac:(first [apply fr_ptr; here|apply fr_get_size; here|prim2]). Qed.
Lemma fr_init d t x y : y = K + x -> fr rp (init_minimal d t x) (init_minimal d (emb t) y).
Proof. intro. unfold init_minimal. go prim2. Qed.

Ltac prim3 := first [apply fr_get_size; here | apply fr_count; here | apply fr_bitmap; here | apply fr_overwrite; here
  | apply fr_pos; here | apply fr_is_null; here | apply fr_ptr; here | apply fr_csize; here | apply fr_init; here | prim2].

Lemma fr_move d t x y i p : y = K + x -> fr rm (move_to_end d t x i p) (move_to_end d (emb t) y i p).
Proof.
  intros ->. unfold move_to_end. destruct (negb _); [apply fr_ok; reflexivity|].
  eapply fr_bind; [apply fr_ptr; reflexivity|]. intros c c' ->. destruct c as [a|]; cbn [option_map]; [|apply fr_ok; reflexivity].
  replace (K + a - (K + x)) with (a - x) by lia.
  go ltac:(first [prim3 | apply fr_for; intros ? ?; go prim3]).
Qed.
Ltac prim4 := first [apply fr_move; here | prim3 | apply fr_for; intros ? ?; go prim3].

Lemma fr_set_null d t x y i p : y = K + x -> fr rp (set_null d t x i p) (set_null d (emb t) y i p).
Proof. intros ->. unfold set_null, reset_bit. go prim4. Qed.
Lemma fr_can_set_datum d t x y b inc v : y = K + x -> fr eq (can_set_datum d t x b inc v) (can_set_datum d (emb t) y b inc v).
Proof. intros ->. unfold can_set_datum. go prim4. Qed.
Lemma fr_set_datum d t x y b inc v : y = K + x -> fr rp (set_datum d t x b inc v) (set_datum d (emb t) y b inc v).
Proof. intros ->. unfold set_datum. go prim4. Qed.
Lemma fr_can_set_containee d t x y i inc v : y = K + x -> fr eq (can_set_containee d t x i inc v) (can_set_containee d (emb t) y i inc v).
Proof. intros ->. unfold can_set_containee. cbv zeta. go ltac:(first [apply fr_can_set_datum; here | prim4]). Qed.
Lemma fr_set_containee d t x y i inc v : y = K + x -> fr rp (set_containee d t x i inc v) (set_containee d (emb t) y i inc v).
Proof. intros ->. unfold set_containee, set_bit. cbv zeta. go ltac:(first [apply fr_set_datum; here | apply fr_set_null; here | prim4]). Qed.

Lemma fr_can_set_element pa : forall d t x y v inc, y = K + x -> fr eq (can_set_element d pa t x v inc) (can_set_element d pa (emb t) y v inc).
Proof.
  induction pa as [|i pa IH]; intros d t x y v inc ->; cbn [can_set_element].
  - go ltac:(first [apply fr_can_set_datum; here | prim4]).
  - go ltac:(first [apply fr_can_set_containee; here | apply IH; here | prim4]).
Qed.
Lemma fr_set_internal pa : forall d t x y v inc var, y = K + x -> fr rp (set_internal d pa t x v inc var) (set_internal d pa (emb t) y v inc var).
Proof.
  induction pa as [|i pa IH]; intros d t x y v inc var ->; cbn [set_internal].
  - go ltac:(first [apply fr_set_datum; here | prim4]).
  - go ltac:(first [apply fr_set_containee; here | apply IH; here | prim4]).
Qed.
Lemma fr_set_element pa d t x v inc : fr rp (set_element d pa t x v inc) (set_element d pa (emb t) (K + x) v inc).
Proof. unfold set_element. go ltac:(first [apply fr_set_internal; here | prim4]). Qed.
(** the same value, found in the larger buffer *)
Definition shift (v : datum) : datum :=
  match v with DStr m o n => DStr (emb m) (K + o) n | DPtr m o => DPtr (emb m) (K + o) | _ => v end.
Definition rv (a b : option datum) : Prop := b = option_map shift a.
Lemma fr_strnlen t a a' n : a' = K + a -> fr eq (strnlen t a n) (strnlen (emb t) a' n).
Proof.
  intros ->. unfold strnlen. generalize (Z.to_nat n); clear n; intro n. revert a.
  induction n as [|n IH]; intro a; cbn [strnlen_from]; go ltac:(first [replace (K + a + 1) with (K + (a + 1)) by lia; apply IH | prim]).
Qed.
Lemma fr_datum d t x y : y = K + x -> fr rv (get_datum d t x) (get_datum d (emb t) y).
Proof.
  intros ->. unfold get_datum. cbv zeta. destruct (type d); go ltac:(first [apply fr_strnlen; here | prim4]).
  all: unfold rv; cbn [option_map shift]; rewrite ?Z.add_assoc; try reflexivity.
  destruct (size d =? 4); reflexivity.
Qed.
Lemma fr_containee_datum d t x y i : y = K + x -> fr rv (get_containee_datum d t x i) (get_containee_datum d (emb t) y i).
Proof. intros ->. unfold get_containee_datum. go ltac:(first [apply fr_datum; here | prim4]). Qed.
Definition rc (a b : option (option (dti * Z))) : Prop := b = option_map (option_map (fun p => (fst p, K + snd p))) a.
Lemma fr_child d t x y i : y = K + x -> fr rc (child d t x i) (child d (emb t) y i).
Proof. intros ->. unfold child. go prim4. Qed.
Lemma fr_value pa : forall d t x y, y = K + x -> fr rv (get_value d pa t x) (get_value d pa (emb t) y).
Proof.
  induction pa as [|i pa IH]; intros d t x y ->; [apply fr_datum; reflexivity|]. cbn [get_value]. destruct pa as [|j pa]; [apply fr_containee_datum; reflexivity|].
  eapply fr_bind; [apply fr_child; reflexivity|]. intros [[[c a]|]|] ? ->; cbn [option_map fst snd]; [apply IH; reflexivity|apply fr_ok; reflexivity|apply fr_ok; reflexivity].
Qed.
Lemma fr_count_of pa : forall d t x y, y = K + x -> fr eq (element_count_of d pa t x) (element_count_of d pa (emb t) y).
Proof.
  induction pa as [|i pa IH]; intros d t x y ->; cbn [element_count_of]; [apply fr_count; reflexivity|].
  eapply fr_bind; [apply fr_child; reflexivity|]. intros [[[c a]|]|] ? ->; cbn [option_map fst snd]; [apply IH; reflexivity|apply fr_ok; reflexivity|apply fr_ok; reflexivity].
Qed.
Lemma fr_max_increment pa : forall d t x y inc, y = K + x -> fr eq (max_size_increment d pa t x inc) (max_size_increment d pa (emb t) y inc).
Proof.
  induction pa as [|i pa IH]; intros d t x y inc ->; cbn [max_size_increment]; (destruct (negb _); [apply fr_ok; reflexivity|]);
    (eapply fr_bind; [apply fr_get_size; reflexivity|]); intros sz ? <-; [apply fr_ok; reflexivity|].
  eapply fr_bind; [apply fr_child; reflexivity|]. intros [[[c a]|]|] ? ->; cbn [option_map fst snd]; [apply IH; reflexivity|apply fr_ok; reflexivity|apply fr_ok; reflexivity].
Qed.

Lemma fr_plan d t x y i s inc : y = K + x -> fr eq (expand_plan d t x i s inc) (expand_plan d (emb t) y i s inc).
Proof. intros ->. unfold expand_plan. cbv zeta. go prim4. Qed.
Lemma fr_zero_unused t x y b : y = K + x -> fr rm (zero_unused_bits t x b) (zero_unused_bits (emb t) y b).
Proof. intros ->. unfold zero_unused_bits. cbv zeta. go prim4. Qed.
Lemma fr_prefix d t x y a b : y = K + x -> fr rm (write_prefix d t x a b) (write_prefix d (emb t) y a b).
Proof. intros ->. unfold write_prefix. go prim4. Qed.
Ltac prim5 := first [apply fr_zero_unused; here | apply fr_prefix; here | prim4].
Lemma fr_expand_bits d t x y i s n n' : y = K + x -> fr rm (expand_bits d t x i s n n') (expand_bits d (emb t) y i s n n').
Proof. intros ->. unfold expand_bits. cbv zeta. go prim5. Qed.
Lemma fr_expand_fixed d t x y i s n n' z : y = K + x -> fr rm (expand_fixed d t x i s n n' z) (expand_fixed d (emb t) y i s n n' z).
Proof. intros ->. unfold expand_fixed, reset_bit. cbv zeta. go prim5. Qed.
Lemma fr_expand_var d t x y i s n' z : y = K + x -> fr rm (expand_var d t x i s n' z) (expand_var d (emb t) y i s n' z).
Proof. intros ->. unfold expand_var. cbv zeta. go prim5. Qed.
Lemma fr_expand d t x y i s inc : y = K + x -> fr rp (expand d t x i s inc) (expand d (emb t) y i s inc).
Proof.
  intros ->. unfold expand. cbv zeta. eapply fr_bind; [apply fr_plan; reflexivity|]. intros [[[[[n n'] z] z']|]|] ? <-; [|apply fr_ok; split; reflexivity|apply fr_ok; split; reflexivity].
  go ltac:(first [apply fr_expand_bits; here | apply fr_expand_fixed; here | apply fr_expand_var; here | prim5]).
Qed.
Lemma fr_can_expand d t x y i s inc : y = K + x -> fr eq (can_expand d t x i s inc) (can_expand d (emb t) y i s inc).
Proof. intros ->. unfold can_expand. eapply fr_bind; [apply fr_plan; reflexivity|]. intros ? ? <-. apply fr_ok. reflexivity. Qed.
Lemma fr_can_expand_element pa : forall d t x i s inc, fr eq (can_expand_element d pa t x i s inc) (can_expand_element d pa (emb t) (K + x) i s inc).
Proof.
  intros. unfold can_expand_element. destruct (negb _); [apply fr_ok; reflexivity|].
  revert d t x inc. induction pa as [|j pa IH]; intros d t x inc; cbn [can_expand_internal]; go ltac:(first [apply fr_can_expand; here | apply IH | prim5]).
Qed.
Lemma fr_expand_element pa : forall d t x i s inc, fr rp (expand_element d pa t x i s inc) (expand_element d pa (emb t) (K + x) i s inc).
Proof.
  intros. unfold expand_element. destruct (negb _); [apply fr_ok; split; reflexivity|].
  revert d t x inc. induction pa as [|j pa IH]; intros d t x inc; cbn [expand_internal]; go ltac:(first [apply fr_expand; here | apply IH | prim5]).
Qed.

Lemma fr_can_discard d t x y i s : y = K + x -> fr eq (can_discard d t x i s) (can_discard d (emb t) y i s).
Proof. intros ->. unfold can_discard. go prim5. Qed.
Lemma fr_discard_bits d t x y i s n n' : y = K + x -> fr rp (discard_bits d t x i s n n') (discard_bits d (emb t) y i s n n').
Proof. intros ->. unfold discard_bits. cbv zeta. go prim5. Qed.
Lemma fr_discard_fixed d t x y i s n n' z : y = K + x -> fr rp (discard_fixed d t x i s n n' z) (discard_fixed d (emb t) y i s n n' z).
Proof. intros ->. unfold discard_fixed. cbv zeta. go prim5. Qed.
Lemma fr_discard_var d t x y i s n' : y = K + x -> fr rp (discard_var d t x i s n') (discard_var d (emb t) y i s n').
Proof. intros ->. unfold discard_var. cbv zeta. go ltac:(first [prim3 | apply fr_for; intros ? ?; go ltac:(first [apply fr_set_null; here | prim3])]). Qed.
Lemma fr_discard d t x y i s : y = K + x -> fr rp (discard d t x i s) (discard d (emb t) y i s).
Proof.
  intros ->. unfold discard. cbv zeta.
  go ltac:(first [apply fr_can_discard; here | apply fr_discard_bits; here | apply fr_discard_fixed; here | apply fr_discard_var; here | prim5]).
Qed.
Lemma fr_can_discard_elements pa : forall d t x i s, fr eq (can_discard_elements d pa t x i s) (can_discard_elements d pa (emb t) (K + x) i s).
Proof.
  intros. unfold can_discard_elements. destruct (negb _); [apply fr_ok; reflexivity|].
  revert d t x. induction pa as [|j pa IH]; intros d t x; cbn [can_discard_internal]; [apply fr_can_discard; reflexivity|].
  eapply fr_bind; [apply fr_child; reflexivity|]. intros [[[c a]|]|] ? ->; cbn [option_map fst snd]; [apply IH; reflexivity|apply fr_ok; reflexivity|apply fr_ok; reflexivity].
Qed.
Lemma fr_discard_elements pa : forall d t x i s, fr rp (discard_elements d pa t x i s) (discard_elements d pa (emb t) (K + x) i s).
Proof.
  intros. unfold discard_elements. destruct (negb _); [apply fr_ok; split; reflexivity|].
  revert d t x. induction pa as [|j pa IH]; intros d t x; cbn [discard_internal]; go ltac:(first [apply fr_discard; here | apply IH | prim5]).
Qed.
End Frame.
