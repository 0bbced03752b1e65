(** * Hashing follows the values *)
From Verif Require Export CompareFacts Hash ContainerSet.
From Coq Require Import ZifyBool ZifyNat ZifyN Zify.
Ltac Zify.zify_post_hook ::= Z.div_mod_to_equations.
Notation holds := holds.

(** ** the bytes of a list *)
Fixpoint hashed_list (T : Z -> dti) (i : Z) (l : list value) : list byte :=
  match l with [] => [] | y :: l' => hashed (T i) y ++ hashed_list T (i + 1) l' end.
Lemma hashed_vlist t l : hashed t (VList l) = hashed_list (element_type t) 0 l.
Proof.
  cbn [hashed]. match goal with |- ?f 0 l = _ => enough (G : forall l i, f i l = hashed_list (element_type t) i l) by apply G end.
  clear l. induction l as [|x l IH]; intro i; [reflexivity|]. cbn [hashed_list]. rewrite <- IH. reflexivity.
Qed.
Lemma hashed_list_ext T T' l : forall i, (forall j, 0 <= j < zlen l -> T (i + j) = T' (i + j)) -> hashed_list T i l = hashed_list T' i l.
Proof.
  induction l as [|x l IH]; intros i E; [reflexivity|]. cbn [hashed_list]. pose proof (zlen_nonneg l). rewrite zlen_cons in E. pose proof (E 0 ltac:(lia)) as E0. rewrite Z.add_0_r in E0. rewrite E0. f_equal.
  apply IH. intros j J. replace (i + 1 + j) with (i + (j + 1)) by lia. apply E. lia.
Qed.
Lemma string_element t i : string_type t -> element_type t i = uint8_type.
Proof.
  intro S. unfold element_type. cbn [get_type_info]. unfold containee_type_without_data. rewrite (string_container t S). cbn [negb].
  destruct (negb (is_variable_element_count t) && (element_count t <=? i)); [reflexivity|]. destruct S as [S|S]; rewrite S; reflexivity.
Qed.
Lemma enc_1 b : enc 1 (b2z b) = [b].
Proof. transitivity (enc 1 (dec [b])); [f_equal; cbn [dec]; lia|apply (enc_dec [b])]. Qed.
Lemma hashed_string t bs : string_type t -> hashed t (bytes_value bs) = bs.
Proof.
  intro S. unfold bytes_value. rewrite hashed_vlist. rewrite (hashed_list_ext _ (fun _ => uint8_type)) by (intros; apply string_element; exact S). generalize 0.
  induction bs as [|b bs IH]; intro i; [reflexivity|]. cbn [map hashed_list]. rewrite IH. cbn [hashed number_bytes]. change (Z.to_nat (size uint8_type)) with 1%nat. rewrite enc_1. reflexivity.
Qed.

Lemma strnlen_range m k : forall o r, strnlen_from m o k = Ok r -> 0 <= r <= Z.of_nat k.
Proof.
  induction k as [|k IH]; intros o r R; cbn [strnlen_from] in R; [injection R as <-; lia|]. apply bind_inv in R. destruct R as (b & _ & R). destruct (dec b =? 0); [injection R as <-; lia|].
  apply bind_inv in R. destruct R as (q & R & E). assert (r = 1 + q) as -> by congruence. apply IH in R. lia.
Qed.

Section hash.
  Context {H : Type} (up : H -> byte -> H).
  Notation hash_bytes := (hash_bytes up).
  Lemma hash_app h a b : hash_bytes h (a ++ b) = hash_bytes (hash_bytes h a) b.
  Proof. apply fold_left_app. Qed.

  Lemma value_bits z n : forall i h, hash_value_bits up z (Z.of_nat i) n h = hash_bytes h (map (fun i => if Z.testbit z (Z.of_nat i) then Byte.x01 else Byte.x00) (seq i n)).
  Proof.
    induction n as [|n IH]; intros i h; [reflexivity|]. cbn [hash_value_bits seq map]. replace (Z.of_nat i + 1) with (Z.of_nat (S i)) by lia. rewrite IH. reflexivity.
  Qed.
  Lemma stored_bits m o n : forall i k z h, (forall j, (j < n)%nat -> get_bit m o (i + Z.of_nat j) = Ok (Z.testbit z (Z.of_nat (k + j)))) ->
    hash_stored_bits up m o i n h = Ok (hash_bytes h (map (fun i => if Z.testbit z (Z.of_nat i) then Byte.x01 else Byte.x00) (seq k n))).
  Proof.
    induction n as [|n IH]; intros i k z h B; [reflexivity|]. cbn [hash_stored_bits seq map]. pose proof (B O ltac:(lia)) as B0. rewrite Z.add_0_r, Nat.add_0_r in B0. rewrite B0. cbn [bind].
    rewrite (IH (i + 1) (S k) z); [reflexivity|]. intros j J. replace (i + 1 + Z.of_nat j) with (i + Z.of_nat (S j)) by lia. replace (S k + j)%nat with (k + S j)%nat by lia. apply B. lia.
  Qed.

  (** the loops *)
  Fixpoint tuple_hash (f : Z -> dti -> H -> res H) (n : Z) (cs : list (position * dti)) (i : Z) (h : H) {struct cs} : res H :=
    if n <=? i then Ok h else match cs with [] => UB | (_, c) :: cs' => let* h' := f i c h in tuple_hash f n cs' (i + 1) h' end.
  Lemma tuple_hash_ok T f n : forall cs i l h, n = i + zlen l -> zlen l = zlen cs ->
    (forall k p c x h, nth_error cs k = Some (p, c) -> nth_error l k = Some x -> f (i + Z.of_nat k) c h = Ok (hash_bytes h (hashed (T (i + Z.of_nat k)) x))) ->
    tuple_hash f n cs i h = Ok (hash_bytes h (hashed_list T i l)).
  Proof.
    induction cs as [|[p c] cs IH]; intros i l h N L F.
    - destruct l; [|rewrite zlen_cons, zlen_nil in L; pose proof (zlen_nonneg l); lia]. cbn [tuple_hash]. rewrite zlen_nil in N. replace (n <=? i) with true by lia. reflexivity.
    - destruct l as [|x l]; [rewrite zlen_cons, zlen_nil in L; pose proof (zlen_nonneg cs); lia|]. rewrite !zlen_cons in *. pose proof (zlen_nonneg l). cbn [tuple_hash hashed_list]. replace (n <=? i) with false by lia.
      pose proof (F O p c x h eq_refl eq_refl) as Q0. rewrite Z.add_0_r in Q0. rewrite Q0. cbn [bind]. rewrite hash_app. apply IH; try lia.
      intros k q c' y h' Q Y. replace (i + 1 + Z.of_nat k) with (i + Z.of_nat (S k)) by lia. eapply F; eauto.
  Qed.
  Lemma hash_loop_ok T f : forall l i h,
    (forall k x h, nth_error l k = Some x -> f (i + Z.of_nat k) h = Ok (Some (hash_bytes h (hashed (T (i + Z.of_nat k)) x)))) ->
    hash_loop (length l) i f h = Ok (hash_bytes h (hashed_list T i l)).
  Proof.
    induction l as [|x l IH]; intros i h F; [reflexivity|]. cbn [length hash_loop hashed_list]. pose proof (F O x h eq_refl) as Q0. rewrite Z.add_0_r in Q0. rewrite Q0. cbn [bind]. rewrite hash_app. apply IH.
    intros k y h' Y. replace (i + 1 + Z.of_nat k) with (i + Z.of_nat (S k)) by lia. apply F. exact Y.
  Qed.
  Lemma byte_loop m n : forall i o h f, 0 <= o -> 0 <= n -> o + n <= zlen m -> 
    (forall j h, 0 <= j < n -> f (i + j) h = Ok (Some (up h (bat m (o + j))))) -> hash_loop (Z.to_nat n) i f h = Ok (hash_bytes h (slice m o n)).
  Proof.
    intros i o h f O N L F. replace n with (Z.of_nat (Z.to_nat n)) in L, F by lia. replace n with (Z.of_nat (Z.to_nat n)) at 2 by lia. revert i o h O L F. induction (Z.to_nat n) as [|k IH]; intros i o h O L F; [reflexivity|]. 
    cbn [hash_loop]. pose proof (F 0 h ltac:(lia)) as Q0. rewrite !Z.add_0_r in Q0. rewrite Q0. cbn [bind].
    replace (Z.of_nat (S k)) with (1 + Z.of_nat k) by lia. rewrite (slice_split m o 1 (Z.of_nat k)) by lia. rewrite slice_1 by lia. rewrite hash_app.
    change (hash_bytes h [bat m o]) with (up h (bat m o)). apply IH; try lia. intros j h' J. replace (i + 1 + j) with (i + (j + 1)) by lia. replace (o + 1 + j) with (o + (j + 1)) by lia. apply F. lia.
  Qed.
  Lemma string_hash m k : forall i o h f r, 0 <= o -> o + Z.of_nat k <= zlen m -> strnlen_from m o k = Ok r ->
    (forall j h, 0 <= j < Z.of_nat k -> f (i + j) h = Ok (if b2z (bat m (o + j)) =? 0 then None else Some (up h (bat m (o + j))))) -> hash_loop k i f h = Ok (hash_bytes h (slice m o r)).
  Proof.
    induction k as [|k IH]; intros i o h f r O L R F.
    - cbn [strnlen_from] in R. injection R as <-. reflexivity.
    - cbn [strnlen_from hash_loop] in *. pose proof (F 0 h ltac:(lia)) as Q0. rewrite !Z.add_0_r in Q0. rewrite Q0. cbn [bind]. rewrite rd_ok in R by lia. cbn [bind] in R. rewrite slice_1 in R by lia.
      assert (D : dec [bat m o] = b2z (bat m o)) by (cbn [dec]; lia). rewrite D in R. destruct (b2z (bat m o) =? 0); [injection R as <-; reflexivity|].
      apply bind_inv in R. destruct R as (r' & R & E). assert (r = 1 + r') as -> by congruence.
      pose proof (strnlen_range m k (o + 1) r' R) as R01.
      rewrite (slice_split m o 1 r') by lia. rewrite slice_1 by lia. rewrite hash_app.
      change (hash_bytes h [bat m o]) with (up h (bat m o)). apply IH; try lia; auto. intros j h' J. replace (i + 1 + j) with (i + (j + 1)) by lia. replace (o + 1 + j) with (o + (j + 1)) by lia. apply F. lia.
  Qed.

  (** ** datums *)
  Lemma hash_datum_unfold junk v d h : hash_datum up junk v d h =
    if is_datum_NULL v then Ok h
    else if data_type_eqb (type d) BIT_FIELD then
      let* z := bit_field_value v in Ok (hash_value_bits up z 0 (Z.to_nat (size d)) h)
    else if negb (is_container_type_info d) then
      let* (_, m) := set_datum d junk 0 false 0 v in
      let* s := get_size d m 0 in
      let* bs := rd m 0 s in
      Ok (hash_bytes h bs)
    else match type d with
         | STRING | BINARY =>
             let* (m, o, n) := string_value v in
             let* bs := rd m o n in
             Ok (hash_bytes h bs)
         | TUPLE =>
             let* n := element_count_for_datum v d in
             tuple_hash (fun i c h => let* r := get_containee_from_datum v d i in match r with Some (w, _) => hash_datum up junk w c h | None => Ok h end) n (containees d) 0 h
         | _ =>
             let* n := element_count_for_datum v d in
             hash_loop (Z.to_nat n) 0 (fun i h =>
               let* r := get_containee_from_datum v d i in
               match r, containee_ d with
               | Some (w, _), Some c => let* h' := hash_datum up junk w c h in Ok (Some h')
               | Some _, None => UB
               | None, _ => Ok (Some h)
               end) h
         end.
  Proof.
    destruct d as [fin nm ty nu vr sz ms hv ec pb ce cs]; cbn [hash_datum type containee_ containees].
    set (d := mk_dti _ _ _ _ _ _ _ _ _ _ _ _). destruct (is_datum_NULL v); [reflexivity|]. destruct (data_type_eqb ty BIT_FIELD); [reflexivity|]. destruct (negb (is_container_type_info d)); [reflexivity|].
    destruct ty; try reflexivity. destruct (element_count_for_datum v d) as [n|]; [|reflexivity]. cbn [bind]. clearbody d.
    match goal with |- ?f cs 0 h = ?g cs 0 h => enough (forall l i h, f l i h = g l i h) by auto end.
    clear h. induction l as [|[p c] l IH]; intros i h; cbn [tuple_hash]; [reflexivity|]. destruct (n <=? i); [reflexivity|].
    destruct (get_containee_from_datum v d i) as [[[w u]|]|]; [| |reflexivity]; cbn [bind]; [|apply IH]. destruct (hash_datum up junk w c h) as [h'|]; [|reflexivity]. cbn [bind]. apply IH.
  Qed.
  Lemma hash_number junk t v r h : zlen junk = 40 -> wf t -> is_value t v -> v <> DNull -> obs_of t v = Ok r -> hash_datum up junk v t h = Ok (hash_bytes h (number_bytes t r)).
  Proof.
    intros J W IV NN O. rewrite hash_datum_unfold. replace (is_datum_NULL v) with false by (destruct v; try reflexivity; congruence).
    pose proof (wf_node t W) as (_ & _ & _ & _ & _ & _ & N).
    assert (LEAF : forall z, type t <> BIT_FIELD -> is_variable_sized_ t = false -> 1 <= size t <= 32 -> set_datum t junk 0 false 0 v = (let* m1 := wr junk 0 (enc (Z.to_nat (size t)) z) in Ok (true, m1)) ->
      (let* (_, m) := set_datum t junk 0 false 0 v in let* s := get_size t m 0 in let* bs := rd m 0 s in Ok (hash_bytes h bs)) = Ok (hash_bytes h (enc (Z.to_nat (size t)) z))).
    { intros z NB V S E. rewrite E. rewrite wr_ok by (rewrite ?zlen_enc; lia). cbn [bind]. unfold get_size, is_variable_sized_type_info. rewrite V. cbn [negb bind]. replace (match type t with BIT_FIELD => Ok 0 | _ => Ok (size t) end) with (Ok (size t)) by (destruct (type t); congruence). cbn [bind].
      rewrite rd_ok by (rewrite ?zlen_upd; rewrite ?zlen_enc; lia). cbn [bind]. rewrite slice_upd_same' by (rewrite ?zlen_enc; lia). reflexivity. }
    destruct v as [| |z|z|z|z|z|z|z|? ? ?|? ?]; try contradiction; try congruence; cbn [is_value] in IV; injection O as <-.
    - destruct IV as [T _]. rewrite T. cbn [data_type_eqb bit_field_value bind number_bytes]. rewrite (value_bits z _ 0). reflexivity.
    - destruct IV as [T _]. rewrite T in *. unfold is_container_type_info. rewrite T. cbn [data_type_eqb is_container_data_type negb]. apply LEAF; try lia; try congruence; try apply N. unfold set_datum, is_variable_sized_type_info. rewrite T. destruct N as [-> _]. reflexivity.
    - destruct IV as [T _]. rewrite T in *. unfold is_container_type_info. rewrite T. cbn [data_type_eqb is_container_data_type negb]. apply LEAF; try lia; try congruence; try apply N. unfold set_datum, is_variable_sized_type_info. rewrite T. destruct N as [-> _]. reflexivity.
    - destruct IV as (T & S & _). rewrite T in *. unfold is_container_type_info. rewrite T. cbn [data_type_eqb is_container_data_type negb]. apply LEAF; try lia; try congruence; try apply N. unfold set_datum, is_variable_sized_type_info. rewrite T, S. destruct N as [-> _]. reflexivity.
    - destruct IV as (T & S & _). rewrite T in *. unfold is_container_type_info. rewrite T. cbn [data_type_eqb is_container_data_type negb]. apply LEAF; try lia; try congruence; try apply N. unfold set_datum, is_variable_sized_type_info. rewrite T, S. destruct N as [-> _]. reflexivity.
    - destruct IV as [T _]. rewrite T in *. unfold is_container_type_info. rewrite T. cbn [data_type_eqb is_container_data_type negb]. apply LEAF; try lia; try congruence; try apply N. unfold set_datum, is_variable_sized_type_info. rewrite T. destruct N as [-> _]. reflexivity.
    - destruct IV as [T _]. rewrite T in *. unfold is_container_type_info. rewrite T. cbn [data_type_eqb is_container_data_type negb]. apply LEAF; try lia; try congruence; try apply N. unfold set_datum, is_variable_sized_type_info. rewrite T. destruct N as [-> _]. reflexivity.
  Qed.
  Lemma element_etype t m o s es i : container t -> cv t m o s es -> 0 <= i < zlen es -> element_type t i = etype t i.
  Proof. intros CT V I. unfold element_type. rewrite (elem_type t m o s es i CT V I). reflexivity. Qed.
  Theorem hash_datum_means junk t v x : zlen junk = 40 -> means t v x -> wf t -> forall h, hash_datum up junk v t h = Ok (hash_bytes h (hashed t x)).
  Proof.
    intro J. induction 1 as [t | t v r IV NN O | t m o n bs S R | t m o bs es ws l T HC CT V L1 L2 G M IH]; intros Wt h.
    - rewrite hash_datum_unfold. reflexivity.
    - apply hash_number; assumption.
    - rewrite hash_datum_unfold, (string_container t S). cbn [is_datum_NULL negb]. rewrite hashed_string by exact S. destruct S as [S|S]; rewrite S; cbn [data_type_eqb string_value bind]; rewrite R; reflexivity.
    - rewrite hash_datum_unfold. pose proof CT as [W C]. rewrite C. cbn [is_datum_NULL negb].
      assert (EC : element_count_for_datum (DPtr m o) t = Ok (zlen es)).
      { unfold element_count_for_datum. rewrite C. cbn [negb is_datum_NULL]. destruct T as [T|T]; rewrite T; cbn [tuple_value bind]; apply (cv_get_count _ _ _ _ _ CT V). }
      rewrite hashed_vlist. rewrite (hashed_list_ext _ (etype t)) by (intros j Jr; rewrite Z.add_0_l; apply (element_etype t m o _ es j CT V); lia).
      assert (K : forall k x h, nth_error l k = Some x -> exists w, get_containee_from_datum (DPtr m o) t (Z.of_nat k) = Ok (Some (w, Some (etype t (Z.of_nat k)))) /\ hash_datum up junk w (etype t (Z.of_nat k)) h = Ok (hash_bytes h (hashed (etype t (Z.of_nat k)) x))).
      { intros k x h' X. pose proof (znth_some _ _ _ X) as I. destruct (nth_error ws k) as [w|] eqn:Ew; [|apply nth_error_None in Ew; unfold zlen in *; lia].
        exists w. split; [apply (child_ptr t m o (zlen bs) es); auto; lia|]. apply (IH k w x Ew X). apply (cv_etype_wf t m o _ es _ CT V). lia. }
      destruct T as [T|T]; rewrite T; cbn [data_type_eqb]; rewrite EC; cbn [bind].
      + apply tuple_hash_ok; [lia|rewrite L1; apply (tuple_count t _ T (cv_n _ _ _ _ _ V))|]. intros k p c x h' PC X. rewrite Z.add_0_l. destruct (K k x h' X) as (w & E1 & E2). rewrite E1. cbn [bind].
        assert (KE : etype t (Z.of_nat k) = c) by (unfold etype; rewrite T, Nat2Z.id, PC; reflexivity). rewrite KE in *. exact E2.
      + replace (Z.to_nat (zlen es)) with (length l) by (unfold zlen in *; lia). apply hash_loop_ok. intros k x h' X. rewrite Z.add_0_l. destruct (K k x h' X) as (w & E1 & E2). rewrite E1. cbn [bind].
        destruct (wf_containee t W C) as [_ EC']; [congruence|]. rewrite EC'. assert (KE : etype t (Z.of_nat k) = containee t) by (unfold etype; rewrite T; reflexivity). rewrite KE in *. rewrite E2. reflexivity.
  Qed.

  (** ** stored data *)
  Lemma hash_data_unfold d m o h : hash_data up d m o h =
    if data_type_eqb (type d) BIT_FIELD then Ok h
    else if negb (is_container_type_info d) then let* bs := rd m o (size d) in Ok (hash_bytes h bs)
    else
      let* n := get_element_count d m o in
      match type d with
      | TUPLE => tuple_hash (fun i c h => hash_present up (fun a h => hash_data up c m a h) d m o i h) n (containees d) 0 h
      | ARRAY =>
          hash_loop (Z.to_nat n) 0 (fun i h =>
            match containee_ d with
            | Some c => let* h' := hash_present up (fun a h => hash_data up c m a h) d m o i h in Ok (Some h')
            | None => UB
            end) h
      | ty =>
          hash_loop (Z.to_nat n) 0 (fun i h =>
            let byte := let* h' := hash_present up (fun a h => let* bs := rd m a (size uint8_type) in Ok (hash_bytes h bs)) d m o i h in Ok (Some h') in
            match ty with
            | STRING =>
                let* v := get_containee_datum d m o i in
                match v with
                | Some v => let* z := uint_value v in if z =? 0 then Ok None else byte
                | None => UB
                end
            | _ => byte
            end) h
      end.
  Proof.
    destruct d as [fin nm ty nu vr sz ms hv ec pb ce cs]; cbn [hash_data type containee_ containees].
    set (d := mk_dti _ _ _ _ _ _ _ _ _ _ _ _). destruct (data_type_eqb ty BIT_FIELD); [reflexivity|]. destruct (negb (is_container_type_info d)); [reflexivity|].
    destruct (get_element_count d m o) as [n|]; [|reflexivity]. cbn [bind]. destruct ty; try reflexivity. clearbody d.
    match goal with |- ?f cs 0 h = ?g cs 0 h => enough (forall l i h, f l i h = g l i h) by auto end.
    clear h. induction l as [|[p c] l IH]; intros i h; cbn [tuple_hash]; [reflexivity|]. destruct (n <=? i); [reflexivity|].
    destruct (hash_present up (fun a h => hash_data up c m a h) d m o i h) as [h'|]; [|reflexivity]. cbn [bind]. apply IH.
  Qed.
  Lemma present_ok rec t m o s es i e w x h : container t -> cv t m o s es -> 0 <= i -> nth_error es (Z.to_nat i) = Some e ->
    get_value t [i] m o = Ok (Some w) -> means (etype t i) w x ->
    (forall c h, e = CBytes c -> rec (addr t (zlen es) m o i) h = Ok (hash_bytes h (hashed (etype t i) x))) ->
    hash_present up rec t m o i h = Ok (hash_bytes h (hashed (etype t i) x)).
  Proof.
    intros CT V I En G M R. pose proof (znth_some _ _ _ En) as IL. pose proof CT as [W C]. assert (I' : 0 <= i < zlen es) by lia. rewrite (value_step t m o s es i e [] CT V I En) in G.
    unfold hash_present. rewrite (cv_pos t m o s es i CT V I'). cbn [bind]. rewrite (cv_is_null t m o s es i e CT V I En), (cv_get_ptr t m o s es i e CT V I En). cbn [bind].
    destruct (pos_spec t (zlen es) i W C (cv_n _ _ _ _ _ V) I') as (Q1 & Q2 & Q3 & Q4). rewrite Q1.
    pose proof (cv_el _ _ _ _ _ V i e I En) as [A1 A2]. destruct e as [|z|c]; cbn [is_cnull ptr_of].
    - injection G as <-. inversion M; subst; [reflexivity|congruence].
    - injection G as <-. destruct A2 as (B & Z0 & A3). pose proof (cv_etype_wf t m o s es i CT V I') as Wt. pose proof (ebits_parts _ Wt) as (EP1 & EP2 & EP3 & EP4). rewrite B in EP1. specialize (EP3 B). pose proof B as T. apply is_bit_field_spec in T. rewrite T.
      rewrite (Q3 B). inversion M as [|? ? r IV NN O| |]; subst. injection O as <-. cbn [hashed number_bytes]. apply stored_bits. intros j J. cbn [Nat.add].
      pose proof (cv_o _ _ _ _ _ V) as Ho. set (nv := b2n (needs_is_valid_bit (etype t i))) in *. set (sz := size (etype t i)) in *.
      assert (NV : 0 <= nv <= 1) by (unfold nv; destruct (needs_is_valid_bit (etype t i)); cbn; lia).
      destruct (bit_in_bitmap t m o s es i (nv + Z.of_nat j) CT V I' ltac:(lia)) as [R1 R2]. 
      pose proof (cv_bounds t m o s es CT V) as BB. pose proof (cv_s _ _ _ _ _ V) as Hs. pose proof (pbo_range t) as (P1 & _).
      rewrite get_bit_ok by lia. f_equal. apply A3. lia.
    - destruct A2 as (B & _). unfold is_bit_field in B. rewrite <- (R c h eq_refl). destruct (type (etype t i)); try discriminate; reflexivity.
  Qed.
  Theorem hash_data_means t c : good t c -> forall m a w x h, holds t m a c -> get_datum t m a = Ok (Some w) -> means t w x -> hash_data up t m a h = Ok (hash_bytes h (hashed t x)).
  Proof.
    induction 1 as [t c W C B L | t c es CT V GE IH]; intros m a w x h HD E M.
    - rewrite hash_data_unfold. assert (NB : data_type_eqb (type t) BIT_FIELD = false) by (unfold is_bit_field in B; destruct (type t); try reflexivity; discriminate). rewrite NB, C. cbn [negb].
      pose proof (h_o _ _ _ _ HD) as Ho. pose proof (h_in _ _ _ _ HD) as Hl. pose proof (h_slice _ _ _ _ HD) as Hs. pose proof (zlen_nonneg c) as Hc. rewrite L in *.
      rewrite rd_ok by lia. cbn [bind]. do 2 f_equal. rewrite Hs. unfold get_datum in E. rewrite rd_ok in E by lia. rewrite Hs in E.
      assert (SD : enc (length c) (sdec c) = c).
      { rewrite <- (enc_dec c) at 3. unfold sdec. destruct (dec c <? 256 ^ zlen c / 2); [reflexivity|]. rewrite <- enc_mod. rewrite <- (enc_mod _ (dec c)). f_equal. unfold zlen. replace (dec c - 256 ^ Z.of_nat (length c)) with (dec c + (-1) * 256 ^ Z.of_nat (length c)) by lia. apply Z_mod_plus_full. }
      assert (LC : Z.to_nat (size t) = length c) by (unfold zlen in L; lia).
      unfold is_container_type_info in C. destruct (type t) eqn:T; try discriminate; cbn [bind] in E; injection E as <-;
        try (destruct (size t =? 4)); (inversion M as [| ? ? r IV NN O | |]; subst; [injection O as <-; cbn [hashed number_bytes]; rewrite LC; symmetry; first [exact SD | apply enc_dec]]).
    - destruct (datum_typed t m a c HD) as (w' & E' & [(C & _)|[(S & _)|(T & ->)]]); [destruct CT; congruence| |].
      + destruct (holds_cv t m a c HD (proj2 CT)) as (es' & _ & Vm & Vc & _). rewrite (cv_same0 t c es' es CT Vc V) in Vm. clear es' Vc.
        pose proof CT as [W C]. destruct (string_layout t W S) as (HS & OC & VC & LV & LF & ET & SB & SS). pose proof (pbo_range t) as (P1 & _).
        assert (SO : forall n k, so t n k = pbo t + k) by (intros n k; unfold so; rewrite SB, SS; unfold bitmap_size_in_bytes; cbn; lia).
        destruct (string_bytes t m a c HD S) as (n & N1 & N2 & N3 & N4 & _). rewrite (cv_get_count _ _ _ _ _ CT Vm) in N1. assert (n = zlen es) as -> by congruence. clear N1.
        pose proof (h_o _ _ _ _ HD) as Ho. pose proof (h_in _ _ _ _ HD) as Hl.
        assert (AD : forall i, addr t (zlen es) m a i = a + pbo t + i) by (intro i; unfold addr; rewrite ET; cbn [is_variable_sized_ uint8_type]; rewrite SO; lia).
        assert (GV : forall i, 0 <= i < zlen es -> get_value t [i] m a = Ok (Some (DUint (b2z (bat m (a + pbo t + i)))))).
        { intros i I. destruct (znth_lt es i I) as [e En]. rewrite (value_step t m a _ es i e [] CT Vm ltac:(lia) En). pose proof (cv_el _ _ _ _ _ Vm i e ltac:(lia) En) as [_ A]. rewrite ET in *.
          destruct e as [|z|b]; [destruct A as [A _]; discriminate|destruct A as [A _]; discriminate|]. cbn [get_value]. rewrite AD. unfold get_datum. cbn [type uint8_type size]. rewrite rd_ok by lia. cbn [bind]. rewrite slice_1 by lia. do 3 f_equal. cbn [dec]. lia. }
        assert (HP : forall i h, 0 <= i < zlen es -> hash_present up (fun a h => let* bs := rd m a (size uint8_type) in Ok (hash_bytes h bs)) t m a i h = Ok (up h (bat m (a + pbo t + i)))).
        { intros i h' I. destruct (znth_lt es i I) as [e En].
          rewrite (present_ok _ t m a (zlen c) es i e _ (VNum (OUint (b2z (bat m (a + pbo t + i))))) h' CT Vm ltac:(lia) En (GV i I)).
          - rewrite ET. cbn [hashed number_bytes]. change (Z.to_nat (size uint8_type)) with 1%nat. rewrite enc_1. reflexivity.
          - rewrite ET. pose proof (b2z_range (bat m (a + pbo t + i))). constructor; [|discriminate|reflexivity]. split; [reflexivity|]. change (size uint8_type) with 1. lia.
          - intros b h2 _. rewrite AD, ET. change (size uint8_type) with 1. rewrite rd_ok by lia. cbn [bind]. rewrite slice_1 by lia. cbn [hashed number_bytes]. change (Z.to_nat (size uint8_type)) with 1%nat. rewrite enc_1. reflexivity. }
        rewrite hash_data_unfold, (cv_get_count _ _ _ _ _ CT Vm), C. cbn [negb bind]. unfold get_datum in E. rewrite (cv_get_count _ _ _ _ _ CT Vm) in E. cbn [bind] in E.
        destruct S as [S|S]; rewrite S in E |- *; cbn [data_type_eqb].
        * apply bind_inv in E. destruct E as (r & R & E). injection E as <-. inversion M as [|? ? ? IV| ? ? ? ? bs S' RB|]; subst; [contradiction|]. rewrite hashed_string by (left; exact S). 
          apply rd_inv in RB. destruct RB as (_ & _ & _ & ->). apply string_hash; try lia; [exact R|]. intros j h' J. rewrite Z.add_0_l. 
          pose proof (GV j ltac:(lia)) as GJ. cbn [get_value] in GJ. rewrite GJ. cbn [bind uint_value]. destruct (b2z (bat m (a + pbo t + j)) =? 0); [reflexivity|]. rewrite HP by lia. reflexivity.
        * injection E as <-. inversion M as [|? ? ? IV| ? ? ? ? bs S' RB|]; subst; [contradiction|]. rewrite hashed_string by (right; exact S).
          apply rd_inv in RB. destruct RB as (_ & _ & _ & ->). apply byte_loop; try lia. intros j h' J. rewrite Z.add_0_l. rewrite HP by lia. reflexivity.
      + rewrite E' in E. injection E as <-. destruct (holds_cv t m a c HD (proj2 CT)) as (es' & _ & Vm & Vc & _). rewrite (cv_same0 t c es' es CT Vc V) in Vm. clear es' Vc.
        inversion M as [| ? ? r IV| |? ? ? bs es' ws l T' HC CT' V' L1 L2 G K]; subst; [contradiction|].
        assert (zlen es' = zlen es) as LE.
        { pose proof (cv_get_count _ _ _ _ _ CT V') as A1. pose proof (cv_get_count _ _ _ _ _ CT Vm) as A2. congruence. }
        pose proof CT as [W C]. rewrite hash_data_unfold. rewrite (cv_get_count _ _ _ _ _ CT Vm), C. cbn [negb bind].
        rewrite hashed_vlist. rewrite (hashed_list_ext _ (etype t)) by (intros j Jr; rewrite Z.add_0_l; apply (element_etype t m a _ es j CT Vm); lia).
        assert (Q : forall k x h, nth_error l k = Some x -> hash_present up (fun a h => hash_data up (etype t (Z.of_nat k)) m a h) t m a (Z.of_nat k) h = Ok (hash_bytes h (hashed (etype t (Z.of_nat k)) x))).
        { intros k x h' X. pose proof (znth_some _ _ _ X) as I. destruct (nth_error ws k) as [w|] eqn:Ew; [|apply nth_error_None in Ew; unfold zlen in *; lia].
          destruct (nth_error es k) as [e|] eqn:En; [|apply nth_error_None in En; unfold zlen in *; lia].
          assert (En' : nth_error es (Z.to_nat (Z.of_nat k)) = Some e) by (rewrite Nat2Z.id; exact En).
          apply (present_ok _ t m a (zlen c) es (Z.of_nat k) e w x h' CT Vm ltac:(lia) En' (G k w Ew) (K k w x Ew X)).
          intros b h2 ->. pose proof (G k w Ew) as G'. rewrite (value_step t m a _ es (Z.of_nat k) _ [] CT Vm ltac:(lia) En') in G'. cbn [get_value] in G'.
          apply (IH (Z.of_nat k) b (Zle_0_nat k) En' m _ w x h2); [apply (child_holds t m a c es (Z.of_nat k) b CT Vm ltac:(lia) En'); apply (GE (Z.of_nat k) b ltac:(lia) En')|exact G'|apply (K k w x Ew X)]. }
        destruct T as [T|T]; rewrite T; cbn [data_type_eqb].
        * apply tuple_hash_ok; [lia|rewrite L1; rewrite LE; apply (tuple_count t _ T (cv_n _ _ _ _ _ Vm))|]. intros k p c' x h' PC X. rewrite Z.add_0_l.
          assert (KE : etype t (Z.of_nat k) = c') by (unfold etype; rewrite T, Nat2Z.id, PC; reflexivity). pose proof (Q k x h' X) as QQ. rewrite KE in *. exact QQ.
        * replace (Z.to_nat (zlen es)) with (length l) by (unfold zlen in *; lia). apply hash_loop_ok. intros k x h' X. rewrite Z.add_0_l. pose proof (Q k x h' X) as QQ.
          destruct (wf_containee t W C) as [_ EC']; [congruence|]. rewrite EC'. assert (KE : etype t (Z.of_nat k) = containee t) by (unfold etype; rewrite T; reflexivity). rewrite KE in *. rewrite QQ. reflexivity.
  Qed.
End hash.
