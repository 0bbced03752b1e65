(** * Serialized types: the bytes written, and reading them back *)
From Verif Require Export AcceptFacts.
From Coq Require Import ZifyBool ZifyNat ZifyN Zify.
Ltac Zify.zify_post_hook ::= Z.div_mod_to_equations.

(** ** names *)
Definition ser_name (n : list byte) : list byte := c_string n ++ (if zlen (c_string n) <? 64 then [Byte.x00] else []).
Lemma name_len_spec k : forall n, name_len k n = zlen (until_zero (firstn k n)).
Proof.
  induction k as [|k IH]; intros [|b n]; cbn [name_len firstn until_zero]; try reflexivity.
  destruct (b2z b =? 0); [reflexivity|]. rewrite zlen_cons, IH. reflexivity.
Qed.
Lemma until_zero_len n : zlen (until_zero n) <= zlen n.
Proof. induction n as [|b n IH]; cbn [until_zero]; [lia|]. destruct (b2z b =? 0); rewrite ?zlen_cons, ?zlen_nil; pose proof (zlen_nonneg n); lia. Qed.
Lemma c_string_len n : 0 <= zlen (c_string n) <= 64.
Proof. unfold c_string. pose proof (until_zero_len (firstn 64 n)). pose proof (zlen_nonneg (until_zero (firstn 64 n))). unfold zlen in *. rewrite firstn_length in *. lia. Qed.
Lemma until_zero_id n : until_zero (until_zero n) = until_zero n.
Proof. induction n as [|b n IH]; [reflexivity|]. cbn [until_zero]. destruct (b2z b =? 0) eqn:E; [reflexivity|]. cbn [until_zero]. rewrite E, IH. reflexivity. Qed.
Lemma c_string_id n : c_string (c_string n) = c_string n.
Proof.
  pose proof (c_string_len n) as L. unfold c_string at 1. rewrite firstn_all2 by (unfold zlen in L; lia). unfold c_string. apply until_zero_id.
Qed.
Lemma name_count_bytes n : name_count n = name_bytes n /\ name_bytes n = zlen (ser_name n) /\ 1 <= name_bytes n <= 64.
Proof.
  unfold name_count, name_bytes, ser_name. rewrite name_len_spec. fold (c_string n). pose proof (c_string_len n) as L. rewrite zlen_app.
  destruct (64 <? zlen (c_string n) + 1) eqn:A, (zlen (c_string n) <? 64) eqn:B; rewrite ?zlen_1, ?zlen_nil; lia.
Qed.
Lemma name_copy k : forall n, let s := until_zero (firstn k n) in
  if zlen s <? Z.of_nat k then firstn (S (length s)) (n ++ repeat Byte.x00 k) = s ++ [Byte.x00] else firstn k (n ++ repeat Byte.x00 k) = s.
Proof.
  assert (Z0 : forall b, (b2z b =? 0) = true -> b = Byte.x00) by (intros b E; apply b2z_inj; rewrite (proj1 (Z.eqb_eq _ _) E); reflexivity).
  induction k as [|k IH]; intros n s.
  { subst s. cbn. reflexivity. }
  destruct n as [|b n]; subst s.
  { reflexivity. }
  cbn [firstn until_zero]. destruct (b2z b =? 0) eqn:E.
  { cbn. rewrite (Z0 b E). reflexivity. }
  specialize (IH n). cbn zeta in IH. set (s := until_zero (firstn k n)) in *. rewrite zlen_cons.
  assert (X : forall j, (j <= length n + k)%nat -> firstn j (n ++ repeat Byte.x00 (S k)) = firstn j (n ++ repeat Byte.x00 k)).
  { intros j J. replace (repeat Byte.x00 (S k)) with (repeat Byte.x00 k ++ [Byte.x00]).
    - rewrite app_assoc, firstn_app. rewrite app_length, repeat_length. replace (j - (length n + k))%nat with 0%nat by lia. cbn [firstn]. rewrite app_nil_r. reflexivity.
    - symmetry. apply repeat_cons. }
  destruct (1 + zlen s <? Z.of_nat (S k)) eqn:A.
  - replace (zlen s <? Z.of_nat k) with true in IH by lia. change (firstn (S (S (length s))) (b :: (n ++ repeat Byte.x00 (S k))) = b :: (s ++ [Byte.x00])). rewrite firstn_cons. f_equal. rewrite X; [exact IH|]. unfold zlen in *. lia.
  - replace (zlen s <? Z.of_nat k) with false in IH by lia. change (firstn (S k) (b :: (n ++ repeat Byte.x00 (S k))) = b :: s). rewrite firstn_cons. f_equal. rewrite X; [exact IH|]. lia.
Qed.
Lemma serialize_name_ok n m o : 0 <= o -> o + name_bytes n <= zlen m -> serialize_name n m o = Ok (name_bytes n, upd m o (ser_name n)).
Proof.
  intros H1 H2. unfold serialize_name. destruct (name_count_bytes n) as (-> & E & R).
  assert (X : firstn (Z.to_nat (name_bytes n)) (n ++ repeat Byte.x00 64) = ser_name n).
  { pose proof (name_copy 64 n) as C. cbn zeta in C. fold (c_string n) in C. rewrite E. unfold ser_name. pose proof (c_string_len n).
    change (Z.of_nat 64) with 64 in C. destruct (zlen (c_string n) <? 64) eqn:A.
    - rewrite zlen_app, zlen_1. replace (Z.to_nat (zlen (c_string n) + 1)) with (S (length (c_string n))) by (unfold zlen; lia). exact C.
    - rewrite app_nil_r. replace (Z.to_nat (zlen (c_string n))) with 64%nat by (unfold zlen in *; lia). exact C. }
  rewrite X. rewrite wr_ok by lia. reflexivity.
Qed.

(** ** writing one thing after the other *)
Lemma upd_then (m : mem) o a b : 0 <= o -> o + zlen a + zlen b <= zlen m -> upd (upd m o a) (o + zlen a) b = upd m o (a ++ b).
Proof.
  intros H1 H2. pose proof (zlen_nonneg a). pose proof (zlen_nonneg b).
  apply list_eq_nth.
  - rewrite !zlen_upd; rewrite ?zlen_app, ?zlen_upd; lia.
  - intros d k K. rewrite !nth_upd; rewrite ?zlen_app, ?zlen_upd; try lia.
    destruct ((o + zlen a <=? k) && (k <? o + zlen a + zlen b)) eqn:A.
    + replace ((o <=? k) && (k <? o + (zlen a + zlen b))) with true by lia.
      rewrite app_nth2 by (unfold zlen in *; lia). f_equal. unfold zlen in *. lia.
    + destruct ((o <=? k) && (k <? o + zlen a)) eqn:B.
      * replace ((o <=? k) && (k <? o + (zlen a + zlen b))) with true by lia. rewrite app_nth1 by (unfold zlen in *; lia). reflexivity.
      * replace ((o <=? k) && (k <? o + (zlen a + zlen b))) with false by lia. reflexivity.
Qed.

Lemma put_first m o b : 0 <= o -> o + zlen b <= zlen m -> zlen b < 4294967296 -> put m o 0 b = Ok (zlen b, upd m o b).
Proof. intros. unfold put. rewrite Z.add_0_r, wr_ok by lia. cbn [bind]. pose proof (zlen_nonneg b). rewrite Z.add_0_l, u32_id by lia. reflexivity. Qed.
Lemma put_next m o a b : 0 <= o -> o + zlen a + zlen b <= zlen m -> zlen a + zlen b < 4294967296 ->
  put (upd m o a) o (zlen a) b = Ok (zlen (a ++ b), upd m o (a ++ b)).
Proof.
  intros. pose proof (zlen_nonneg a). pose proof (zlen_nonneg b). unfold put. rewrite wr_ok; [|lia|rewrite zlen_upd; lia]. cbn [bind].
  rewrite upd_then by lia. rewrite zlen_app, u32_id by lia. reflexivity.
Qed.
Lemma put_name_next m o a n : 0 <= o -> o + zlen a + name_bytes n <= zlen m -> zlen a + name_bytes n < 4294967296 ->
  put_name n o (zlen a, upd m o a) = Ok (zlen (a ++ ser_name n), upd m o (a ++ ser_name n)).
Proof.
  intros. pose proof (zlen_nonneg a). destruct (name_count_bytes n) as (_ & E & R). unfold put_name. cbn [fst snd].
  rewrite serialize_name_ok; [|lia|rewrite zlen_upd; lia]. cbn [bind]. rewrite upd_then by lia. rewrite zlen_app, <- E, u32_id by lia. reflexivity.
Qed.

(** ** the bytes of a description *)
Definition nul (d : dti) (c : Z) : Z := if is_nullable_type_info d then c else c + 1.
Definition ser_head (d : dti) : list byte :=
  match type d with
  | BIT_FIELD => [z2b (nul d 0)] ++ [z2b (size d)]
  | UINT => [z2b (nul d 2)] ++ [z2b (size d)]
  | INT => [z2b (nul d 4)] ++ [z2b (size d)]
  | FLOAT => [z2b (if size d =? 4 then if is_nullable_type_info d then 6 else 9 else (if is_nullable_type_info d then 6 else 9) + 1)]
  | LARGE_UINT => [z2b (nul d 12)] ++ [z2b (size d)]
  | LARGE_INT => [z2b (nul d 14)] ++ [z2b (size d)]
  | STRING => if negb (is_variable_sized_ d) then [z2b (nul d 120)] ++ enc 4 (element_count_ d) else [z2b (120 + 2)] ++ enc 4 (max_size d)
  | BINARY => if negb (is_variable_sized_ d) then [z2b (nul d 123)] ++ enc 4 (element_count_ d) else [z2b (123 + 2)] ++ enc 4 (max_size d)
  | TUPLE => if negb (is_variable_sized_ d) then [z2b (nul d 126)] ++ enc 4 (zlen (containees d)) else ([z2b 128] ++ enc 4 (zlen (containees d))) ++ enc 4 (max_size d)
  | ARRAY => if negb (is_variable_sized_ d) then [z2b (nul d 129)] ++ enc 4 (element_count_ d)
             else if negb (has_variable_element_count d) then ([z2b 131] ++ enc 4 (element_count_ d)) ++ enc 4 (max_size d)
             else [z2b 132] ++ enc 4 (max_size d)
  end.
Fixpoint ser (d : dti) : list byte :=
  ser_head d ++ ser_name (type_name d) ++
  match type d with
  | TUPLE => (fix go (cs : list (position * dti)) : list byte := match cs with [] => [] | (p, c) :: cs' => ser_name (field_name p) ++ ser c ++ go cs' end) (containees d)
  | ARRAY => match containee_ d with Some c => ser c | None => [] end
  | _ => []
  end.
Definition ser_elements := (fix go (cs : list (position * dti)) : list byte := match cs with [] => [] | (p, c) :: cs' => ser_name (field_name p) ++ ser c ++ go cs' end).
Lemma ser_unfold d : ser d = (ser_head d ++ ser_name (type_name d)) ++
  match type d with
  | TUPLE => ser_elements (containees d)
  | ARRAY => match containee_ d with Some c => ser c | None => [] end
  | _ => []
  end.
Proof. destruct d as [fn tn ty nu vs sz ms hv ec pb ce cs]. destruct ty; cbn [ser type containees containee_]; rewrite <- app_assoc; reflexivity. Qed.
Definition dl_elements := (fix go (cs : list (position * dti)) : Z := match cs with [] => 0 | (p, c) :: cs' => name_bytes (field_name p) + description_length c + go cs' end).
Lemma dl_unfold t : description_length t = 1 + name_bytes (type_name t)
  + match type t with
    | FLOAT => 0
    | STRING | BINARY => 4
    | TUPLE => (if t_variable t then 8 else 4) + dl_elements (containees t)
    | ARRAY => (if t_variable t then if has_variable_element_count t then 4 else 8 else 4) + match containee_ t with Some c => description_length c | None => 0 end
    | _ => 1
    end.
Proof. destruct t as [fn tn ty nu vs sz ms hv ec pb ce cs]. destruct ty; reflexivity. Qed.
Lemma zlen_ser d : wf d -> zlen (ser d) = description_length d.
Proof.
  induction d as [d IHc IHs] using dti_induction. intro W. destruct (wf_spec d W) as [TV _]. apply wf_unfold in W. destruct W as [N W].
  rewrite ser_unfold, dl_unfold, !zlen_app. destruct (name_count_bytes (type_name d)) as (_ & <- & _). rewrite TV.
  unfold node_ok in N. unfold ser_head. destruct (type d) eqn:T; rewrite ?zlen_app, ?zlen_1, ?zlen_nil; try lia.
  - destruct (is_variable_sized_ d); cbn [negb]; rewrite ?zlen_app, ?zlen_1, ?zlen_enc; lia.
  - destruct (is_variable_sized_ d); cbn [negb]; rewrite ?zlen_app, ?zlen_1, ?zlen_enc; lia.
  - assert (E : zlen (ser_elements (containees d)) = dl_elements (containees d)).
    { clear N. induction (containees d) as [|[p c] cs IH]; [reflexivity|]. change (zlen (ser_name (field_name p) ++ ser c ++ ser_elements cs) = name_bytes (field_name p) + description_length c + dl_elements cs).
      rewrite !zlen_app, IH; [|intros; eapply IHs; try right; eassumption|intros; eapply W; right; eassumption].
      rewrite (IHs p c (or_introl eq_refl) (W p c (or_introl eq_refl))). destruct (name_count_bytes (field_name p)) as (_ & <- & _). lia. }
    rewrite E. destruct (is_variable_sized_ d); cbn [negb]; rewrite ?zlen_app, ?zlen_1, ?zlen_enc; lia.
  - destruct N as (_ & _ & _ & _ & _ & _ & c & Ec & Ev & _). rewrite Ec, (IHc c Ec (W c Ec)).
    destruct (is_variable_sized_ d), (has_variable_element_count d); cbn [negb]; rewrite ?zlen_app, ?zlen_1, ?zlen_enc; lia.
Qed.
Lemma dl_elements_nonneg cs : (forall p c, In (p, c) cs -> 0 <= description_length c) -> 0 <= dl_elements cs.
Proof.
  induction cs as [|[p c] cs IH]; intro H; [cbn; lia|]. change (0 <= name_bytes (field_name p) + description_length c + dl_elements cs).
  pose proof (H p c (or_introl eq_refl)). pose proof (IH (fun q x I => H q x (or_intror I))). destruct (name_count_bytes (field_name p)) as (_ & _ & R). lia.
Qed.
Lemma dl_pos t : 2 <= description_length t.
Proof.
  induction t as [d IHc IHs] using dti_induction. rewrite dl_unfold. destruct (name_count_bytes (type_name d)) as (_ & _ & R).
  destruct (type d); try lia.
  - pose proof (dl_elements_nonneg (containees d)) as H. assert (0 <= dl_elements (containees d)) by (apply H; intros p c I; specialize (IHs p c I); lia). destruct (t_variable d); lia.
  - destruct (containee_ d) as [c|]; [specialize (IHc c eq_refl)|]; destruct (t_variable d), (has_variable_element_count d); lia.
Qed.

(** ** counting *)
Definition bc_elements := (fix go (cs : list (position * dti)) (acc : Z) : Z :=
         match cs with
         | [] => acc
         | (p, t) :: cs' => go cs' (u32 (acc + name_count (field_name p) + byte_count t))
         end).
Lemma byte_count_ok d : wf d -> description_length d < 4294967296 -> byte_count d = description_length d.
Proof.
  induction d as [d IHc IHs] using dti_induction. intros W. destruct (wf_spec d W) as [TV _]. apply wf_unfold in W. destruct W as [N W].
  rewrite dl_unfold. destruct (name_count_bytes (type_name d)) as (NC & _ & R). rewrite TV.
  destruct d as [fn tn ty nu vs sz ms hv ec pb ce cs]. cbn [type_name] in *. unfold node_ok in N. cbn -[description_length bitmap_size_in_bytes value_size lay Z.add dl_elements] in *.
  destruct ty; intro L.
  1-8: cbn -[u32 Z.add]; rewrite NC, u32_id; lia.
  - assert (Z0 : 0 <= dl_elements cs) by (apply dl_elements_nonneg; intros p c I; pose proof (dl_pos c); lia).
    change (bc_elements cs (u32 (1 + (if negb vs then 4 else 8) + name_count tn)) = 1 + name_bytes tn + ((if vs then 8 else 4) + dl_elements cs)). rewrite NC.
    assert (G : forall acc, 0 <= acc -> acc + dl_elements cs < 4294967296 -> bc_elements cs acc = acc + dl_elements cs).
    { clear - IHs W. induction cs as [|[p c] cs IH]; intros acc A B; [cbn; lia|].
      change (bc_elements cs (u32 (acc + name_count (field_name p) + byte_count c)) = acc + (name_bytes (field_name p) + description_length c + dl_elements cs)).
      change (acc + (name_bytes (field_name p) + description_length c + dl_elements cs) < 4294967296) in B.
      assert (Z0 : 0 <= dl_elements cs) by (apply dl_elements_nonneg; intros q x I; pose proof (dl_pos x); lia).
      destruct (name_count_bytes (field_name p)) as (-> & _ & R). pose proof (dl_pos c).
      rewrite (IHs p c (or_introl eq_refl) (W p c (or_introl eq_refl))) by lia. rewrite u32_id by lia.
      rewrite IH; try lia; intros; [eapply IHs; try right; eassumption|eapply W; right; eassumption]. }
    destruct vs; cbn [negb]; rewrite ?u32_id by lia; rewrite G; lia.
  - destruct N as (_ & _ & _ & _ & _ & _ & c & Ec & Ev & _). rewrite Ec in *. pose proof (dl_pos c).
    change (u32 (1 + (if negb vs then 4 else (if negb (if negb vs then false else hv) then 4 else 0) + 4) + name_count tn + byte_count c) = 1 + name_bytes tn + ((if vs then if hv then 4 else 8 else 4) + description_length c)).
    rewrite (IHc c eq_refl (W c eq_refl)); [|destruct vs, hv; lia]. rewrite NC, u32_id; destruct vs, hv; cbn [negb] in *; lia.
Qed.

(** ** writing a description *)
Definition ser_loop (o : Z) := (fix go (cs : list (position * dti)) (c : Z) (m : mem) : res (Z * mem) :=
         match cs with
         | [] => Ok (c, m)
         | (p, t) :: cs' =>
             let* (c3, m3) := put_name (field_name p) o (c, m) in
             let* (n, m4) := serialize_type_info t m3 (o + c3) in
             go cs' (u32 (c3 + n)) m4
         end).
Definition written (m : mem) (o : Z) (a : list byte) : res (Z * mem) := Ok (zlen a, upd m o a).
Definition ser_ok (d : dti) : Prop := forall m o, 0 <= o -> o + zlen (ser d) <= zlen m -> zlen (ser d) < 4294967296 -> serialize_type_info d m o = written m o (ser d).

Lemma child_next c m o a : ser_ok c -> 0 <= o -> o + zlen a + zlen (ser c) <= zlen m -> zlen a + zlen (ser c) < 4294967296 ->
  (let* (n, m1) := serialize_type_info c (upd m o a) (o + zlen a) in Ok (u32 (zlen a + n), m1)) = written m o (a ++ ser c).
Proof.
  intros H1 H2 H3 H4. pose proof (zlen_nonneg a). pose proof (zlen_nonneg (ser c)). rewrite H1; [|lia|rewrite zlen_upd; lia|lia]. unfold written. cbn [bind].
  rewrite upd_then, zlen_app, u32_id by lia. reflexivity.
Qed.
Lemma ser_loop_ok cs : forall m o a, (forall p c, In (p, c) cs -> ser_ok c) -> 0 <= o ->
  o + zlen a + zlen (ser_elements cs) <= zlen m -> zlen a + zlen (ser_elements cs) < 4294967296 ->
  ser_loop o cs (zlen a) (upd m o a) = written m o (a ++ ser_elements cs).
Proof.
  induction cs as [|[p c] cs IH]; intros m o a H1 H2 H3 H4; [cbn; rewrite app_nil_r; reflexivity|].
  change (ser_elements ((p, c) :: cs)) with (ser_name (field_name p) ++ ser c ++ ser_elements cs) in *. rewrite !zlen_app in *.
  destruct (name_count_bytes (field_name p)) as (_ & E & R). rewrite <- E in *.
  pose proof (zlen_nonneg a). pose proof (zlen_nonneg (ser c)). pose proof (zlen_nonneg (ser_elements cs)).
  change (ser_loop o ((p, c) :: cs) (zlen a) (upd m o a)) with
    (let* (c3, m3) := put_name (field_name p) o (zlen a, upd m o a) in
             let* (n, m4) := serialize_type_info c m3 (o + c3) in
             ser_loop o cs (u32 (c3 + n)) m4).
  rewrite put_name_next by lia. cbn [bind]. rewrite (H1 p c (or_introl eq_refl)); [|rewrite zlen_app, <- E; lia|rewrite zlen_upd; rewrite ?zlen_app, <- ?E; lia|lia].
  unfold written at 1. cbn [bind]. rewrite upd_then; [|lia|rewrite zlen_app, <- E; lia]. rewrite u32_id by (rewrite zlen_app, <- E; lia).
  rewrite <- zlen_app. rewrite IH; [|intros; eapply H1; right; eassumption|lia|rewrite !zlen_app, <- E; lia|rewrite !zlen_app, <- E; lia].
  rewrite <- !app_assoc. reflexivity.
Qed.

Ltac ll := rewrite ?zlen_app, ?zlen_1, ?zlen_nil, ?zlen_enc in *; lia.
Ltac w := repeat (first [rewrite put_first by ll | rewrite put_next by ll | rewrite put_name_next by ll]; cbn [bind]).
Lemma serialize_ok d : wf d -> ser_ok d.
Proof.
  induction d as [d IHc IHs] using dti_induction. intro W. pose proof W as W0. apply wf_unfold in W. destruct W as [N W].
  intros m o H1 H2 H3. rewrite (ser_unfold d) in *.
  destruct (name_count_bytes (type_name d)) as (_ & E & R).
  unfold node_ok in N. destruct d as [fn tn ty nu vs sz ms hv ec pb ce cs]. cbn [type_name] in *.
  rewrite !zlen_app, <- E in H2, H3.
  destruct ty; cbn [type] in *; unfold ser_head in *; cbn [type size element_count_ max_size is_variable_sized_ has_variable_element_count containees containee_] in *.
  1-3, 5-6: cbn [serialize_type_info type]; unfold serialize_numeral; cbn [size type_name]; w; rewrite app_nil_r; reflexivity.
  - cbn [serialize_type_info type size type_name]. destruct N as (_ & _ & _ & _ & _ & _ & _ & N). set (code := if is_nullable_type_info _ then 6 else 9) in *.
    destruct (sz =? 4) eqn:E4; [|replace (sz =? 8) with true by lia]; w; rewrite app_nil_r; reflexivity.
  - cbn [serialize_type_info type element_count_ max_size type_name]. change (is_variable_sized_type_info _) with vs.
    destruct vs; cbn [negb] in *; w; rewrite app_nil_r; reflexivity.
  - cbn [serialize_type_info type element_count_ max_size type_name]. change (is_variable_sized_type_info _) with vs.
    destruct vs; cbn [negb] in *; w; rewrite app_nil_r; reflexivity.
  - cbn [serialize_type_info type element_count_ max_size type_name containees]. change (is_variable_sized_type_info _) with vs.
    change (element_count _) with (zlen cs). fold (ser_loop o).
    assert (K : forall p c, In (p, c) cs -> ser_ok c) by (intros p c I; eapply IHs; eauto).
    pose proof (zlen_nonneg (ser_elements cs)).
    destruct vs; cbn [negb] in *; w; rewrite ser_loop_ok; auto; rewrite !zlen_app, <- E; ll.
  - cbn [serialize_type_info type element_count_ max_size type_name containee_]. change (is_variable_sized_type_info _) with vs.
    destruct N as (_ & _ & _ & _ & _ & _ & c & Ec & Ev & _). subst ce. pose proof (zlen_nonneg (ser c)).
    assert (K : ser_ok c) by (apply IHc; auto).
    change (is_variable_element_count _) with (if negb vs then false else hv).
    destruct vs; cbn [negb] in *; [destruct hv; cbn [negb] in *|]; w; (rewrite child_next; [reflexivity|exact K|exact H1|rewrite !zlen_app, <- E; ll|rewrite !zlen_app, <- E; ll]).
Qed.
