(** * Reading a serialized type back *)
From Verif Require Export SerdeFacts.
From Coq Require Import ZifyBool ZifyNat ZifyN Zify.
Ltac Zify.zify_post_hook ::= Z.div_mod_to_equations.

(** ** bytes at an offset *)
Definition present (m : mem) (o : Z) (bs : list byte) : Prop := exists pre post, m = pre ++ bs ++ post /\ zlen pre = o.
Lemma present_app m o a b : present m o (a ++ b) -> present m o a /\ present m (o + zlen a) b.
Proof.
  intros (pre & post & E & L). split.
  - exists pre, (b ++ post). rewrite <- app_assoc in E. auto.
  - exists (pre ++ a), post. rewrite zlen_app, <- !app_assoc in *. split; [exact E|lia].
Qed.
Lemma present_bounds m o bs : present m o bs -> 0 <= o /\ o + zlen bs <= zlen m.
Proof. intros (pre & post & -> & <-). rewrite !zlen_app. pose proof (zlen_nonneg pre). pose proof (zlen_nonneg post). lia. Qed.
Lemma present_rd m o bs n : present m o bs -> n = zlen bs -> rd m o n = Ok bs.
Proof.
  intros H ->. pose proof (present_bounds _ _ _ H). pose proof (zlen_nonneg bs). rewrite rd_ok by lia. destruct H as (pre & post & -> & <-).
  rewrite slice_app_r, Z.sub_diag by lia. rewrite slice_app_l, slice_all by lia. reflexivity.
Qed.
Lemma present_slice (m : mem) o bs : 0 <= o -> o + zlen bs <= zlen m -> slice m o (zlen bs) = bs -> present m o bs.
Proof.
  intros H1 H2 H3. exists (firstn (Z.to_nat o) m), (skipn (Z.to_nat (o + zlen bs)) m). pose proof (zlen_nonneg bs). split.
  - rewrite <- H3 at 1. rewrite <- (firstn_skipn (Z.to_nat o) m) at 1. f_equal. unfold slice.
    rewrite <- (firstn_skipn (Z.to_nat (zlen bs)) (skipn (Z.to_nat o) m)) at 1. f_equal. rewrite skipn_skipn. f_equal. lia.
  - unfold zlen in *. rewrite firstn_length. lia.
Qed.

(** ** names *)
Lemma until_zero_nonzero n b : In b (until_zero n) -> b2z b <> 0.
Proof. induction n as [|x n IH]; cbn [until_zero]; [intros []|]. destruct (b2z x =? 0) eqn:E; [intros []|]. intros [<-|I]; [lia|auto]. Qed.
Lemma strnlen_string s : forall m o k, (forall b, In b s -> b2z b <> 0) ->
  (k = length s /\ present m o s \/ (length s < k)%nat /\ present m o (s ++ [Byte.x00])) -> strnlen_from m o k = Ok (zlen s).
Proof.
  induction s as [|b s IH]; intros m o k N H.
  - destruct H as [[-> _]|[K H]]; [reflexivity|]. destruct k as [|k]; [cbn in K; lia|]. cbn [strnlen_from]. cbn [app] in H. rewrite (present_rd _ _ _ 1 H eq_refl). reflexivity.
  - assert (K : exists k', k = S k') by (destruct k as [|k]; [destruct H as [[H _]|[H _]]; cbn in H; lia|eauto]). destruct K as [k' ->]. cbn [strnlen_from].
    assert (B : present m o [b]). { destruct H as [[_ H]|[_ H]]; [change (b :: s) with ([b] ++ s) in H|change ((b :: s) ++ [Byte.x00]) with ([b] ++ (s ++ [Byte.x00])) in H]; apply present_app in H; tauto. }
    rewrite (present_rd _ _ _ 1 B eq_refl). cbn [bind]. assert (D : dec [b] = b2z b) by (cbn [dec]; lia). rewrite D. pose proof (N b (or_introl eq_refl)). replace (b2z b =? 0) with false by lia.
    rewrite (IH m (o + 1) k'); [cbn [bind]; rewrite zlen_cons; reflexivity|intros; apply N; right; assumption|].
    destruct H as [[K H]|[K H]]; [left|right]; (split; [cbn in K; lia|]).
    + change (b :: s) with ([b] ++ s) in H. apply present_app in H. rewrite zlen_1 in H. tauto.
    + change ((b :: s) ++ [Byte.x00]) with ([b] ++ (s ++ [Byte.x00])) in H. apply present_app in H. rewrite zlen_1 in H. tauto.
Qed.
Lemma deserialize_name_ok m o n x : present m o (ser_name x) -> name_bytes x <= n -> deserialize_name m o n = Ok (Some (c_string x, name_bytes x)).
Proof.
  intros H L. unfold deserialize_name, strnlen. pose proof (c_string_len x) as C. pose proof (until_zero_nonzero (firstn 64 x)) as N. fold (c_string x) in N.
  unfold name_bytes in *. unfold ser_name in H. set (s := c_string x) in *.
  destruct (zlen s <? 64) eqn:E.
  - rewrite (strnlen_string s); [|exact N|right; split; [unfold zlen in *; lia|exact H]]. cbn [bind].
    replace (zlen s =? 64) with false by lia. replace (zlen s =? n) with false by lia. cbn [negb].
    apply present_app in H. destruct H as [H1 H2]. rewrite (present_rd _ _ _ 1 H2 eq_refl). cbn [bind]. change (dec [Byte.x00] =? 0) with true. cbn [negb].
    rewrite (present_rd _ _ _ _ H1 eq_refl). cbn [bind]. replace (Z.min 64 (zlen s + 1)) with (zlen s + 1) by lia. reflexivity.
  - rewrite app_nil_r in H. rewrite (strnlen_string s); [|exact N|left; split; [unfold zlen in *; lia|exact H]]. cbn [bind].
    replace (zlen s =? 64) with true by lia. cbn [negb]. rewrite (present_rd _ _ _ _ H eq_refl). cbn [bind]. replace (Z.min 64 (zlen s + 1)) with (zlen s) by lia. reflexivity.
Qed.

(** ** descriptions and their length *)
Lemma sd_length a : forall b, same_description true a b -> description_length a = description_length b.
Proof.
  induction a as [a IHc IHs] using dti_induction. intros b H. apply sd_unfold in H. destruct H as [(T & NM & V & M) K].
  rewrite (dl_unfold a), (dl_unfold b). rewrite <- T, <- V. assert (NB : name_bytes (type_name a) = name_bytes (type_name b)) by (unfold name_bytes; rewrite NM; reflexivity). rewrite NB. f_equal. destruct (type a) eqn:Ta; auto.
  - f_equal. clear - IHs K. induction K as [|[p x] [q y] l r [A B] F IH]; [reflexivity|]. cbn [fst snd] in *.
    change (name_bytes (field_name p) + description_length x + dl_elements l = name_bytes (field_name q) + description_length y + dl_elements r).
    rewrite IH by (intros; eapply IHs; [right|]; eassumption). rewrite (IHs p x (or_introl eq_refl) y B). unfold name_bytes. rewrite (A eq_refl). reflexivity.
  - destruct K as (K1 & K2 & x & y & Ea & Eb & K3). rewrite Ea, Eb, <- K1, (IHc x Ea y K3). reflexivity.
Qed.

(** ** one step of the parser *)
Section Step.
  Variable (check : dti -> bool) (e : environment) (m : mem).
  Definition elements (deser : Z -> Z -> res (parsed dti)) (o n : Z) : nat -> Z -> Z -> res (parsed (list (position * dti))) :=
    fix elements (k : nat) (left c : Z) : res (parsed (list (position * dti))) :=
       if left =? 0 then Ok (Parsed [])
       else
         match k with
         | O => UB
         | S k' =>
             let* f := deserialize_name m (o + c) (u32 (n - c)) in
             match f with
             | None => Ok Failed
             | Some (fname, l) =>
                 let c1 := u32 (c + l) in
                 let* t := deser (o + c1) (u32 (n - c1)) in
                 match t with
                 | Failed => Ok Failed
                 | Rejected => Ok Rejected
                 | Parsed t =>
                     if negb (check t) then Ok Rejected
                     else
                       let t1 := snd (finalize t) in
                       let q := old_position e (o + c) in
                       let* r := elements k' (left - 1) (u32 (c1 + byte_count t1)) in
                       Ok (match r with
                           | Parsed cs => Parsed ((mk_position fname (p_off q) (p_valid q), t1) :: cs)
                           | Failed => Failed
                           | Rejected => Rejected
                           end)
                 end
             end
         end.
  Definition new_tuple (code o : Z) (ms : Z) (name : list byte) (cs : list (position * dti)) : dti :=
    let old := old_struct e o in
    mk_dti false name TUPLE (if code =? 128 then true else code =? 126)
      (is_variable_sized_ old) (size old) ms false (element_count_ old)
      (prefix_bitmap_size_in_bits old) (containee_ old) cs.
  Definition new_array (code v1 v2 : Z) (name : list byte) (t : dti) : dti :=
    if code <=? 130 then mk_dti false name ARRAY (code =? 129) false 0 0 false v1 0 (Some t) []
    else if code <=? 131 then mk_dti false name ARRAY true false 0 v2 false v1 0 (Some t) []
    else mk_dti false name ARRAY false false 0 v1 true 0 0 (Some t) [].
  Definition dispatch (code : Z) (fuel : nat) (o n : Z) : res (parsed dti) :=
      match (if 2 <=? n then numeral_code code else None) with
      | Some (ty, nu, limit) => deserialize_numeral e m ty nu limit o n
      | None =>
        if (5 <? code) && (code <=? 11) then
          let* r := deserialize_name m (o + 1) (u32 (n - 1)) in
          match r with
          | None => Ok Failed
          | Some (name, _) =>
              Ok (Parsed (if code <=? 8 then float_type e true (code - 5) name
                          else float_type e false (code - 8) name))
          end
        else if (120 <=? code) && (code <=? 122) then deserialize_string m STRING (code - 120) o n
        else if (123 <=? code) && (code <=? 125) then deserialize_string m BINARY (code - 123) o n
        else if (126 <=? code) && (code <=? 128) then
          let* h := read_header m o n (code =? 128) in
          match h with
          | None => Ok Failed
          | Some (count, ms, name, c) =>
              let* cs := elements (deserialize check e m fuel) o n fuel count c in
              Ok (match cs with
                  | Parsed cs => Parsed (new_tuple code o ms name cs)
                  | Failed => Failed
                  | Rejected => Rejected
                  end)
          end
        else if (129 <=? code) && (code <=? 132) then
          let* h := read_header m o n (code =? 131) in
          match h with
          | None => Ok Failed
          | Some (v1, v2, name, c) =>
              let* t := deserialize check e m fuel (o + c) (u32 (n - c)) in
              Ok (match t with
                  | Parsed t => Parsed (new_array code v1 v2 name t)
                  | Failed => Failed
                  | Rejected => Rejected
                  end)
          end
        else Ok Failed
      end.
  Lemma deserialize_S fuel o n : deserialize check e m (S fuel) o n =
    if n <? 1 then Ok Failed else let* b := rd m o 1 in dispatch (dec b) fuel o n.
  Proof. reflexivity. Qed.
End Step.

(** the memory [malloc] returns has some values of the types of the fields *)
Definition valid_environment (e : environment) : Prop :=
  forall o, 0 <= size (old_struct e o) < 4294967296 /\ 0 <= element_count_ (old_struct e o) < 4294967296.

Lemma sd_built d t : wf d -> same_description true d t -> is_finalized t = false ->
  0 <= size t < 4294967296 -> 0 <= max_size t <= max_bytes -> 0 <= element_count_ t < 4294967296 -> zlen (containees t) < 4294967296 ->
  (forall c, type t = ARRAY -> containee_ t = Some c -> type_built c) ->
  (forall p c, type t = TUPLE -> In (p, c) (containees t) -> type_built c) -> type_built t.
Proof.
  intros W D F S1 M E Z0 A1 A2. destruct (sd_sizes _ _ _ D) as [TS _]. pose proof (wf_limits d W) as L. apply limits_unfold in L. destruct L as (_ & _ & _ & L & _).
  apply sd_unfold in D. destruct D as [(T & _) K].
  apply tb_new; auto.
  - apply limits_unfold. split; [lia|]. split; [lia|]. split; [lia|]. split.
    + intro B. rewrite <- TS. apply L. unfold is_bit_field in *. rewrite T. exact B.
    + destruct (type t) eqn:Tt; trivial.
      * intros p c I. apply built_good. eauto.
      * intros c Ec. apply built_good. eauto.
  - intros Tt Ec. rewrite T, Tt in K. destruct K as (_ & _ & x & y & _ & Ey & _). congruence.
Qed.

(** a nested type that was read finalizes to a type of the same description *)
Lemma reread c t : wf c -> same_description true c t -> type_built t -> description_length c < 4294967296 ->
  exists t1, finalize t = (true, t1) /\ wf t1 /\ same_description true c t1 /\ type_built t1 /\ byte_count t1 = description_length c.
Proof.
  intros W D B L. destruct (built_good t B) as [Sd Lm].
  pose proof (acceptable_finalize t Sd Lm (sd_acceptable _ _ _ D (wf_acceptable c W))) as F.
  destruct (finalize t) as [ok t1] eqn:E. cbn [fst] in F. subst ok. exists t1. split; [reflexivity|].
  destruct (finalize_wf t t1 Sd Lm E) as [W1 _]. split; [exact W1|].
  assert (D1 : same_description true c t1) by (eapply sd_trans; [exact D|eapply finalize_sd; eauto]).
  split; [exact D1|]. split; [eapply tb_finalized; eauto|].
  rewrite (sd_length _ _ D1) in *. apply byte_count_ok; [exact W1|exact L].
Qed.

Definition reads (e : environment) (d : dti) : Prop := forall m o n fuel, present m o (ser d) -> zlen (ser d) <= n < 4294967296 -> zlen (ser d) < Z.of_nat fuel ->
  exists t, deserialize (fun _ => true) e m fuel o n = Ok (Parsed t) /\ same_description true d t /\ type_built t.

Lemma read_elements e m o n fuel cs : forall k c0, (forall p c, In (p, c) cs -> wf c) -> (forall p c, In (p, c) cs -> reads e c) -> 0 <= c0 -> 
  present m (o + c0) (ser_elements cs) -> c0 + zlen (ser_elements cs) <= n < 4294967296 ->
  zlen (ser_elements cs) < Z.of_nat fuel -> zlen (ser_elements cs) <= Z.of_nat k ->
  exists cs', elements (fun _ => true) e m (deserialize (fun _ => true) e m fuel) o n k (zlen cs) c0 = Ok (Parsed cs')
    /\ sd_elements true cs cs' /\ zlen cs' = zlen cs /\ (forall p c, In (p, c) cs' -> type_built c).
Proof.
  induction cs as [|[p c] cs IH]; intros k c0 W R C0 H N F K.
  - exists []. split; [destruct k; reflexivity|]. split; [constructor|]. split; [reflexivity|intros p c []].
  - change (ser_elements ((p, c) :: cs)) with (ser_name (field_name p) ++ ser c ++ ser_elements cs) in *.
    rewrite !zlen_app in *. apply present_app in H. destruct H as [H1 H]. apply present_app in H. destruct H as [H2 H3].
    destruct (name_count_bytes (field_name p)) as (_ & E & NR). rewrite <- E in *.
    pose proof (zlen_ser c (W p c (or_introl eq_refl))) as LC. pose proof (dl_pos c). pose proof (zlen_nonneg (ser_elements cs)). pose proof (zlen_nonneg cs).
    destruct k as [|k]; [lia|]. cbn [elements]. rewrite zlen_cons. replace (1 + zlen cs =? 0) with false by lia.
    rewrite u32_id by lia. rewrite (deserialize_name_ok _ _ _ (field_name p)) by (try exact H1; lia). cbn [bind].
    rewrite (u32_id (c0 + name_bytes (field_name p))) by lia. rewrite (u32_id (n - _)) by lia.
    destruct (R p c (or_introl eq_refl) m (o + (c0 + name_bytes (field_name p))) (n - (c0 + name_bytes (field_name p))) fuel) as (t & Et & Dt & Bt); [rewrite Z.add_assoc; exact H2|lia|lia|].
    rewrite Et. cbn [bind negb].
    destruct (reread c t (W p c (or_introl eq_refl)) Dt Bt ltac:(lia)) as (t1 & Ef & W1 & D1 & B1 & BC). rewrite Ef. cbn [snd]. rewrite BC, u32_id by lia.
    fold (elements (fun _ => true) e m (deserialize (fun _ => true) e m fuel) o n).
    destruct (IH k (c0 + name_bytes (field_name p) + description_length c)) as (cs' & Ee & De & Le & Be); try lia.
    + intros; eapply W; right; eassumption.
    + intros; eapply R; right; eassumption.
    + rewrite LC in H3. replace (o + (c0 + name_bytes (field_name p) + description_length c)) with (o + c0 + name_bytes (field_name p) + description_length c) by lia. exact H3.
    + replace (1 + zlen cs - 1) with (zlen cs) by lia. rewrite Ee. cbn [bind]. eexists. split; [reflexivity|]. split.
      * constructor; [|exact De]. cbn [fst snd field_name]. split; [intros _; symmetry; apply c_string_id|exact D1].
      * split; [rewrite !zlen_cons; lia|]. intros q x [I|I]; [injection I as _ <-; exact B1|eauto].
Qed.

Lemma dec1 v : 0 <= v < 256 -> dec [z2b v] = v.
Proof. intro. cbn [dec]. rewrite b2z_z2b, Z.mod_small by lia. lia. Qed.
Lemma deserialize_code check e m fuel o n code : present m o [z2b code] -> 0 <= code < 256 -> 1 <= n ->
  deserialize check e m (S fuel) o n = dispatch check e m code fuel o n.
Proof. intros H C N. rewrite deserialize_S. replace (n <? 1) with false by lia. rewrite (present_rd _ _ _ 1 H eq_refl). cbn [bind]. rewrite dec1 by lia. reflexivity. Qed.
Lemma read_u32_ok m o n c v : present m (o + c) (enc 4 v) -> 0 <= v < 4294967296 -> 0 <= c -> c + 4 <= n < 4294967296 -> read_u32 m o n c = Ok (Some v).
Proof.
  intros H V C N. unfold read_u32. rewrite u32_id by lia. replace (n <? c + 4) with false by lia.
  rewrite (present_rd _ _ _ 4 H (eq_sym (zlen_enc 4 v))). cbn [bind]. rewrite dec_enc_id by (cbn; lia). reflexivity.
Qed.

(** ** numerals *)
Lemma deserialize_numeral_ok e m o n ty nu limit sz x : present m (o + 1) [z2b sz] -> present m (o + 2) (ser_name x) -> 1 <= sz <= limit -> limit <= 64 ->
  2 + name_bytes x <= n < 4294967296 -> deserialize_numeral e m ty nu limit o n = Ok (Parsed (numeral_type e ty nu sz (c_string x))).
Proof.
  intros H1 H2 L1 L2 N. destruct (name_count_bytes x) as (_ & _ & R). unfold deserialize_numeral. rewrite (present_rd _ _ _ 1 H1 eq_refl). cbn [bind]. rewrite dec1 by lia.
  replace ((sz <? 1) || (limit <? sz)) with false by lia. rewrite u32_id by lia. rewrite (deserialize_name_ok _ _ _ x) by (try exact H2; lia). reflexivity.
Qed.
Lemma numeral_type_good e d : wf d -> is_container_type_info d = false -> let t := numeral_type e (type d) (is_nullable d) (size d) (c_string (type_name d)) in
  same_description true d t /\ type_built t.
Proof.
  intros W C t. pose proof (wf_limits d W) as L. apply limits_unfold in L. destruct L as (L1 & L2 & L3 & _). pose proof (wf_acceptable d W) as AC.
  destruct (t_size_num d C) as [_ V].
  assert (D : forall fn, same_description true d (mk_dti fn (c_string (type_name d)) (type d) (is_nullable d) false (size d) 0 false 0 0 None [])).
  { intro fn. apply sd_unfold. split.
    - split; [reflexivity|]. split; [symmetry; apply c_string_id|]. rewrite V. destruct (t_size_num (mk_dti fn (c_string (type_name d)) (type d) (is_nullable d) false (size d) 0 false 0 0 None []) C) as [_ ->]. auto.
    - unfold is_container_type_info in C. destruct (type d); try reflexivity; discriminate. }
  split; [apply D|]. unfold t, numeral_type in *. clear t.
  assert (B : type_built (mk_dti false (c_string (type_name d)) (type d) (is_nullable d) false (size d) 0 false 0 0 None [])).
  { apply (sd_built d); cbn [size max_size element_count_ containees containee_ is_finalized type]; auto; unfold max_bytes; rewrite ?zlen_nil; try lia; [discriminate|intros p c _ []]. }
  destruct (match c_string (type_name d) with [] => static_finalized e (type d) (is_nullable d) (size d) | _ => false end); [|exact B].
  eapply tb_finalized; [exact B|]. destruct (reread d _ W (D false) B) as (t1 & E & _).
  { rewrite dl_unfold. destruct (name_count_bytes (type_name d)) as (_ & _ & R). unfold is_container_type_info in C. destruct (type d); try discriminate; lia. }
  rewrite E. f_equal. unfold is_container_type_info in C.
  destruct (type d); try discriminate; cbn [finalize is_finalized type has_variable_element_count prefix_bitmap_size_in_bits size containee_ containees] in E;
  match type of E with (if ?c then _ else _) = _ => destruct c; [injection E as <-; reflexivity|discriminate E] end.
Qed.

Lemma string_type_good d t : wf d -> type d = STRING \/ type d = BINARY -> type t = type d -> type_name t = c_string (type_name d) ->
  has_variable_element_count t = has_variable_element_count d ->
  (if has_variable_element_count d then max_size t = max_size d else is_nullable t = is_nullable d /\ element_count_ t = element_count_ d) ->
  is_finalized t = false -> containees t = [] -> 0 <= size t < 4294967296 -> 0 <= max_size t <= max_bytes -> 0 <= element_count_ t < 4294967296 ->
  same_description true d t /\ type_built t.
Proof.
  intros W T T' NM V K F C S0 M EC. destruct (t_size_string d T) as [_ V1]. destruct (t_size_string t) as [_ V2]; [rewrite T'; exact T|].
  assert (D : same_description true d t).
  { apply sd_unfold. split.
    - split; [auto|]. split; [rewrite NM; symmetry; apply c_string_id|]. split; [congruence|]. rewrite V1. destruct (has_variable_element_count d); [auto|]. symmetry. apply K.
    - rewrite V1. destruct T as [-> | ->]; intro E; rewrite E in K; symmetry; apply K. }
  split; [exact D|]. apply (sd_built d); auto; rewrite ?C, ?zlen_nil; try lia.
  - intros c E. destruct T; congruence.
  - intros p c _ [].
Qed.
Lemma string_ok d m o n : wf d -> type d = STRING \/ type d = BINARY ->
  present m (o + 1) (enc 4 (if is_variable_sized_ d then max_size d else element_count_ d)) -> present m (o + 5) (ser_name (type_name d)) ->
  5 + name_bytes (type_name d) <= n < 4294967296 ->
  exists t, deserialize_string m (type d) (if is_variable_sized_ d then 2 else if is_nullable d then 0 else 1) o n = Ok (Parsed t)
    /\ same_description true d t /\ type_built t.
Proof.
  intros W T H1 H2 N. destruct (name_count_bytes (type_name d)) as (_ & _ & R). pose proof (wf_limits d W) as L. apply limits_unfold in L. destruct L as (L1 & L2 & L3 & _).
  destruct (wf_spec d W) as [TV _]. destruct (t_size_string d T) as [_ V]. rewrite TV in V. unfold max_bytes in *. unfold deserialize_string.
  rewrite (read_u32_ok _ _ _ _ _ H1) by (destruct (is_variable_sized_ d); lia). cbn [bind]. rewrite u32_id by lia.
  rewrite (deserialize_name_ok _ _ _ (type_name d)) by (try exact H2; lia). cbn [bind]. eexists. split; [reflexivity|].
  destruct (is_variable_sized_ d); [|destruct (is_nullable d) eqn:NL]; cbn -[Z.le Z.lt]; apply string_type_good; cbn -[max_bytes Z.le Z.lt]; auto; try rewrite <- V; auto; unfold max_bytes; try lia; try rewrite NL; auto.
Qed.
Lemma dispatch_string check e m code fuel o n : 120 <= code <= 122 -> dispatch check e m code fuel o n = deserialize_string m STRING (code - 120) o n.
Proof. intro C. assert (K : code = 120 \/ code = 121 \/ code = 122) by lia. destruct K as [->|[->| ->]]; unfold dispatch; destruct (2 <=? n); reflexivity. Qed.
Lemma dispatch_binary check e m code fuel o n : 123 <= code <= 125 -> dispatch check e m code fuel o n = deserialize_string m BINARY (code - 123) o n.
Proof. intro C. assert (K : code = 123 \/ code = 124 \/ code = 125) by lia. destruct K as [->|[->| ->]]; unfold dispatch; destruct (2 <=? n); reflexivity. Qed.
Lemma dispatch_tuple check e m code fuel o n : 126 <= code <= 128 -> dispatch check e m code fuel o n =
  let* h := read_header m o n (code =? 128) in
  match h with
  | None => Ok Failed
  | Some (count, ms, name, c) =>
      let* cs := elements check e m (deserialize check e m fuel) o n fuel count c in
      Ok (match cs with
          | Parsed cs => Parsed (new_tuple e code o ms name cs)
          | Failed => Failed
          | Rejected => Rejected
          end)
  end.
Proof. intro C. assert (K : code = 126 \/ code = 127 \/ code = 128) by lia. destruct K as [->|[->| ->]]; unfold dispatch; destruct (2 <=? n); reflexivity. Qed.
Lemma dispatch_array check e m code fuel o n : 129 <= code <= 132 -> dispatch check e m code fuel o n =
  let* h := read_header m o n (code =? 131) in
  match h with
  | None => Ok Failed
  | Some (v1, v2, name, c) =>
      let* t := deserialize check e m fuel (o + c) (u32 (n - c)) in
      Ok (match t with
          | Parsed t => Parsed (new_array code v1 v2 name t)
          | Failed => Failed
          | Rejected => Rejected
          end)
  end.
Proof. intro C. assert (K : code = 129 \/ code = 130 \/ code = 131 \/ code = 132) by lia. destruct K as [->|[->|[->| ->]]]; unfold dispatch; destruct (2 <=? n); reflexivity. Qed.
Lemma sd_anyv f l r : sd_elements f l r -> anyv l = anyv r.
Proof.
  induction 1 as [|[p x] [q y] l r [_ A] F IH]; [reflexivity|]. cbn [snd] in A. apply sd_unfold in A. destruct A as ((_ & _ & V & _) & _).
  change (t_variable x || anyv l = t_variable y || anyv r). rewrite V, IH. reflexivity.
Qed.
(** ** everything *)
Lemma read_header_ok m o n two v1 v2 x : present m (o + 1) (enc 4 v1) -> 0 <= v1 < 4294967296 -> 
  (two = true -> present m (o + 5) (enc 4 v2) /\ 0 <= v2 < 4294967296) -> let c := if two then 9 else 5 in
  present m (o + c) (ser_name x) -> c + name_bytes x <= n < 4294967296 ->
  read_header m o n two = Ok (Some (v1, if two then v2 else 0, c_string x, c + name_bytes x)).
Proof.
  intros H1 V1 H2 c H3 N. destruct (name_count_bytes x) as (_ & _ & R). unfold read_header.
  assert (C : 5 <= c <= 9) by (unfold c; destruct two; lia).
  rewrite (read_u32_ok _ _ _ _ v1) by (try exact H1; lia). cbn [bind]. fold c.
  assert (E2 : (if two then read_u32 m o n 5 else Ok (Some 0)) = Ok (Some (if two then v2 else 0))).
  { destruct two; [|reflexivity]. destruct (H2 eq_refl). subst c. apply read_u32_ok; auto; lia. }
  rewrite E2. cbn [bind]. rewrite u32_id by lia. rewrite (deserialize_name_ok _ _ _ x) by (try exact H3; lia). cbn [bind]. rewrite u32_id by lia. reflexivity.
Qed.

Lemma deserialize_ok e d : valid_environment e -> wf d -> reads e d.
Proof.
  intro VE. induction d as [d IHc IHs] using dti_induction. intro W. pose proof W as W0. destruct (wf_spec d W) as [TV _]. apply wf_unfold in W. destruct W as [N W].
  intros m o n fuel H L F. pose proof (zlen_nonneg (ser d)). destruct fuel as [|fuel]; [lia|]. rewrite (ser_unfold d) in *.
  destruct (name_count_bytes (type_name d)) as (_ & E & R). rewrite !zlen_app, <- E in L, F.
  apply present_app in H. destruct H as [H H3]. apply present_app in H. destruct H as [H1 H2]. rewrite zlen_app in H3. rewrite <- E in H3.
  unfold node_ok in N. unfold ser_head in *. destruct N as (_ & N0 & N1 & N2 & N3 & N4 & N).
  assert (NUM : is_container_type_info d = false -> is_nullable_type_info d = is_nullable d).
  { intro C. unfold is_nullable_type_info, is_variable_sized_type_info. destruct (t_size_num d C) as [_ V]. rewrite <- TV, V. reflexivity. }
  destruct (type d) eqn:T.
  1-3, 5-6: (pose proof (numeral_type_good e d W0) as G; unfold is_container_type_info in G, NUM; rewrite T in G, NUM; destruct (G eq_refl) as [G1 G2];
    unfold nul in *; rewrite (NUM eq_refl) in *; rewrite ?zlen_app, ?zlen_1, ?zlen_nil in *; apply present_app in H1; destruct H1 as [HB H1]; rewrite zlen_1 in H1;
    destruct N as [N N'];
    eexists; split; [|split; [exact G1|exact G2]];
    (destruct (is_nullable d); rewrite (deserialize_code _ _ _ _ _ _ _ HB) by lia; unfold dispatch; replace (2 <=? n) with true by lia; cbn -[deserialize_numeral numeral_type];
     (apply deserialize_numeral_ok; [exact H1|exact H2|lia|lia|lia]))).
  1: { pose proof (numeral_type_good e d W0) as G; unfold is_container_type_info in G, NUM; rewrite T in G, NUM; destruct (G eq_refl) as [G1 G2].
    rewrite (NUM eq_refl) in *. rewrite ?zlen_1, ?zlen_nil in *. destruct N as [N N'].
    eexists. split; [|split; [exact G1|exact G2]].
    destruct N' as [Sz|Sz]; rewrite Sz in *; cbn [Z.eqb Pos.eqb] in H1; (destruct (is_nullable d);
      rewrite (deserialize_code _ _ _ _ _ _ _ H1) by lia; unfold dispatch; replace (2 <=? n) with true by lia; cbn -[numeral_type u32];
      rewrite u32_id, (deserialize_name_ok _ _ _ (type_name d)) by (try exact H2; lia); reflexivity). }
  - assert (HB : exists code, present m o [z2b code] /\ 120 <= code <= 122 /\ code - 120 = (if is_variable_sized_ d then 2 else if is_nullable d then 0 else 1)
                   /\ present m (o + 1) (enc 4 (if is_variable_sized_ d then max_size d else element_count_ d)) /\ present m (o + 5) (ser_name (type_name d)) /\ 5 + name_bytes (type_name d) <= n).
    { unfold nul, is_nullable_type_info, is_variable_sized_type_info in *. destruct (is_variable_sized_ d); cbn [negb orb] in *;
        rewrite ?zlen_app, ?zlen_1, ?zlen_enc, ?zlen_nil in *; apply present_app in H1; destruct H1 as [HB H1]; rewrite zlen_1 in H1;
        eexists; (split; [exact HB|]); (split; [destruct (is_nullable d); lia|]); (split; [destruct (is_nullable d); lia|]); (split; [exact H1|]); (split; [exact H2|lia]). }
    destruct HB as (code & HB & CR & EC & HN & HM & LN). rewrite (deserialize_code _ _ _ _ _ _ _ HB) by lia. rewrite dispatch_string, EC, <- T by lia.
    apply string_ok; auto; lia.
  - assert (HB : exists code, present m o [z2b code] /\ 123 <= code <= 125 /\ code - 123 = (if is_variable_sized_ d then 2 else if is_nullable d then 0 else 1)
                   /\ present m (o + 1) (enc 4 (if is_variable_sized_ d then max_size d else element_count_ d)) /\ present m (o + 5) (ser_name (type_name d)) /\ 5 + name_bytes (type_name d) <= n).
    { unfold nul, is_nullable_type_info, is_variable_sized_type_info in *. destruct (is_variable_sized_ d); cbn [negb orb] in *;
        rewrite ?zlen_app, ?zlen_1, ?zlen_enc, ?zlen_nil in *; apply present_app in H1; destruct H1 as [HB H1]; rewrite zlen_1 in H1;
        eexists; (split; [exact HB|]); (split; [destruct (is_nullable d); lia|]); (split; [destruct (is_nullable d); lia|]); (split; [exact H1|]); (split; [exact H2|lia]). }
    destruct HB as (code & HB & CR & EC & HN & HM & LN). rewrite (deserialize_code _ _ _ _ _ _ _ HB) by lia. rewrite dispatch_binary, EC, <- T by lia.
    apply string_ok; auto; lia.
  - assert (HB : exists code, present m o [z2b code] /\ 126 <= code <= 128 /\ (code =? 128) = is_variable_sized_ d /\ (is_variable_sized_ d = false -> (code =? 126) = is_nullable d)
                   /\ present m (o + 1) (enc 4 (zlen (containees d))) /\ (is_variable_sized_ d = true -> present m (o + 5) (enc 4 (max_size d)))
                   /\ let c := if is_variable_sized_ d then 9 else 5 in present m (o + c) (ser_name (type_name d)) /\ present m (o + (c + name_bytes (type_name d))) (ser_elements (containees d))
                      /\ c + name_bytes (type_name d) + zlen (ser_elements (containees d)) <= n
                      /\ zlen (ser_elements (containees d)) < Z.of_nat fuel).
    { unfold nul, is_nullable_type_info, is_variable_sized_type_info in *. destruct (is_variable_sized_ d); cbn [negb orb] in *;
        rewrite ?zlen_app, ?zlen_1, ?zlen_enc, ?zlen_nil in *; apply present_app in H1; destruct H1 as [HB H1].
      - apply present_app in HB. destruct HB as [HA HB]. rewrite ?zlen_app, ?zlen_1, ?zlen_enc in *. exists 128.
        split; [exact HA|]. split; [lia|]. split; [reflexivity|]. split; [discriminate|]. split; [exact HB|]. split; [intros _; exact H1|]. cbn zeta.
        split; [exact H2|]. split; [exact H3|]. lia.
      - rewrite zlen_1 in H1. eexists. split; [exact HB|]. split; [destruct (is_nullable d); lia|]. split; [destruct (is_nullable d); lia|]. split; [intros _; destruct (is_nullable d); lia|].
        split; [exact H1|]. split; [discriminate|]. cbn zeta. split; [exact H2|]. split; [exact H3|]. lia. }
    destruct HB as (code & HB & CR & CV & CN & HC & HM & HN & HE & LN & LF). cbn zeta in *.
    pose proof (zlen_nonneg (ser_elements (containees d))). pose proof (zlen_nonneg (containees d)).
    destruct N as (M1 & M2 & M3 & _).
    rewrite (deserialize_code _ _ _ _ _ _ _ HB) by (destruct (is_variable_sized_ d); lia). rewrite dispatch_tuple, CV by lia.
    rewrite (read_header_ok _ _ _ _ (zlen (containees d)) (max_size d) (type_name d)); [|exact HC|lia|intro V; unfold max_bytes in *; split; [auto|lia]|exact HN|lia].
    cbn [bind]. set (c := (if is_variable_sized_ d then 9 else 5) + name_bytes (type_name d)) in *.
    assert (CP : 0 <= c) by (unfold c; destruct (is_variable_sized_ d); lia).
    destruct (read_elements e m o n fuel (containees d) fuel c) as (cs' & Ee & De & Le & Be); try lia; auto.
    { intros p x I. apply (IHs p x I (W p x I)). }
    rewrite Ee. cbn [bind]. eexists. split; [reflexivity|].
    set (t := new_tuple e code o (if is_variable_sized_ d then max_size d else 0) (c_string (type_name d)) cs').
    assert (VT : t_variable t = is_variable_sized_ d).
    { rewrite <- TV, (t_variable_tuple d T), (sd_anyv _ _ _ De). apply (t_variable_tuple t eq_refl). }
    assert (D : same_description true d t).
    { apply sd_unfold. split.
      - split; [exact T|]. split; [symmetry; apply c_string_id|]. rewrite VT. split; [exact TV|]. rewrite TV.
        unfold t, new_tuple. cbn [max_size is_nullable]. destruct (is_variable_sized_ d); [reflexivity|]. rewrite CV, (CN eq_refl). reflexivity.
      - rewrite T. exact De. }
    split; [exact D|]. destruct (VE o) as [VE1 VE2]. apply (sd_built d); auto; unfold t, new_tuple; cbn [size max_size element_count_ containees containee_ is_finalized type]; auto.
    + unfold max_bytes in *. destruct (is_variable_sized_ d); lia.
    + lia.
    + discriminate.
    + intros p x _ I. eauto.
  - destruct N as (x & Ex & V & EC & _). rewrite Ex in *.
    assert (HB : exists code v1, present m o [z2b code] /\ 129 <= code <= 132 /\ present m (o + 1) (enc 4 v1) /\ 0 <= v1 < 4294967296
        /\ (code = 131 -> present m (o + 5) (enc 4 (max_size d)))
        /\ (let c := if code =? 131 then 9 else 5 in present m (o + c) (ser_name (type_name d)) /\ present m (o + (c + name_bytes (type_name d))) (ser x)
                      /\ c + name_bytes (type_name d) + zlen (ser x) <= n
                      /\ zlen (ser x) < Z.of_nat fuel)
        /\ (if is_variable_sized_ d then if has_variable_element_count d then code = 132 /\ v1 = max_size d else code = 131 /\ v1 = element_count_ d
            else v1 = element_count_ d /\ code = if is_nullable d then 129 else 130)).
    { unfold nul, is_nullable_type_info, is_variable_sized_type_info in *. unfold max_bytes in *. destruct (is_variable_sized_ d); [destruct (has_variable_element_count d)|]; cbn [negb orb] in *;
        rewrite ?zlen_app, ?zlen_1, ?zlen_enc, ?zlen_nil in *; apply present_app in H1; destruct H1 as [HB H1].
      - rewrite zlen_1 in H1. exists 132, (max_size d). repeat (split; [first [exact HB|exact H1|lia]|]). split; [cbn [Z.eqb Pos.eqb]; cbv zeta; split; [exact H2|]; split; [exact H3|lia]|auto].
      - apply present_app in HB. destruct HB as [HA HB]. rewrite ?zlen_app, ?zlen_1, ?zlen_enc in *. exists 131, (element_count_ d).
        repeat (split; [first [exact HA|exact HB|intros _; exact H1|lia]|]). split; [cbn [Z.eqb Pos.eqb]; cbv zeta; split; [exact H2|]; split; [exact H3|lia]|auto].
      - rewrite zlen_1 in H1. exists (if is_nullable d then 129 else 129 + 1), (element_count_ d). split; [exact HB|]. split; [destruct (is_nullable d); lia|]. split; [exact H1|]. split; [lia|]. split; [intro; exfalso; destruct (is_nullable d); lia|].
        split; [|split; [reflexivity|destruct (is_nullable d); reflexivity]]. replace ((if is_nullable d then 129 else 129 + 1) =? 131) with false by (destruct (is_nullable d); reflexivity).
        split; [exact H2|]. split; [exact H3|]. lia. }
    destruct HB as (code & v1 & HB & CR & HC & VR & HM & (HN & HE & LN & LF) & CASE). cbn zeta in *.
    pose proof (zlen_nonneg (ser x)).
    rewrite (deserialize_code _ _ _ _ _ _ _ HB) by (destruct (code =? 131); lia). rewrite dispatch_array by lia.
    rewrite (read_header_ok _ _ _ _ v1 (max_size d) (type_name d)); [|exact HC|lia|intro V'; unfold max_bytes in *; split; [apply HM; lia|lia]|exact HN|lia].
    cbn [bind]. set (c := (if code =? 131 then 9 else 5) + name_bytes (type_name d)) in *.
    assert (CP : 0 <= c) by (unfold c; destruct (code =? 131); lia). rewrite u32_id by lia.
    destruct (IHc x eq_refl (W x eq_refl) m (o + c) (n - c) fuel HE) as (y & Ey & Dy & By); [lia|lia|].
    rewrite Ey. cbn [bind]. eexists. split; [reflexivity|].
    set (t := new_array code v1 (if code =? 131 then max_size d else 0) (c_string (type_name d)) y).
    pose proof (proj2 (proj2 (proj1 (proj1 (sd_unfold _ _ _) Dy)))) as VY. destruct VY as [VY _].
    assert (TT : type t = ARRAY /\ containee_ t = Some y /\ is_finalized t = false /\ containees t = [] /\ size t = 0 /\ type_name t = c_string (type_name d)).
    { unfold t, new_array. destruct (code <=? 130); [|destruct (code <=? 131)]; auto 10. }
    destruct TT as (TT1 & TT2 & TT3 & TT4 & TT5 & TT6).
    pose proof (t_variable_array t y TT1 TT2) as VT. rewrite <- VY in VT. pose proof (t_variable_array d x T Ex) as VD. rewrite TV in VD.
    assert (D : same_description true d t /\ 0 <= max_size t <= max_bytes /\ 0 <= element_count_ t < 4294967296).
    { assert (Q : has_variable_element_count d = has_variable_element_count t /\ (if is_variable_sized_ d then max_size d = max_size t else is_nullable d = is_nullable t)
                 /\ (has_variable_element_count d = false -> element_count_ d = element_count_ t) /\ 0 <= max_size t <= max_bytes /\ 0 <= element_count_ t < 4294967296).
      { unfold t, new_array, max_bytes in *. destruct (is_variable_sized_ d).
        - destruct (has_variable_element_count d); destruct CASE as [-> ->]; cbn -[Z.le Z.lt]; repeat split; auto; try lia; discriminate.
        - destruct CASE as [-> ->]. symmetry in VD. apply orb_false_iff in VD. destruct VD as [-> _]. destruct (is_nullable d); cbn -[Z.le Z.lt]; repeat split; auto; lia. }
      destruct Q as (Q1 & Q2 & Q3 & Q4). split; [|exact Q4].
      apply sd_unfold. split.
      - split; [congruence|]. split; [rewrite TT6; symmetry; apply c_string_id|]. rewrite TV. split; [rewrite VT, VD, Q1; reflexivity|exact Q2].
      - rewrite T. split; [exact Q1|]. split; [exact Q3|]. exists x, y. auto. }
    destruct D as (D & D1 & D2). split; [exact D|]. apply (sd_built d); auto.
    + rewrite TT5. lia.
    + rewrite TT4, zlen_nil. lia.
    + intros z _ Ez. congruence.
    + rewrite TT4. intros p z _ [].
Qed.
