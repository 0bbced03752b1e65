(** * Operations on nested elements *)
From Verif Require Export ContainerSet Expand Discard.
From Coq Require Import ZifyBool ZifyNat ZifyN Zify.
Ltac Zify.zify_post_hook ::= Z.div_mod_to_equations.

Lemma keep_bat (P : Z -> Prop) m m' x : keep P m m' -> 0 <= x < zlen m -> P x -> bat m' x = bat m x.
Proof. intros [_ K] X p. apply K; auto. Qed.

(** ** replacing the bytes of an element by as many others *)
Lemma cv_replace d m o s es m' i c c' : container d -> cv d m o s es -> 0 <= i -> nth_error es (Z.to_nat i) = Some (CBytes c) ->
  zlen c' = zlen c -> get_size (etype d i) c' 0 = Ok (zlen c') ->
  let a := addr d (zlen es) m o i in
  keep (fun x => x < a \/ a + zlen c <= x) m m' -> slice m' a (zlen c) = c' ->
  cv d m' o s (lset es (Z.to_nat i) (CBytes c')).
Proof.
  intros CT V I En Lc Gc a K Sc. pose proof (znth_some _ _ _ En) as IL. assert (I' : 0 <= i < zlen es) by lia.
  destruct (cv_chunk d m o s es i c CT V I En) as (A1 & A2 & A3 & A4 & A5 & A6 & A7). fold a in A1, A2, A3.
  pose proof (cv_bounds d m o s es CT V) as B. pose proof CT as [W C]. pose proof (cv_o _ _ _ _ _ V) as Ho. pose proof (cv_s _ _ _ _ _ V) as Hs.
  pose proof (cv_el _ _ _ _ _ V i _ I En) as (E1 & _ & E3 & E4). pose proof (cv_etype_wf d m o s es i CT V I') as Wt.
  pose proof (pbo_range d) as (P1 & P2 & P3 & P4 & P5 & P6). pose proof (vs_range d) as VS. pose proof (keep_len _ _ _ K) as L.
  pose proof (slot_in d m o s es i CT V I') as SI. pose proof (eslot_nonneg d m o s es i CT V I') as EN.
  assert (AF : is_variable_sized_ (etype d i) = false -> a = o + so d (zlen es) i) by (intro F; unfold a, addr; rewrite F; reflexivity).
  assert (AV : is_variable_sized_ (etype d i) = true -> a = o + slot d (zlen es) m o i /\ o + FS d (zlen es) <= a) by (intro F; destruct (E3 F); unfold a, addr; rewrite F; lia).
  assert (BITS : forall b, 0 <= b < sb d (zlen es) -> bitat m' (o + pbo d) b = bitat m (o + pbo d) b).
  { intros b Hb. unfold bitat. assert (b / 8 < bitmap_size_in_bytes (sb d (zlen es))) by (unfold bitmap_size_in_bytes; lia).
    rewrite (keep_bat _ _ _ _ K) by lia. reflexivity. }
  assert (SLT : forall j, 0 <= j < zlen es -> j <> i \/ is_variable_sized_ (etype d i) = true ->
     slice m' (o + so d (zlen es) j) (eslot (max_size d) (etype d j)) = slice m (o + so d (zlen es) j) (eslot (max_size d) (etype d j))).
  { intros j J N. pose proof (slot_in d m o s es j CT V J) as SJ. pose proof (eslot_nonneg d m o s es j CT V J).
    apply (keep_slice _ _ _ _ _ K); try lia.
    destruct (is_variable_sized_ (etype d i)) eqn:Vi; [destruct (AV eq_refl); cbn beta; intros; lia|].
    destruct N as [N|N]; [|discriminate]. specialize (AF eq_refl). specialize (E4 eq_refl).
    pose proof (slots_apart d m o s es i j CT V I' J (not_eq_sym N)). rewrite (eslot_fixed _ _ A4 Vi) in *. cbn beta. intros; lia. }
  apply (cv_update d m o s es CT V m' s i (CBytes c) (CBytes c') I En).
  - lia.
  - intro VC. specialize (P3 VC). apply (keep_slice _ _ _ _ _ K); lia.
  - intro HS. specialize (P4 HS). rewrite <- (cv_size _ _ _ _ _ V HS). f_equal. apply (keep_slice _ _ _ _ _ K); lia.
  - apply (cv_max _ _ _ _ _ V).
  - unfold clen. destruct (is_variable_sized_ (etype d i)); lia.
  - split; [|split; [exact A4|split]].
    + intro Nv. transitivity (bitat m (o + pbo d) (sb d i)); [|exact (E1 Nv)]. destruct (sb_before d _ i (zlen es) W C (cv_n _ _ _ _ _ V) ltac:(lia) ltac:(lia) ltac:(lia)).
      pose proof (ebits_parts _ Wt) as (EP1 & EP2 & EP3 & EP4). specialize (EP4 Nv). apply BITS. lia.
    + intro Vi. destruct (E3 Vi) as (F1 & F2 & F3 & F4 & F5). destruct (AV Vi) as [AE _].
      assert (SE : slot d (zlen es) m' o i = slot d (zlen es) m o i).
      { unfold slot. f_equal. specialize (SLT i I' (or_intror Vi)). destruct (eslot_var (max_size d) _ Wt Vi) as (_ & Es & _). rewrite Es in SLT. exact SLT. }
      rewrite SE, Lc. rewrite <- AE. split; [exact F1|]. split; [lia|]. split; [exact Sc|]. split; [lia|]. rewrite <- Lc. exact Gc.
    + intro Fi. destruct (E4 Fi) as (F1 & F2). split; [lia|]. rewrite <- (AF Fi). rewrite <- F1. exact Sc.
  - intros j k J N K'. destruct (sb_before d _ j (zlen es) W C (cv_n _ _ _ _ _ V) ltac:(lia) ltac:(lia) ltac:(lia)). apply BITS. lia.
  - intros j J N. apply SLT; auto.
  - intros j cj J N Ej Vj. pose proof (cv_el _ _ _ _ _ V j _ J Ej) as (_ & _ & G3 & _). destruct (G3 Vj) as (G4 & G5 & G6 & G7 & G8).
    split; [lia|]. split.
    + rewrite <- G6 at 2. apply (keep_slice _ _ _ _ _ K); try lia. 
      destruct (is_variable_sized_ (etype d i)) eqn:Vi.
      * destruct (AV eq_refl) as [AE _]. pose proof (cv_dis _ _ _ _ _ V i j c cj I J (not_eq_sym N) En Ej Vi Vj). cbn beta. intros; lia.
      * rewrite (eslot_fixed _ _ A4 Vi) in SI. specialize (AF eq_refl). specialize (E4 eq_refl). cbn beta. intros; lia.
    + intros x X Vi. injection X as <-.
      assert (SE : slot d (zlen es) m' o i = slot d (zlen es) m o i).
      { unfold slot. f_equal. specialize (SLT i I' (or_intror Vi)). destruct (eslot_var (max_size d) _ Wt Vi) as (_ & Es & _). rewrite Es in SLT. exact SLT. }
      rewrite SE, Lc. apply (cv_dis _ _ _ _ _ V i j c cj I J (not_eq_sym N) En Ej Vi Vj).
Qed.

(** ** what happens on a path *)
(** [e] becomes [e'] by an operation on the element at path [pa]: its elements
    elsewhere are the same ones.  [r] tells whether the operation was done, [P]
    what it did. *)
Fixpoint upd_el (r : bool) (P : dti -> celem -> celem -> Prop) (t : dti) (pa : list Z) (e e' : celem) : Prop :=
  (r = false /\ e = e') \/
  match pa with
  | [] => r = true /\ P t e e'
  | i :: pa' => exists c c' es x x', e = CBytes c /\ e' = CBytes c' /\ container t /\ cv t c 0 (zlen c) es /\ 0 <= i
       /\ nth_error es (Z.to_nat i) = Some x /\ cv t c' 0 (zlen c') (lset es (Z.to_nat i) x') /\ upd_el r P (etype t i) pa' x x'
  end.

(** ** one step down *)
Lemma good_cv d bs : good d bs -> is_container_type_info d = true -> exists es, container d /\ cv d bs 0 (zlen bs) es
  /\ (forall i c, 0 <= i -> nth_error es (Z.to_nat i) = Some (CBytes c) -> good (etype d i) c).
Proof. intros [d' bs' W C B L | d' bs' es CT V G] CC; [congruence|]. exists es. auto. Qed.
Lemma at_slice (m : mem) o s : 0 <= o -> 0 <= s -> o + s <= zlen m -> zlen (slice m o s) = s /\ slice (slice m o s) 0 s = slice m o s.
Proof. intros. assert (L : zlen (slice m o s) = s) by (apply zlen_slice; lia). split; [exact L|]. rewrite <- L at 2. apply slice_all; reflexivity. Qed.
Lemma cv_from d bs es m o : container d -> cv d bs 0 (zlen bs) es -> 0 <= o -> o + zlen bs <= zlen m -> slice m o (zlen bs) = bs -> cv d m o (zlen bs) es.
Proof.
  intros CT V Ho Hl E. apply (cv_local d bs 0 (zlen bs) es m o CT V Ho Hl). rewrite E. symmetry. apply slice_all; reflexivity.
Qed.
Lemma cv_to d m o s es : container d -> cv d m o s es -> cv d (slice m o s) 0 (zlen (slice m o s)) es /\ zlen (slice m o s) = s.
Proof.
  intros CT V. pose proof (cv_o _ _ _ _ _ V). pose proof (cv_s _ _ _ _ _ V). pose proof (cv_bounds d m o s es CT V) as B. 
  destruct (at_slice m o s) as [L E]; try lia. split; [|exact L]. rewrite L. apply (cv_local d m o s es (slice m o s) 0 CT V); try lia. exact E.
Qed.

(** the data at [o] in [m] *)
Record holds (d : dti) (m : mem) (o : Z) (bs : list byte) : Prop := mk_holds {
  h_o : 0 <= o; h_in : o + zlen bs <= zlen m; h_slice : slice m o (zlen bs) = bs; h_good : good d bs }.
Lemma holds_size d m o bs : holds d m o bs -> get_size d m o = Ok (zlen bs).
Proof. intros [Ho Hl E G]. apply (get_size_local d bs); auto. apply good_size in G. apply G. Qed.
Lemma holds_cv d m o bs : holds d m o bs -> is_container_type_info d = true -> exists es, container d /\ cv d m o (zlen bs) es /\ cv d bs 0 (zlen bs) es
  /\ (forall i c, 0 <= i -> nth_error es (Z.to_nat i) = Some (CBytes c) -> good (etype d i) c).
Proof.
  intros [Ho Hl E G] C. destruct (good_cv d bs G C) as (es & CT & V & GE). exists es. split; [exact CT|]. split; [apply cv_from; auto|]. auto.
Qed.
Lemma good_lset d m o s es i x : container d -> cv d m o s (lset es i x) ->
  (forall j c, 0 <= j -> nth_error es (Z.to_nat j) = Some (CBytes c) -> good (etype d j) c) ->
  (forall c, x = CBytes c -> good (etype d (Z.of_nat i)) c) -> good d (slice m o s).
Proof.
  intros CT V GE GX. destruct (cv_to d m o s _ CT V) as [V' L]. apply (good_con d _ _ CT V').
  intros j c J E. destruct (Nat.eq_dec (Z.to_nat j) i) as [<-|N].
  - pose proof (znth_some _ _ _ E) as JL. rewrite zlen_lset in JL. rewrite lset_same in E by (unfold zlen in JL; lia). injection E as E.
    replace j with (Z.of_nat (Z.to_nat j)) by lia. apply GX. exact E.
  - rewrite lset_other in E by auto. apply GE; auto.
Qed.
Lemma child_holds d m o (bs : list byte) es i c : container d -> cv d m o (zlen bs) es -> 0 <= i -> nth_error es (Z.to_nat i) = Some (CBytes c) -> good (etype d i) c ->
  holds (etype d i) m (addr d (zlen es) m o i) c.
Proof.
  intros CT V I En G. destruct (cv_chunk d m o _ es i c CT V I En) as (A1 & A2 & A3 & A4 & A5 & A6 & A7).
  pose proof (cv_bounds d m o _ es CT V). pose proof (cv_o _ _ _ _ _ V). pose proof (cv_s _ _ _ _ _ V). constructor; auto; lia.
Qed.

(** what a nested operation guarantees: [inc] is the growth allowed *)
Definition op_done (t : dti) (pa : list Z) (P : dti -> celem -> celem -> Prop) (fixed : bool) (inc : Z) (m : mem) (o : Z) (bs : list byte) (r : bool) (m' : mem) : Prop :=
  exists bs', holds t m' o bs' /\ zlen bs' <= zlen bs + inc /\ (r = false -> zlen bs' = zlen bs) /\ (fixed = true -> zlen bs' = zlen bs)
    /\ keep (fun x => x < o \/ o + Z.max (zlen bs) (zlen bs') <= x) m m'
    /\ upd_el r P t pa (CBytes bs) (CBytes bs').

Lemma op_refused t pa P f inc m o bs : holds t m o bs -> 0 <= inc -> op_done t pa P f inc m o bs false m.
Proof.
  intros H Hi. exists bs. split; [exact H|]. split; [lia|]. split; [auto|]. split; [auto|]. split; [apply keep_refl|].
  destruct pa; left; auto.
Qed.

(** one level: the child of variable size at the end of its container *)
Section Nest.
  Variables (d : dti) (m : mem) (o : Z) (bs : list byte) (es : list celem).
  Hypothesis CT : container d.
  Hypothesis V : cv d m o (zlen bs) es.
  Hypothesis H : holds d m o bs.
  Hypothesis GE : forall j c, 0 <= j -> nth_error es (Z.to_nat j) = Some (CBytes c) -> good (etype d j) c.
  Variables (i inc inc' : Z) (pa : list Z) (P : dti -> celem -> celem -> Prop) (c : list byte).
  Hypothesis I : 0 <= i.
  Hypothesis En : nth_error es (Z.to_nat i) = Some (CBytes c).
  Hypothesis Hinc : 0 <= inc' <= inc.
  Notation t := (etype d i).

  Section Var.
  Hypothesis Vi : is_variable_sized_ t = true.
  Hypothesis Hmax : zlen bs + inc' <= max_size d.

  Lemma nest_var (op : mem -> Z -> res (bool * mem)) (Q : bool -> Prop) :
    (forall m1 a, holds t m1 a c -> zlen m1 = zlen m -> a = o + zlen bs - zlen c -> exists r m2, op m1 a = Ok (r, m2) /\ op_done t pa P false inc' m1 a c r m2 /\ Q r) ->
    let pi := pos d (zlen es) i in
    exists r m3, (let* m1 := move_to_end d m o i pi in
      let* x := get_ptr d m1 o pi in
      match x with
      | None => Ok (false, m1)
      | Some a =>
          let* container_old := get_size d m1 o in
          let* child_old := containee_size d m1 o pi in
          let* (result, m2) := op m1 a in
          if result : bool then
            let* child_new := containee_size d m2 o pi in
            let* m3 := overwrite_size d m2 o (u32 (container_old - child_old + child_new)) in
            Ok (true, m3)
          else Ok (false, m2)
      end) = Ok (r, m3) /\ op_done d (i :: pa) P false inc m o bs r m3 /\ Q r.
  Proof.
    intros HOP pi. pose proof CT as [W C]. pose proof (znth_some _ _ _ En) as IL. assert (I' : 0 <= i < zlen es) by lia.
    destruct (move_ok d m o _ es i _ CT V I En) as (m1 & E1 & V1 & AE & _ & K1). specialize (AE Vi). unfold at_end in AE.
    pose proof (keep_len _ _ _ K1) as L1. pose proof (h_o _ _ _ _ H) as Ho. pose proof (h_in _ _ _ _ H) as Hl.
    fold pi in E1. step E1. unfold pi. rewrite (cv_get_ptr d m1 o _ es i _ CT V1 I En). cbn [bind ptr_of].
    rewrite (cv_get_size d m1 o _ es CT V1). cbn [bind].
    destruct (pos_spec d (zlen es) i W C (cv_n _ _ _ _ _ V) I') as (Q1 & Q2 & Q3 & Q4).
    pose proof (cv_etype_wf d m o _ es i CT V I') as Wt. destruct (eslot_var (max_size d) _ Wt Vi) as (Bt & Es & Nv & Nl).
    set (a := addr d (zlen es) m1 o i).
    assert (Ea : a = o + zlen bs - zlen c) by (unfold a, addr; rewrite Vi, AE; lia).
    pose proof (child_holds d m1 o bs es i c CT V1 I En (GE i c I En)) as HC. fold a in HC.
    destruct (cv_chunk d m1 o _ es i c CT V1 I En) as (A1 & A2 & A3 & A4 & A5 & A6 & A7). fold a in A1, A2, A3.
    destruct (elements_var d i (zlen es) CT (cv_n _ _ _ _ _ V) I' Vi) as [HS VD].
    pose proof (cv_bounds d m o _ es CT V) as B. pose proof (vs_range d) as VS. pose proof (vs_enough d W) as VE. pose proof (wf_node d W) as (_ & _ & MSD & _). unfold max_bytes in *.
    pose proof (pbo_range d) as (P1 & P2 & P3 & P4 & P5 & P6). specialize (P4 HS).
    assert (SFS : o + FS d (zlen es) <= a).
    { pose proof (cv_el _ _ _ _ _ V1 i _ I En) as (_ & _ & QQ & _). destruct (QQ Vi) as (Q5 & _). lia. }
    assert (CSZ : forall (x : mem) y (cc : list byte), get_ptr d x o (pos d (zlen es) i) = Ok (Some y) -> get_size t x y = Ok (zlen cc) -> containee_size d x o (pos d (zlen es) i) = Ok (zlen cc)).
    { intros x y cc X1 X2. unfold containee_size. rewrite Q1. change (is_variable_sized_type_info t) with (is_variable_sized_ t). rewrite Vi, X1. cbn [negb bind]. rewrite X2.
      unfold is_bit_field in Bt. destruct (type t); try discriminate; reflexivity. }
    assert (GP1 : get_ptr d m1 o (pos d (zlen es) i) = Ok (Some a)) by (rewrite (cv_get_ptr d m1 o _ es i _ CT V1 I En); reflexivity).
    rewrite (CSZ m1 a c GP1 (holds_size _ _ _ _ HC)). cbn [bind].
    destruct (HOP m1 a HC L1 Ea) as (r & m2 & E2 & (c' & H2 & Z2 & R2 & _ & K2 & U2) & QR). rewrite E2. cbn [bind].
    pose proof (keep_len _ _ _ K2) as L2. pose proof (good_size _ _ (h_good _ _ _ _ H2)) as (_ & _ & G3 & G4 & G5 & _). specialize (G5 Vi). unfold max_bytes in G4.
    pose proof (h_in _ _ _ _ H2) as Hl2. pose proof (h_slice _ _ _ _ H2) as Hs2.
    pose proof (slot_in d m1 o _ es i CT V1 I') as SI. rewrite Es in SI.
    assert (SLOT2 : slice m2 (o + so d (zlen es) i) (vs d) = slice m1 (o + so d (zlen es) i) (vs d)) by (apply (keep_slice _ _ _ _ _ K2); lia).
    assert (SV : forall m3 s3, keep (fun x => x < o \/ o + vs d <= x) m2 m3 -> s3 = zlen bs - zlen c + zlen c' -> dec (slice m3 o (vs d)) = s3 mod 256 ^ vs d ->
       cv d m3 o s3 (lset es (Z.to_nat i) (CBytes c'))).
    { intros m3 s3 K3 S3 D3. pose proof (keep_len _ _ _ K3) as L3.
      apply (cv_set_var d m1 o (zlen bs) es m3 s3 i (CBytes c) (CBytes c') CT V1 I En Vi AE); unfold clen; rewrite ?Vi; try lia.
      - intros x X (N1 & N2). rewrite (keep_bat _ _ _ _ K3) by lia. apply (keep_bat _ _ _ _ K2); lia.
      - unfold var_ok. assert (SE : slot d (zlen es) m3 o i = zlen bs - zlen c).
        { unfold slot. rewrite (keep_slice _ _ _ _ _ K3) by lia. rewrite SLOT2. exact AE. }
        split; [exact SE|]. replace (o + (zlen bs - zlen c)) with a by lia. rewrite (keep_slice _ _ _ _ _ K3) by lia. split; [exact Hs2|]. split; [lia|exact G3]. }
    assert (FIN : forall m3, keep (fun x => x < o \/ o + vs d <= x) m2 m3 -> cv d m3 o (zlen bs - zlen c + zlen c') (lset es (Z.to_nat i) (CBytes c')) -> op_done d (i :: pa) P false inc m o bs r m3).
    { intros m3 K3 V3. destruct (cv_to d m3 o _ _ CT V3) as [V3' L3']. exists (slice m3 o (zlen bs - zlen c + zlen c')). rewrite L3'.
      split. { constructor; rewrite ?L3'; auto. - apply (cv_s _ _ _ _ _ V3). - apply (good_lset d m3 o _ es (Z.to_nat i) (CBytes c')); auto.
        intros x X. injection X as <-. replace (Z.of_nat (Z.to_nat i)) with i by lia. apply (h_good _ _ _ _ H2). }
      split; [lia|]. split; [intro R0; specialize (R2 R0); lia|]. split; [discriminate|]. split.
      - eapply keep_trans'; [eapply keep_trans'; [exact K1|exact K2|]|exact K3|].
        + intros x X. exact X.
        + cbn beta. intros x X. lia.
      - right. rewrite L3' in V3'. destruct (cv_to d m o _ _ CT V) as [Vb _]. rewrite (h_slice _ _ _ _ H) in Vb.
        exists bs, (slice m3 o (zlen bs - zlen c + zlen c')), es, (CBytes c), (CBytes c'). rewrite L3'. auto 10. }
    destruct r.
    - assert (GP2 : get_ptr d m2 o (pos d (zlen es) i) = Ok (Some a)).
      { unfold get_ptr. rewrite Q1, Nv. cbn [bind]. change (is_variable_sized_type_info t) with (is_variable_sized_ t). rewrite Vi. cbn [negb].
        assert (G : forall (x y : res (option Z)), match type t with BIT_FIELD => x | _ => y end = y) by (intros; unfold is_bit_field in Bt; destruct (type t); try discriminate; reflexivity).
        rewrite G. rewrite (Q4 Bt). rewrite read_value_ok by lia. cbn [bind]. rewrite SLOT2.
        change (dec (slice m1 (o + so d (zlen es) i) (vs d))) with (slot d (zlen es) m1 o i). rewrite AE.
        replace (zlen bs - zlen c =? 0) with false by lia. do 2 f_equal. lia. }
      rewrite (CSZ m2 a c' GP2 (holds_size _ _ _ _ H2)). cbn [bind]. rewrite u32_id by lia.
      unfold overwrite_size. rewrite HS. cbn [negb]. replace (max_size d <? zlen bs - zlen c + zlen c') with false by lia.
      rewrite Z.add_0_r. rewrite write_value_ok by lia. cbn [bind]. eexists true, _. split; [reflexivity|]. split; [|exact QR]. apply FIN.
      + apply (keep_upd' _ _ _ _ (vs d)); auto using zlen_enc_vs; cbn beta; lia.
      + apply SV; [|reflexivity|].
        * apply (keep_upd' _ _ _ _ (vs d)); auto using zlen_enc_vs; cbn beta; lia.
        * rewrite slice_upd_same' by (rewrite ?zlen_enc_vs; lia). rewrite dec_enc. rewrite Z2Nat.id by lia. reflexivity.
    - eexists false, m2. split; [reflexivity|]. split; [|exact QR]. specialize (R2 eq_refl). apply FIN; [apply keep_refl|]. apply SV; [apply keep_refl|reflexivity|].
      rewrite R2. replace (zlen bs - zlen c + zlen c) with (zlen bs) by lia. rewrite (keep_slice _ _ _ _ _ K2) by lia. apply (cv_size _ _ _ _ _ V1 HS).
  Qed.
  End Var.

  (** one level: an element whose size does not change *)
  Lemma nest_fixed (op : mem -> Z -> res (bool * mem)) :
    (forall a, holds t m a c -> a = addr d (zlen es) m o i -> exists r m2, op m a = Ok (r, m2) /\ op_done t pa P true inc' m a c r m2) ->
    let pi := pos d (zlen es) i in
    exists r m2, op m (addr d (zlen es) m o i) = Ok (r, m2) /\ op_done d (i :: pa) P true inc m o bs r m2.
  Proof.
    intros HOP pi. pose proof CT as [W C]. pose proof (znth_some _ _ _ En) as IL. assert (I' : 0 <= i < zlen es) by lia.
    set (a := addr d (zlen es) m o i). pose proof (child_holds d m o bs es i c CT V I En (GE i c I En)) as HC. fold a in HC.
    destruct (cv_chunk d m o _ es i c CT V I En) as (A1 & A2 & A3 & A4 & A5 & A6 & A7). fold a in A1, A2, A3.
    pose proof (cv_bounds d m o _ es CT V) as B.
    destruct (HOP a HC eq_refl) as (r & m2 & E2 & c' & H2 & Z2 & R2 & F2 & K2 & U2). specialize (F2 eq_refl).
    exists r, m2. split; [exact E2|]. pose proof (keep_len _ _ _ K2) as L2.
    pose proof (good_size _ _ (h_good _ _ _ _ H2)) as (_ & _ & G3 & G4 & G5 & _).
    rewrite F2, Z.max_id in K2.
    assert (V2 : cv d m2 o (zlen bs) (lset es (Z.to_nat i) (CBytes c'))).
    { apply (cv_replace d m o _ es m2 i c c' CT V I En F2 G3); auto. fold a. rewrite <- F2. apply (h_slice _ _ _ _ H2). }
    destruct (cv_to d m2 o _ _ CT V2) as [V2' L2']. exists (slice m2 o (zlen bs)). rewrite L2'.
    split. { constructor; rewrite ?L2'; auto. - apply (h_o _ _ _ _ H). - apply (cv_s _ _ _ _ _ V2). - apply (good_lset d m2 o _ es (Z.to_nat i) (CBytes c')); auto.
      intros x X. injection X as <-. replace (Z.of_nat (Z.to_nat i)) with i by lia. apply (h_good _ _ _ _ H2). }
    split; [lia|]. split; [auto|]. split; [auto|]. split.
    - eapply keep_weaken; [exact K2|]. cbn beta. intros; lia.
    - right. rewrite L2' in V2'. destruct (cv_to d m o _ _ CT V) as [Vb _]. rewrite (h_slice _ _ _ _ H) in Vb.
      exists bs, (slice m2 o (zlen bs)), es, (CBytes c), (CBytes c'). rewrite L2'. auto 10.
  Qed.
End Nest.
