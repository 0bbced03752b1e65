(** * C78: copying between tuples that lie in one buffer, or on one page

    The header asks for two separate tuples (tuple.h:37).  Two tuples side by side
    in one buffer are separate enough, and so are two entries of one page: the
    outcome is the same, byte by byte, as with a copy of the source elsewhere. *)
From Coq Require Import String.
From Verif Require Import SizeProps TupleProps CopyProps HashFacts IdentFacts AlikeFacts IdentProps TupleExamples.
From Verif Require Import SelfSet NestedProps OpFacts SelfSetFacts PageCopyFacts.
From Coq Require Import ZifyBool ZifyNat ZifyN Zify.
From Verif Require Import BytesFacts SpecFacts PageReach PageExamples PageElement PageElementProps PageCopy.
From Verif Require Import ImageSpec.
Ltac Zify.zify_post_hook ::= idtac.
Open Scope string_scope.
Open Scope list_scope.
Open Scope Z_scope.

(** ** two tuples in one buffer
    a tuple of type [d] at [o], which may grow by [inc] bytes, and one of type
    [d_in] at [o_in], which the first does not reach then *)
Definition side_by_side (d : dti) (m : mem) (o inc : Z) (d_in : dti) (o_in : Z) : Prop :=
  data_at d m o /\ data_at d_in m o_in /\ 0 <= inc
  /\ forall n n_in, get_size d m o = Ok n -> get_size d_in m o_in = Ok n_in -> o_in + n_in <= o \/ o + n + inc <= o_in.
(** may a value of an element of type [t_in] be stored as it is in one of type [t]?
    Strings and binaries in each other, and all in their own type; numbers are
    copies in any case. *)
Definition may_be_stored (t t_in : dti) : Prop :=
  is_primitive_numeral t_in = true
  \/ ((type t = STRING \/ type t = BINARY) /\ (type t_in = STRING \/ type t_in = BINARY)) \/ same_description false t t_in.

Lemma neighbour_value d pa m o inc d_in pa_in o_in t t_in v : side_by_side d m o inc d_in o_in -> path_ok pa -> path_ok pa_in ->
  get_type_info d pa = Some t -> get_type_info d_in pa_in = Some t_in -> get_value d_in pa_in m o_in = Ok (Some v) ->
  is_primitive_numeral t_in = true \/ stored_as_is t t_in ->
  seen_in m v = v /\ set_own_element d pa m o v inc = set_element d pa m o v inc.
Proof.
  intros (D & DI & Hi & AP) PO PI TI TJ E K. destruct (data_holds d m o D) as [bs H]. destruct (data_holds d_in m o_in DI) as [bs_in HI].
  specialize (AP _ _ (holds_size _ _ _ _ H) (holds_size _ _ _ _ HI)).
  destruct K as [P|K].
  - pose proof (source_value pa_in d_in m o_in bs_in t_in v PI HI TJ P E) as SV.
    assert (NP : not_pointer v) by (destruct SV as [->|[V _]]; [exact I|destruct v; try exact I; contradiction]).
    split; [destruct v; try reflexivity; contradiction|apply own_value; exact NP].
  - destruct (value_in pa_in d_in m o_in bs_in v t_in t HI PI TJ E (stored_reads _ _ K)) as (lo & hi & X1 & X2 & X3 & X4).
    pose proof (h_o _ _ _ _ HI). pose proof (h_in _ _ _ _ HI). destruct (good_size _ _ (h_good _ _ _ _ HI)) as (_ & _ & LS).
    split; [destruct v; try reflexivity; cbn [reads_in] in X4; destruct X4 as (<- & _); reflexivity|].
    apply (own_beside d pa m o bs t v inc lo hi H PO TI X4); try lia. unfold beside. lia.
Qed.

Theorem C78_side_by_side cv d pa m o inc d_in pa_in o_in t t_in : side_by_side d m o inc d_in o_in -> path_ok pa -> path_ok pa_in ->
  get_type_info d pa = Some t -> get_type_info d_in pa_in = Some t_in ->
  set_element_from_neighbour cv d pa m o d_in pa_in o_in inc = set_element_from_tuple cv d pa m o d_in pa_in m o_in inc
  /\ forall v, get_value d_in pa_in m o_in = Ok (Some v) -> may_be_stored t t_in -> set_own_element d pa m o v inc = set_element d pa m o v inc.
Proof.
  intros SB PO PI TI TJ. pose proof SB as (D & DI & Hi & AP). destruct (data_holds d m o D) as [bs H]. destruct (data_holds d_in m o_in DI) as [bs_in HI].
  destruct (good_size _ _ (h_good _ _ _ _ H)) as (W & _). destruct (good_size _ _ (h_good _ _ _ _ HI)) as (W' & _).
  destruct (type_info_wf pa d t PO W TI) as [Wt _]. destruct (type_info_wf pa_in d_in t_in PI W' TJ) as [Wi _].
  assert (K : forall v, get_value d_in pa_in m o_in = Ok (Some v) -> stored_as_is t t_in -> set_own_element d pa m o v inc = set_element d pa m o v inc).
  { intros v E S. apply (neighbour_value d pa m o inc d_in pa_in o_in t t_in v SB PO PI TI TJ E (or_intror S)). }
  split.
  - unfold set_element_from_neighbour, set_element_from_tuple. destruct (get_value d_in pa_in m o_in) as [[v|]|] eqn:E; cbn [bind]; try reflexivity. rewrite TJ, TI.
    pose proof (identical_any t t_in Wt Wi) as ID. destruct (are_identical t t_in) as [[|]|]; cbn [bind]; [| |reflexivity].
    + apply K; [reflexivity|]. right. split; [exact Wt|]. split; [exact Wi|]. apply ID.
    + destruct (is_primitive_numeral t && is_primitive_numeral t_in) eqn:P.
      * apply andb_true_iff in P. destruct P as [P1 P2]. destruct (numeral_ok t Wt P1) as [OK _]. pose proof (source_value pa_in d_in m o_in bs_in t_in v PI HI TJ P2 E) as SV.
        destruct (cast_fits cv t t_in v P1 OK P2 SV) as (c & EC & F). unfold type_cast_into. rewrite EC. cbn [bind]. destruct c as [w|]; [|reflexivity].
        destruct (F w eq_refl) as (FT & NPt & _). cbn [is_datum_NULL andb]. apply own_value. destruct w; try exact I; cbn [fits] in FT; [|exfalso; eapply NPt; reflexivity].
        destruct FT as [[T|T] _]; unfold is_primitive_numeral in P1; rewrite T in P1; discriminate.
      * destruct (type t) eqn:T; try reflexivity; destruct (type t_in) eqn:T'; try reflexivity; apply K; try reflexivity; left; split; unfold string_type; auto.
  - intros v E S. apply (neighbour_value d pa m o inc d_in pa_in o_in t t_in v SB PO PI TI TJ E).
    destruct S as [S|[S|S]]; [left; exact S|right; left; exact S|right; right; split; [exact Wt|]; split; [exact Wi|exact S]].
Qed.
Print Assumptions C78_side_by_side.

(** ** two entries of one page
    The tuples of a page lie behind its header and inside of it, and no two of
    them overlap. *)
Lemma pd_nth es : pd es -> forall i j, i <> j -> disj (nth i es None) (nth j es None).
Proof.
  assert (N : forall a : option (Z * list byte), disj a None) by (intros [[? ?]|]; exact I).
  induction es as [|e es IH]; intros P i j NE; [destruct i, j; exact I|]. destruct P as [P1 P2].
  destruct i as [|i], j as [|j]; cbn [nth]; [congruence| | |apply IH; auto].
  - destruct (nth_in_or_None es j) as [X| ->]; [apply P1; exact X|apply N].
  - destruct (nth_in_or_None es i) as [X| ->]; [apply disj_sym; apply P1; exact X|exact I].
Qed.
Theorem C77_apart : forall ps h d p i j o o' n n', limits ps h d -> reachable ps h d p -> is_u32 i -> is_u32 j ->
  lies ps d p i o -> lies ps d p j o' -> tuple_size d p o = Ok n -> tuple_size d p o' = Ok n' ->
  h < o /\ 0 <= n /\ o + n <= ps /\ (i <> j -> o + n <= o' \/ o' + n' <= o).
Proof.
  intros ps h d p i j o o' n n' (Hps & Hh & Hdef) R Hi Hj Li Lj Ni Nj. unfold lies, is_u32 in *.
  destruct (reach_view _ _ Hps Hdef _ _ Hh R) as (hb & c & f & V & Hz).
  destruct (v_get_nth ps d Hps Hdef _ _ _ _ i V ltac:(lia)) as (xo & G & X). rewrite Li in G. injection G as <-. destruct X as (X1 & x & X2 & X3 & X4 & X5 & X6 & X7). rewrite Ni in X3. injection X3 as ->.
  destruct (v_get_nth ps d Hps Hdef _ _ _ _ j V ltac:(lia)) as (xo & G & Y). rewrite Lj in G. injection G as <-. destruct Y as (Y1 & y & Y2 & Y3 & Y4 & Y5 & Y6 & Y7). rewrite Nj in Y3. injection Y3 as ->.
  pose proof (value_size_range ps). pose proof (zlen_nonneg x). split; [lia|]. split; [lia|]. split; [exact X6|]. intro NE.
  unfold view in V. unfold get_nth_tuple_on_page, get_page_layout_type, is_variable_sized in Li, Lj. destruct (sd_variable d) eqn:Ev.
  - destruct V as (es & S & <- & _). rewrite (s_get_nth Hps S) in Li, Lj by lia. rewrite content_len in X1, Y1. rewrite nth_content in X2, Y2.
    replace (i <? zlen es) with true in Li by lia. replace (j <? zlen es) with true in Lj by lia.
    pose proof (pd_nth es (s_pd S) (Z.to_nat i) (Z.to_nat j) ltac:(lia)) as DJ.
    destruct (nth (Z.to_nat i) es None) as [[a b]|]; [|discriminate]. destruct (nth (Z.to_nat j) es None) as [[a' b']|]; [|discriminate].
    cbn in Li, Lj, X2, Y2. injection Li as ->. injection Lj as ->. injection X2 as ->. injection Y2 as ->. exact DJ.
  - destruct V as [F _]. destruct (fr_get_nth ps d Hps Hdef Ev _ _ _ i F ltac:(lia)) as [G Gi]. destruct (fr_get_nth ps d Hps Hdef Ev _ _ _ j F ltac:(lia)) as [G' Gj].
    rewrite Li in G. rewrite Lj in G'. destruct (Gi x X1 X2) as (_ & Lx & _). destruct (Gj y Y1 Y2) as (_ & Ly & _).
    replace (i <? zlen c) with true in G by lia. replace (j <? zlen c) with true in G' by lia. rewrite X2 in G. rewrite Y2 in G'. injection G as ->. injection G' as ->. nia.
Qed.
Print Assumptions C77_apart.

(** the element at [pa] of entry [i] is to be set from the one at [pa_in] of
    another entry [j]; both entries are tuples of type [t], the type of the page *)
Definition copying_between (ps : Z) (d : size_def) (p : mem) (ty t : dti) (i : Z) (pa : list Z) (u : dti) (j o_in : Z) (pa_in : list Z) (u_in : dti) : Prop :=
  type_built ty /\ finalize ty = (true, t) /\ (exists d0, initialize_size_def d0 ty = Some d)
  /\ is_u32 i /\ is_u32 j /\ i <> j /\ path_ok pa /\ path_ok pa_in /\ get_type_info t pa = Some u /\ get_type_info t pa_in = Some u_in
  /\ lies ps d p j o_in
  /\ (forall x, read_entry ps d p i = Ok (Some x) -> data_at t x 0) /\ (forall x, read_entry ps d p j = Ok (Some x) -> data_at t x 0).

Lemma entry_data ps h d p t i o : limits ps h d -> reachable ps h d p -> is_u32 i -> lies ps d p i o ->
  (forall x, read_entry ps d p i = Ok (Some x) -> data_at t x 0) -> (forall m o, tuple_size d m o = get_size t m o) ->
  exists n, data_at t p o /\ tuple_size d p o = Ok n /\ get_size t p o = Ok n.
Proof.
  intros (Hps & Hh & Hdef) R Hi Li HD SS. unfold lies, is_u32 in *. destruct (reach_view _ _ Hps Hdef _ _ Hh R) as (hb & c & f & V & Hz).
  destruct (v_get_nth ps d Hps Hdef _ _ _ _ i V ltac:(lia)) as (xo & G & X). rewrite Li in G. injection G as <-. destruct X as (X1 & x & X2 & X3 & X4 & X5 & X6 & X7 & X8).
  exists (zlen x). rewrite <- SS. split; [|auto].
  assert (DX : data_at t x 0) by (apply HD; rewrite (v_entry ps d Hps Hdef _ _ _ _ i V ltac:(lia)), X2; reflexivity).
  apply rd_inv in X4 as (A1 & A2 & A3 & A4). eapply da_copy; [exact DX|rewrite <- SS; exact X7|lia|lia|]. rewrite <- A4. symmetry. apply slice_all. reflexivity.
Qed.

(** The value that was read points into the page.  Setting the element with it
    does exactly what setting it with the value from a copy of the page does,
    which C38 describes. *)
Theorem C78_between_entries : forall ps h d p ty t i pa u j o_in pa_in u_in v, limits ps h d -> reachable ps h d p ->
  copying_between ps d p ty t i pa u j o_in pa_in u_in -> get_value t pa_in p o_in = Ok (Some v) -> may_be_stored u u_in ->
  set_own_element_in_place p ps t d i pa v = set_element_in_place p ps t d i pa v.
Proof.
  intros ps h d p ty t i pa u j o_in pa_in u_in v L R (TB & FIN & [d0 SD] & Hi & Hj & NE & PO & PI & TI & TJ & Lj & HDi & HDj) E MS.
  pose proof (C29_same_size d0 ty t d TB FIN SD) as SS.
  destruct (entry_data _ _ _ _ _ _ _ L R Hj Lj HDj SS) as (nj & Dj & Tj & Gj).
  assert (K : forall o, lies ps d p i o -> seen_in p v = v /\ set_own_element t pa p o v 0 = set_element t pa p o v 0).
  { intros o Li. destruct (entry_data _ _ _ _ _ _ _ L R Hi Li HDi SS) as (ni & Di & Ti & Gi).
    destruct (C77_apart ps h d p i j o o_in ni nj L R Hi Hj Li Lj Ti Tj) as (_ & _ & _ & AP). specialize (AP NE).
    destruct (data_holds t p o Di) as [bs H]. destruct (good_size _ _ (h_good _ _ _ _ H)) as (W & _).
    destruct (type_info_wf pa t u PO W TI) as [Wt _]. destruct (type_info_wf pa_in t u_in PI W TJ) as [Wi _].
    apply (neighbour_value t pa p o 0 t pa_in o_in u u_in v); auto.
    - split; [exact Di|]. split; [exact Dj|]. split; [lia|]. intros n n' G G'. rewrite Gi in G. rewrite Gj in G'. injection G as <-. injection G' as <-. lia.
    - destruct MS as [S|[S|S]]; [left; exact S|right; left; exact S|right; right; split; [exact Wt|]; split; [exact Wi|exact S]]. }
  unfold lies, get_nth_tuple_on_page in K. unfold set_own_element_in_place, set_element_in_place. destruct (get_page_layout_type d).
  - unfold sl_set_own_in_place, sl_set_in_place. destruct (sl_get_nth p ps i) as [[o|]|]; cbn [bind]; try reflexivity. destruct (K o eq_refl) as [-> ->]. reflexivity.
  - unfold fa_set_own_in_place, fa_set_in_place. destruct (fa_get_nth p ps d i) as [[o|]|]; cbn [bind]; try reflexivity. apply (K o eq_refl).
Qed.
Print Assumptions C78_between_entries.

(** a value that was read, stored in an element of the same type, is read back as it was *)
Lemma read_back d pa_in m o t t_in v y : data_at d m o -> path_ok pa_in -> get_type_info d pa_in = Some t_in -> alike t t_in ->
  get_value d pa_in m o = Ok (Some v) -> reads_back t v y -> observe d pa_in m o = Ok (Some y).
Proof.
  intros D PI TJ A E RY. destruct (data_holds d m o D) as [bs H]. pose proof (observe_typed d pa_in m o v t_in E TJ) as OX. pose proof A as (Wt & Wti & SD).
  destruct (alike_shares t t_in A) as (T' & _ & Sz & _).
  destruct (value_place pa_in d m o bs t_in v PI H TJ E) as [->|[(z & -> & T & Z)|(a & c & HC & G & EA)]].
  - cbn [reads_back] in RY. subst y. exact OX.
  - cbn [reads_back num_of] in RY. rewrite T', T, Sz, Z.mod_small in RY by lia. rewrite OX. cbn [obs_of bind]. congruence.
  - destruct (datum_typed t_in m a c HC) as (w & E' & K). rewrite G in E'. injection E' as <-.
    destruct K as [(N & IV & NN & x & OV)|[(S0 & o' & n & b & EV & Rb)|(T & EV)]].
    + rewrite OV in OX. cbn [bind] in OX. rewrite OX. do 2 f_equal. symmetry. apply (numeral_back t v); auto. { apply (alike_is_value t t_in); auto. } destruct v; try contradiction; exact OV.
    + assert (S1 : string_type t) by (unfold string_type in *; rewrite T'; exact S0).
      assert (A' : alike t_in t) by (split; [exact Wti|split; [exact Wt|apply sd_sym; exact SD]]).
      pose proof (alike_holds t_in t m a c A' HC) as HC'. rewrite (alike_datum t_in t m a A') in G. subst v. cbn [obs_of] in OX. rewrite Rb in OX. cbn [bind] in OX.
      rewrite OX. do 2 f_equal. symmetry. eapply (string_back t m a c); eauto. cbn [obs_of]. rewrite Rb. reflexivity.
    + subst v. rewrite OX. cbn [obs_of]. cbn [reads_back] in RY. rewrite T' in RY. rewrite <- (alike_size t t_in m a A).
      destruct T as [T|T]; rewrite T in RY; destruct RY as (s & q & -> & R2 & ->); cbn [bind]; rewrite R2; reflexivity.
Qed.

(** An element is copied between entries, into the same type: the outcome is
    defined; a failure changes nothing; after a success the element reads as the
    source does, and the source as it did. *)
Corollary C78_copied : forall ps h d p ty t i pa u j o_in pa_in u_in v, limits ps h d -> reachable ps h d p ->
  copying_between ps d p ty t i pa u j o_in pa_in u_in -> get_value t pa_in p o_in = Ok (Some v) ->
  same_description false u u_in -> short_names u -> short_names u_in ->
  exists r p', set_own_element_in_place p ps t d i pa v = Ok (r, p') /\ reachable ps h d p' /\ (r = false -> p' = p)
    /\ (r = true -> exists o, lies ps d p' i o /\ observe t pa p' o = observe t pa_in p o_in)
    /\ (forall k, is_u32 k -> k <> i -> read_entry ps d p' k = read_entry ps d p k).
Proof.
  intros ps h d p ty t i pa u j o_in pa_in u_in v L R CB E SD SN SNi.
  rewrite (C78_between_entries ps h d p ty t i pa u j o_in pa_in u_in v L R CB E (or_intror (or_intror SD))).
  destruct CB as (TB & FIN & [d0 SDF] & Hi & Hj & NE & PO & PI & TI & TJ & Lj & HDi & HDj). pose proof (C29_same_size d0 ty t d TB FIN SDF) as SS.
  destruct (entry_data _ _ _ _ _ _ _ L R Hj Lj HDj SS) as (nj & Dj & Tj & Gj). destruct (data_holds t p o_in Dj) as [bs H].
  destruct (good_size _ _ (h_good _ _ _ _ H)) as (W & _). destruct (type_info_wf pa t u PO W TI) as [Wt _]. destruct (type_info_wf pa_in t u_in PI W TJ) as [Wi _].
  assert (A : alike u u_in) by (split; [exact Wt|split; [exact Wi|exact SD]]).
  assert (IP : in_place_ok ps d p ty t i pa v).
  { split; [exact TB|]. split; [exact FIN|]. split; [eauto|]. split; [exact Hi|]. split; [exact PO|]. split; [|split; [|exact HDi]].
    - intros u0 U. rewrite TI in U. injection U as <-. apply (alike_fits u u_in); [exact A|eapply value_fits; eauto].
    - intros u0 vm vo U ->. rewrite TI in U. injection U as <-. destruct (element_type_of t p o_in pa u Dj PO TI) as (t0 & d1 & pb & TB' & F & PO' & TI').
      apply (da_identical t0 d1 pb u_in u vm vo TB' F PO' TI' SNi).
      + apply identical_true; auto. apply sd_sym. exact SD.
      + exact (da_element t p o_in pa_in u_in vm vo Dj PI TJ E). }
  pose proof L as (Hps & Hh & Hdef). destruct (reach_view _ _ Hps Hdef _ _ Hh R) as (hb & c & f & V & Hz).
  destruct (C38_in_place ps h d p c hb ty t i pa v L R (v_contents ps d Hps Hdef _ _ _ _ V) (v_header ps d Hps Hdef _ _ _ _ V) IP) as (r & p' & E1 & R' & _ & F & _).
  exists r, p'. split; [exact E1|]. split; [exact R'|]. split; [exact F|]. destruct r.
  - destruct (C38_reads_back ps h d p ty t i pa v p' L R IP E1) as (o & o' & u0 & y & _ & G' & _ & U & OY & RY & _ & OT).
    rewrite TI in U. injection U as <-. split; [|exact OT]. intros _. exists o'. split; [exact G'|]. rewrite OY. symmetry. apply (read_back t pa_in p o_in u u_in v y); auto.
  - rewrite (F eq_refl). split; [discriminate|auto].
Qed.
Print Assumptions C78_copied.

(** ** cases
    two tuples of TupleExamples.v with 20 bytes of room between them *)
Definition two : mem := tuple_in exd e2 ++ zmem 20 ++ tuple_in exd e7.
Lemma two_first : data_at exd two 0.
Proof. eapply (da_copy exd e2 0 18 two 0 data_e2); vm_compute; (reflexivity || discriminate). Qed.
Lemma two_second : data_at exd two 38.
Proof. eapply (da_copy exd e7 0 36 two 38 data_e7); vm_compute; (reflexivity || discriminate). Qed.
Definition read_two (r : res (bool * mem)) (l : list (list Z * Z)) : option (bool * list (res (option obs))) :=
  match r with Ok (b, m) => Some (b, map (fun x => observe exd (fst x) m (snd x)) l) | UB => None end.
Example C78_side_by_side_case : side_by_side exd two 0 20 exd 38 /\ side_by_side exd two 38 0 exd 0
  /\ read_two (set_element_from_neighbour any exd [1] two 0 exd [1] 38 20) [([1], 0); ([2], 0); ([1], 38)] = Some (true, [Ok (Some (bytes_of "good bye")); Ok (Some (OInt (-5))); Ok (Some (bytes_of "good bye"))])
  /\ read_two (set_element_from_neighbour any exd [3] two 0 exd [3] 38 20) [([1], 0); ([3; 1; 1], 0); ([3; 1; 1], 38)] = Some (true, [Ok (Some (bytes_of "hello")); Ok (Some (bytes_of "ab")); Ok (Some (bytes_of "ab"))])
  /\ read_two (set_element_from_neighbour any exd [3; 1; 1] two 38 exd [1] 0 0) [([1], 0); ([3; 1; 1], 38)] = Some (false, [Ok (Some (bytes_of "hello")); Ok (Some (bytes_of "ab"))])
  /\ read_two (set_element_from_neighbour any exd [1] two 38 exd [1] 0 0) [([1], 0); ([1], 38)] = Some (true, [Ok (Some (bytes_of "hello")); Ok (Some (bytes_of "hello"))]).
Proof.
  assert (S : forall o o' inc n n', data_at exd two o -> data_at exd two o' -> 0 <= inc -> get_size exd two o = Ok n -> get_size exd two o' = Ok n' ->
    o' + n' <= o \/ o + n + inc <= o' -> side_by_side exd two o inc exd o').
  { intros o o' inc n n' A B C D E F. split; [exact A|]. split; [exact B|]. split; [exact C|]. intros k k' K K'. rewrite D in K. rewrite E in K'. injection K as <-. injection K' as <-. exact F. }
  split; [apply (S _ _ _ 18 36 two_first two_second); try (vm_compute; reflexivity); lia|]. split; [apply (S _ _ _ 36 18 two_second two_first); try (vm_compute; reflexivity); lia|].
  repeat (split; [vm_compute; reflexivity|]). vm_compute; reflexivity.
Qed.
Example C77_apart_case : lies 128 exs esp 0 92 /\ lies 128 exs esp 2 74 /\ tuple_size exs esp 92 = Ok 36 /\ tuple_size exs esp 74 = Ok 18.
Proof. repeat split; vm_compute; reflexivity. Qed.

(** on the page of C38: between the entries 0 and 2, in both directions *)
Lemma esp_between pa u pa_in u_in i j o : (i = 0 /\ j = 2 \/ i = 2 /\ j = 0) -> path_ok pa -> path_ok pa_in -> get_type_info exd pa = Some u -> get_type_info exd pa_in = Some u_in ->
  lies 128 exs esp j o -> copying_between 128 exs esp ex_type exd i pa u j o pa_in u_in.
Proof.
  intros IJ P1 P2 T1 T2 L. unfold is_u32. split; [apply ex_type_built|]. split; [vm_compute; reflexivity|]. split; [exists sd0; vm_compute; reflexivity|].
  split; [unfold is_u32; lia|]. split; [unfold is_u32; lia|]. split; [lia|]. split; [exact P1|]. split; [exact P2|]. split; [exact T1|]. split; [exact T2|]. split; [exact L|].
  assert (D : forall k x, k = 0 \/ k = 2 -> read_entry 128 exs esp k = Ok (Some x) -> data_at exd x 0).
  { intros k x [->| ->] E.
    - assert (x = tuple_in exd e7) as -> by (vm_compute in E; vm_compute; congruence). eapply tuple_in_data; [apply data_e7|vm_compute; reflexivity|vm_compute; discriminate].
    - assert (x = tuple_in exd e2) as -> by (vm_compute in E; vm_compute; congruence). eapply tuple_in_data; [apply data_e2|vm_compute; reflexivity|vm_compute; discriminate]. }
  split; intros x; apply D; lia.
Qed.
Definition value_at (pa : list Z) (m : mem) (o : Z) : datum := match get_value exd pa m o with Ok (Some v) => v | _ => DNull end.
Example C78_up_case : copying_between 128 exs esp ex_type exd 0 [1] (type_at exd [1]) 2 74 [1] (type_at exd [1])
  /\ get_value exd [1] esp 74 = Ok (Some (value_at [1] esp 74)) /\ may_be_stored (type_at exd [1]) (type_at exd [1])
  /\ exists p', set_own_element_in_place esp 128 exd exs 0 [1] (value_at [1] esp 74) = Ok (true, p')
     /\ observe exd [1] p' 92 = Ok (Some (bytes_of "hello")) /\ observe exd [3; 1; 1] p' 92 = Ok (Some (bytes_of "ab")) /\ observe exd [1] p' 74 = Ok (Some (bytes_of "hello")).
Proof.
  split; [apply esp_between; [lia|pathy|pathy|vm_compute; reflexivity|vm_compute; reflexivity|vm_compute; reflexivity]|]. split; [vm_compute; reflexivity|]. split; [right; left; split; left; reflexivity|].
  eexists. split; [vm_compute; reflexivity|]. repeat (split; [vm_compute; reflexivity|]). vm_compute; reflexivity.
Qed.
Example C78_down_case : copying_between 128 exs esp ex_type exd 2 [1] (type_at exd [1]) 0 92 [3; 1; 1] (type_at exd [3; 1; 1])
  /\ get_value exd [3; 1; 1] esp 92 = Ok (Some (value_at [3; 1; 1] esp 92)) /\ may_be_stored (type_at exd [1]) (type_at exd [3; 1; 1])
  /\ exists p', set_own_element_in_place esp 128 exd exs 2 [1] (value_at [3; 1; 1] esp 92) = Ok (true, p')
     /\ observe exd [1] p' 74 = Ok (Some (bytes_of "ab")) /\ observe exd [3; 1; 1] p' 92 = Ok (Some (bytes_of "ab")).
Proof.
  split; [apply esp_between; [lia|pathy|pathy|vm_compute; reflexivity|vm_compute; reflexivity|vm_compute; reflexivity]|]. split; [vm_compute; reflexivity|]. split; [right; left; split; left; reflexivity|].
  eexists. split; [vm_compute; reflexivity|]. repeat (split; [vm_compute; reflexivity|]). vm_compute; reflexivity.
Qed.
Example C78_copied_case : exists p', set_own_element_in_place esp 128 exd exs 0 [1] (value_at [1] esp 74) = Ok (true, p') /\ exists o, lies 128 exs p' 0 o /\ observe exd [1] p' o = observe exd [1] esp 74.
Proof.
  destruct esp_reachable as [L R]. destruct C78_up_case as (CB & E & _ & p1 & E1 & _).
  assert (SN : short_names (type_at exd [1])) by (cbv - [Z.le Z.lt]; repeat split; lia).
  assert (SD : same_description false (type_at exd [1]) (type_at exd [1])).
  { apply wf_sd_refl. destruct (data_holds exd e7 0 data_e7) as [bs H]. destruct (good_size _ _ (h_good _ _ _ _ H)) as (W & _).
    apply (type_info_wf [1] exd _ ltac:(pathy) W). reflexivity. }
  destruct (C78_copied 128 10 exs esp ex_type exd 0 [1] _ 2 74 [1] _ _ L R CB E SD SN SN) as (r & p' & E2 & _ & _ & K & _).
  rewrite E2 in E1. injection E1 as -> ->. exists p1. split; [exact E2|apply K; reflexivity].
Qed.
