(** * C73: a page of tuples that is compacted when needed is a list of rows of limited total size

    [rows_on_page], [table] are in TableSpec.v, [careful], [within] in
    BoundedSpec.v, the rest in BoundedTableSpec.v. *)
From Coq Require Import String.
From Verif Require Import OpFacts SizeProps TupleProps TupleExamples.
From Coq Require Import ZifyBool ZifyNat ZifyN Zify.
From Verif Require Import BytesFacts SpecFacts PageReach PageExamples PageElementProps TreeFacts TreeProps TableFacts TableProps SameFacts BoundedProps BoundedTableSpec BoundedTableFacts.
Ltac Zify.zify_post_hook ::= idtac.
Open Scope list_scope.
Open Scope Z_scope.

(** whether rows fit is a matter of the rows alone: all tuples that have them
    take the same space *)
Theorem C73_fit ps h d t c R : tuples_of t c R -> rows_fit ps h d t R <-> within ps h d c.
Proof. apply fit_iff. Qed.
Print Assumptions C73_fit.

(** one operation of a client that compacts when needed *)
Theorem C73_step srt ps h d ty t p R op : table_setup ps h d ty t -> sorts srt -> table ps h d t p -> rows_on_page ps d t p R ->
  table_allowed h t op -> quiet_table op = false ->
  exists r p' R', careful_table srt ps d t op p = Ok (r, p') /\ table ps h d t p' /\ rows_on_page ps d t p' R' /\ bounded_row_effect ps h d t op R r R'.
Proof. intros (TB & FIN & [d0 SD] & Hps & Hh) Hs T RP A Q. exact (careful_rows ps h d0 d ty t Hps Hh TB FIN SD srt p R op Hs T RP A Q). Qed.
Print Assumptions C73_step.

(** what such an operation answers and leaves is determined by the rows, and by
    the row it is given, whatever the bytes *)
Lemma done_det P R1 R r r' R' R'' : rows_done_if P R1 R r R' -> rows_done_if P R1 R r' R'' -> r = r' /\ R' = R''.
Proof. intros [(H & -> & ->)|(H & -> & ->)] [(H' & -> & ->)|(H' & -> & ->)]; tauto. Qed.
Lemma trailing_det {A} (a b : list (option A)) k n : a ++ repeat None k = b ++ repeat None n -> (forall c, a <> c ++ [None]) -> (forall c, b <> c ++ [None]) -> a = b /\ k = n.
Proof.
  revert k n. assert (S : forall k, repeat (@None A) (S k) = repeat None k ++ [None]) by (induction k as [|k IH]; [reflexivity|]; cbn [repeat app] in *; f_equal; exact IH).
  induction k as [|k IH]; intros [|n] E Na Nb.
  - cbn in E. rewrite !app_nil_r in E. auto.
  - exfalso. rewrite S, app_assoc in E. cbn [repeat] in E. rewrite app_nil_r in E. exact (Na _ E).
  - exfalso. rewrite S, app_assoc in E. cbn [repeat] in E. rewrite app_nil_r in E. exact (Nb _ (eq_sym E)).
  - rewrite !S, !app_assoc in E. apply app_inj_tail in E as [E _]. destruct (IH n E Na Nb) as [-> ->]. auto.
Qed.
Lemma swap_det {A} (l a b : list A) i j : nth_error a i = nth_error l j -> nth_error a j = nth_error l i -> (forall k, k <> i -> k <> j -> nth_error a k = nth_error l k) ->
  nth_error b i = nth_error l j -> nth_error b j = nth_error l i -> (forall k, k <> i -> k <> j -> nth_error b k = nth_error l k) -> a = b.
Proof.
  intros A1 A2 A3 B1 B2 B3. assert (E : forall k, nth_error a k = nth_error b k).
  { intro k. destruct (Nat.eq_dec k i) as [->|Ni]; [congruence|]. destruct (Nat.eq_dec k j) as [->|Nj]; [congruence|]. rewrite A3, B3 by assumption. reflexivity. }
  clear - E. revert b E. induction a as [|x a IH]; intros [|y b] E; [reflexivity|specialize (E 0%nat); discriminate E|specialize (E 0%nat); discriminate E|].
  pose proof (E 0%nat) as E0. cbn in E0. injection E0 as <-. f_equal. apply IH. intro k. exact (E (S k)).
Qed.
Theorem C73_determined ps h d t op1 op2 R r1 R1 r2 R2 : quiet_table op1 = false -> table_op_specified t op1 -> same_op t op1 op2 ->
  bounded_row_effect ps h d t op1 R r1 R1 -> bounded_row_effect ps h d t op2 R r2 R2 -> r1 = r2 /\ R1 = R2.
Proof.
  intros Q SP SM E1 E2. destruct op1 as [op|i pa v].
  - assert (RW : forall x1 x2 y1 y2, same_row t x1 x2 -> row_of t x1 y1 -> row_of t x2 y2 -> y1 = y2).
    { intros x1 x2 y1 y2 (y & Y1 & Y2) Z1 Z2. rewrite (row_det _ _ _ _ Z1 Y1). exact (row_det _ _ _ _ Y2 Z2). }
    destruct op as [x|i x|i x|i| | |i j|srt' ok| |at_ bs]; cbn [quiet_table quiet] in Q; try discriminate Q; cbn [same_op] in SM.
    + destruct op2 as [[x2| | | | | | | | |]|]; try discriminate SM. destruct E1 as (y1 & Y1 & E1). destruct E2 as (y2 & Y2 & E2). rewrite <- (RW _ _ _ _ SM Y1 Y2) in E2. eapply done_det; eassumption.
    + destruct op2 as [[|i2 x2| | | | | | | |]|]; try discriminate SM. destruct SM as [<- SM]. destruct E1 as (y1 & Y1 & E1). destruct E2 as (y2 & Y2 & E2). rewrite <- (RW _ _ _ _ SM Y1 Y2) in E2. eapply done_det; eassumption.
    + destruct op2 as [[| |i2 x2| | | | | | |]|]; try discriminate SM. destruct SM as [<- SM]. destruct E1 as (y1 & Y1 & E1). destruct E2 as (y2 & Y2 & E2). rewrite <- (RW _ _ _ _ SM Y1 Y2) in E2. eapply done_det; eassumption.
    + subst op2. cbn [bounded_row_effect row_effect] in E1, E2. destruct E1 as [(-> & z & a & b & -> & Za & ->)|(-> & G & ->)], E2 as [(-> & z' & a' & b' & E & Za' & ->)|(-> & G' & ->)].
      * destruct (app_inv_len _ _ _ _ E) as [<- E']; [unfold zlen in *; lia|]. injection E' as <- <-. auto.
      * exfalso. rewrite zlen_app, zlen_cons in G'. pose proof (zlen_nonneg b). lia.
      * exfalso. subst R. rewrite zlen_app, zlen_cons in G. pose proof (zlen_nonneg b'). lia.
      * auto.
    + subst op2. destruct E1 as [-> ->], E2 as [-> ->]. auto.
    + subst op2. cbn [bounded_row_effect row_effect] in E1, E2. destruct E1 as (k1 & -> & N1 & ->). destruct E2 as (k2 & E & N2 & ->). destruct (trailing_det _ _ _ _ E N1 N2) as [-> ->]. auto.
    + subst op2. cbn [bounded_row_effect row_effect] in E1, E2. destruct ((i <? zlen R) && (j <? zlen R)).
      * destruct E1 as (-> & _ & A1 & A2 & A3). destruct E2 as (-> & _ & B1 & B2 & B3). split; [reflexivity|]. exact (swap_det R R1 R2 _ _ A1 A2 A3 B1 B2 B3).
      * destruct E1 as [-> ->], E2 as [-> ->]. auto.
  - cbn [same_op] in SM. subst op2. cbn [bounded_row_effect table_op_specified] in *.
    destruct E1 as [(T & T' & u & N & S & -> & -> & TI & AP)|(NS & -> & ->)], E2 as [(T2 & T2' & u2 & N2 & S2 & -> & -> & TI2 & AP2)|(NS2 & -> & ->)].
    + rewrite N in N2. injection N2 as <-. rewrite TI in TI2. injection TI2 as <-. split; [reflexivity|]. do 2 f_equal.
      eapply at_path_det; [|exact AP|exact AP2]. intros a b c Ha Hb. cbn in Ha, Hb. eapply stores_det; [apply (SP u TI)|exact Ha|exact Hb].
    + exfalso. exact (NS2 T N S).
    + exfalso. exact (NS T2 N2 S2).
    + auto.
Qed.
Print Assumptions C73_determined.

(** any history of such a client, whatever compactions happen in between, is a
    history of the list of rows *)
Theorem C73_history srt ps h d ty t p R l p' : table_setup ps h d ty t -> sorts srt -> table ps h d t p -> rows_on_page ps d t p R ->
  careful_table_history srt ps h d t p l p' ->
  exists R', table ps h d t p' /\ rows_on_page ps d t p' R' /\ bounded_row_history ps h d t R l R'.
Proof.
  intros SU Hs T RP H. revert R T RP. induction H as [p|p op r p1 l p2 Q A E H IH|p op r p1 l p2 Q A E H IH]; intros R T RP.
  - exists R. split; [exact T|]. split; [exact RP|constructor].
  - destruct (C65_step _ _ _ _ _ _ _ _ SU T RP A) as (r1 & p3 & R1 & E1 & T1 & RP1 & RE). rewrite E in E1. injection E1 as <- <-.
    assert (R1 = R) as ->. { destruct op as [[]|]; try discriminate Q; cbn [row_effect] in RE; tauto. } exact (IH R T1 RP1).
  - destruct (C73_step srt _ _ _ _ _ _ _ _ SU Hs T RP A Q) as (r1 & p3 & R1 & E1 & T1 & RP1 & BE). rewrite E in E1. injection E1 as <- <-.
    destruct (IH R1 T1 RP1) as (R' & T' & RP' & X). exists R'. split; [exact T'|]. split; [exact RP'|]. econstructor; eassumption.
Qed.
Print Assumptions C73_history.

(** so two pages with the same rows cannot be told apart by such clients: not by
    the bytes of the tuples, by how they are placed, nor by what is done to free
    space *)
Theorem C73_same_rows srt1 srt2 ps h d ty t p1 p2 R l1 l2 p1' p2' : table_setup ps h d ty t -> sorts srt1 -> sorts srt2 ->
  table ps h d t p1 -> rows_on_page ps d t p1 R -> table ps h d t p2 -> rows_on_page ps d t p2 R ->
  careful_table_history srt1 ps h d t p1 l1 p1' -> careful_table_history srt2 ps h d t p2 l2 p2' ->
  Forall2 (fun a b => same_op t (fst a) (fst b)) l1 l2 -> Forall (fun a => table_op_specified t (fst a)) l1 ->
  map snd l1 = map snd l2 /\ exists R', rows_on_page ps d t p1' R' /\ rows_on_page ps d t p2' R'.
Proof.
  intros SU S1 S2 T1 RP1 T2 RP2 H1 H2 SM SP.
  assert (Qs : forall srt p l p', careful_table_history srt ps h d t p l p' -> Forall (fun a => quiet_table (fst a) = false) l).
  { intros srt p l p' H. induction H; [constructor|assumption|constructor; assumption]. }
  pose proof (Qs _ _ _ _ H1) as Q1. clear Qs.
  destruct (C73_history _ _ _ _ _ _ _ _ _ _ SU S1 T1 RP1 H1) as (R1' & _ & K1 & X1). destruct (C73_history _ _ _ _ _ _ _ _ _ _ SU S2 T2 RP2 H2) as (R2' & _ & K2 & X2).
  assert (G : map snd l1 = map snd l2 /\ R1' = R2').
  { clear - X1 X2 SM SP Q1. revert l2 R2' X2 SM. induction X1 as [R|R op r R1 l1 R1' E1 X1 IH]; intros l2 R2' X2 SM; inversion SM as [|a1 a2 ? l2' SMa SM']; subst.
    - inversion X2. auto.
    - inversion X2 as [|? op2 r2 R2 ? ? E2 X2']; subst. inversion Q1; inversion SP; subst. cbn [fst] in *.
      destruct (C73_determined ps h d t op op2 R r R1 r2 R2) as [<- <-]; try assumption. destruct (IH ltac:(assumption) ltac:(assumption) _ _ X2' SM') as [K ->]. cbn [map snd]. split; [f_equal; exact K|reflexivity]. }
  destruct G as [G <-]. split; [exact G|]. exists R1'. auto.
Qed.
Print Assumptions C73_same_rows.

(** which lists of rows a page can have: exactly those that fit *)
Theorem C73_lists ps h d ty t p0 p1 R : table_setup ps h d ty t -> zlen p0 = ps -> init_page p0 ps h d = Ok (true, p1) ->
  (exists p, table ps h d t p /\ rows_on_page ps d t p R) <-> rows_fit ps h d t R.
Proof.
  intros SU Hl E. pose proof SU as (TB & FIN & [d0 SD] & Hps & Hh). pose proof (table_def_ok d0 d ty t TB FIN SD) as Hdef. split.
  - intros (p & T & RP). destruct (table_tuples ps h d0 d ty t Hps Hh TB FIN SD p R T RP) as (c & _ & TS & C). exists c. split; [exact TS|].
    eapply C72_within; [exact (conj Hps (conj Hh Hdef))|exact (table_reachable ps h d0 d ty t Hps Hh TB FIN SD p T)|exact C].
  - induction R as [|y R IH] using rev_ind; intros (c & [FA F2] & W).
    + exists p1. exact (C65_new _ _ _ _ _ p0 p1 SU Hl E).
    + apply Forall2_app_inv_r in F2 as (c1 & c2 & F1 & F2 & ->). inversion F2 as [|x ? ? ? Y F0]; subst. inversion F0; subst. apply Forall_app in FA as [FA FX]. inversion FX as [|? ? X _]; subst.
      pose proof (conj FA F1 : tuples_of t c1 R) as TS1. pose proof (tuples_append t c1 R x y TS1 X Y) as TS2.
      assert (W1 : within (zlen p0) h d c1).
      { unfold within in *. destruct (sd_variable d) eqn:Ev.
        - rewrite total_space_app in W. cbn [total_space] in W. unfold entry_space in W at 1. rewrite Ev in W. pose proof (value_size_range (zlen p0)).
          assert (0 <= xlen x) by (destruct x; cbn [xlen]; [apply zlen_nonneg|lia]). lia.
        - destruct W as (n & En & Hn). exists n. split; [exact En|]. rewrite zlen_app, zlen_cons, zlen_nil in Hn. lia. }
      destruct IH as (p & T & RP); [exists c1; auto|].
      destruct (C73_step isort _ _ _ _ _ _ _ (Page (Append x)) SU isort_sorts T RP X eq_refl) as (r & p' & R' & _ & T' & RP' & BE). cbn [bounded_row_effect] in BE.
      destruct BE as (y' & Y' & D). rewrite (row_det _ _ _ _ Y' Y) in D. destruct D as [(_ & _ & ->)|(N & _)]; [exists p'; auto|]. exfalso. apply N. exists (c1 ++ [x]). auto.
Qed.
Print Assumptions C73_lists.

(** ** two pages with the same rows and different bytes, one with a hole *)
From Verif Require Import SameProps.
Open Scope string_scope.
Open Scope Z_scope.
Definition tx (m : mem) : ext := Some (tuple_in exd m).
Fixpoint run_ops_on (run : table_op -> mem -> res (answer * mem)) (l : list table_op) (p : mem) : list (table_op * answer) * mem :=
  match l with
  | [] => ([], p)
  | op :: l => match run op p with Ok (r, q) => let (rs, z) := run_ops_on run l q in ((op, r) :: rs, z) | UB => ([], []) end
  end.
Definition ops_a : list table_op := [Page (Append (tx e8)); Page (Append None)].
Definition ops_b : list table_op := [Page (Append (tx e2)); Page (Append (tx k6)); Page (Append None); Page (Discard 0)].
Definition ops_on (a b : mem) : list table_op :=
  [Page (Append (tx a)); Page (Update 1 (tx e7)); Set_in_place 0 [1] (str "bye"); Set_in_place 2 [1] (str "good morning"); Page (Update 1 (tx b)); Page (Insert 3 (tx e2))].
Definition pg_a : mem := Eval vm_compute in snd (run_ops_on (run_table 128 exs exd) ops_a (PageExamples.fresh 128 10 exs)).
Definition pg_b : mem := Eval vm_compute in snd (run_ops_on (run_table 128 exs exd) ops_b (PageExamples.fresh 128 10 exs)).
Definition answers : list answer := [(1, false); (1, false); (1, false); (0, false); (1, false); (0, false)].
Definition his_a : list (table_op * answer) := combine (ops_on e8 k6) answers.
Definition his_b : list (table_op * answer) := combine (ops_on k6 e8) answers.
Definition end_a : mem := Eval vm_compute in snd (run_ops_on (careful_table isort 128 exs exd) (ops_on e8 k6) pg_a).
Definition end_b : mem := Eval vm_compute in snd (run_ops_on (careful_table isort 128 exs exd) (ops_on k6 e8) pg_b).

Lemma tuple_e8 : is_tuple exd (tx e8).
Proof. split; [eapply tuple_in_data; [apply C71_example_same|vm_compute; reflexivity|vm_compute; discriminate]|vm_compute; reflexivity]. Qed.
Lemma tuple_k6 : is_tuple exd (tx k6).
Proof. split; [eapply tuple_in_data; [apply C71_example_same|vm_compute; reflexivity|vm_compute; discriminate]|vm_compute; reflexivity]. Qed.
Lemma row_e8 : row_of exd (tx e8) (Some ex_tree).
Proof. unfold tx, row_of, ex_tree, TreeProps.text, bytes_tree. cbn [list_byte_of_string map]. see_tree. Qed.
Lemma row_k6 : row_of exd (tx k6) (Some ex_tree).
Proof. unfold tx, row_of, ex_tree, TreeProps.text, bytes_tree. cbn [list_byte_of_string map]. see_tree. Qed.
Ltac allow_tuple := lazymatch goal with |- is_tuple _ (tx e8) => exact tuple_e8 | |- is_tuple _ (tx k6) => exact tuple_k6 | |- is_tuple _ (tx e2) => exact tuple_e2 | |- is_tuple _ (tx e7) => exact tuple_e7 | |- is_tuple _ None => exact I end.
Ltac allow := cbn [table_allowed]; lazymatch goal with
  | |- is_tuple _ _ => allow_tuple
  | |- is_u32 _ /\ is_tuple _ _ => split; [vm_compute; intuition discriminate|allow_tuple]
  | |- is_u32 _ /\ path_ok _ /\ _ => split; [vm_compute; intuition discriminate|]; split; [pathy|]; split; [intros u E; vm_compute in E; injection E as <-; vm_compute; intuition discriminate|intros; discriminate]
  | |- is_u32 _ => vm_compute; intuition discriminate
  end.
Lemma table_fresh : table 128 10 exs exd (PageExamples.fresh 128 10 exs).
Proof. apply (table_init 128 10 exs exd (repeat Byte.xff 128)); vm_compute; reflexivity. Qed.
Ltac tb_next := eapply tbh_cons; [allow|vm_compute; reflexivity|].
Lemma table_closed ps h d t p l p' : table ps h d t p -> table_history ps h d t p l p' -> table ps h d t p'.
Proof. intros T H. induction H as [p|p op r p1 l p2 A E H IH]; [exact T|]. apply IH. exact (table_next ps h d t p op r p1 T A E). Qed.
Lemma table_a : table 128 10 exs exd pg_a.
Proof. apply (table_closed 128 10 exs exd _ (combine ops_a [(1, false); (1, false)]) _ table_fresh). unfold ops_a. cbn [combine]. do 2 tb_next. constructor. Qed.
Lemma table_b : table 128 10 exs exd pg_b.
Proof. apply (table_closed 128 10 exs exd _ (combine ops_b [(1, false); (1, false); (1, false); (1, false)]) _ table_fresh). unfold ops_b. cbn [combine]. do 4 tb_next. constructor. Qed.
Lemma rows_ab : rows_on_page 128 exs exd pg_a [Some ex_tree; None] /\ rows_on_page 128 exs exd pg_b [Some ex_tree; None].
Proof.
  destruct C65_setup as (TB & FIN & [d0 SD] & Hps & Hh). split.
  - apply (tuples_rows 128 10 d0 exs ex_type exd Hps Hh TB FIN SD pg_a [tx e8; None]); [exact table_a|vm_compute; reflexivity|]. constructor; [exact row_e8|]. constructor; [exact I|constructor].
  - apply (tuples_rows 128 10 d0 exs ex_type exd Hps Hh TB FIN SD pg_b [tx k6; None]); [exact table_b|vm_compute; reflexivity|]. constructor; [exact row_k6|]. constructor; [exact I|constructor].
Qed.
Ltac ct_step := eapply cth_op; [reflexivity|allow|vm_compute; reflexivity|].
Example C73_case : table_setup 128 10 exs ex_type exd /\ sorts isort /\ table 128 10 exs exd pg_a /\ table 128 10 exs exd pg_b
  /\ rows_on_page 128 exs exd pg_a [Some ex_tree; None] /\ rows_on_page 128 exs exd pg_b [Some ex_tree; None]
  /\ careful_table_history isort 128 10 exs exd pg_a his_a end_a /\ careful_table_history isort 128 10 exs exd pg_b his_b end_b
  /\ Forall2 (fun a b => same_op exd (fst a) (fst b)) his_a his_b /\ Forall (fun a => table_op_specified exd (fst a)) his_a.
Proof.
  split; [exact C65_setup|]. split; [exact isort_sorts|]. split; [exact table_a|]. split; [exact table_b|]. split; [apply rows_ab|]. split; [apply rows_ab|].
  unfold his_a, his_b, ops_on, answers. cbn [combine].
  split; [do 6 ct_step; constructor|]. split; [do 6 ct_step; constructor|]. split.
  - assert (S8 : same_row exd (tx e8) (tx k6)) by (exists (Some ex_tree); split; [exact row_e8|exact row_k6]).
    assert (S6 : same_row exd (tx k6) (tx e8)) by (exists (Some ex_tree); split; [exact row_k6|exact row_e8]).
    assert (SS : forall x, is_tuple exd x -> same_row exd x x) by (intros x X; destruct (tuple_row exd x X) as [y Y]; exists y; auto).
    constructor; [exact S8|]. constructor; [split; [reflexivity|exact (SS _ tuple_e7)]|]. constructor; [reflexivity|]. constructor; [reflexivity|]. constructor; [split; [reflexivity|exact S6]|].
    constructor; [split; [reflexivity|exact (SS _ tuple_e2)]|constructor].
  - constructor; [exact I|]. constructor; [exact I|]. constructor; [intros u E; vm_compute in E; injection E as <-; intro K; vm_compute in K; discriminate|].
    constructor; [intros u E; vm_compute in E; injection E as <-; intro K; vm_compute in K; discriminate|]. constructor; [exact I|]. constructor; [exact I|constructor].
Qed.
(** the plain operations tell the two pages apart *)
Example C73_plain_operations_differ :
  map snd (fst (run_ops_on (run_table 128 exs exd) (ops_on e8 k6) pg_a)) = [(1, false); (1, false); (1, false); (0, false); (1, false); (0, false)]
  /\ map snd (fst (run_ops_on (run_table 128 exs exd) (ops_on k6 e8) pg_b)) = [(1, false); (0, false); (1, false); (0, false); (0, false); (1, false)].
Proof. split; vm_compute; reflexivity. Qed.
