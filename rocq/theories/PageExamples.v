(** * Concrete pages: the hypotheses of the page theorems are met *)
From Coq Require Import ZifyBool ZifyNat Permutation Sorted.
From Verif Require Import BytesFacts.
From Verif Require Export PageSpec.

(** a sort that meets the contract of the compaction *)
Fixpoint ins (a : Z * Z) (l : list (Z * Z)) : list (Z * Z) :=
  match l with
  | [] => [a]
  | b :: r => if fst b <=? fst a then a :: b :: r else b :: ins a r
  end.
Fixpoint isort (l : list (Z * Z)) : list (Z * Z) :=
  match l with [] => [] | a :: r => ins a (isort r) end.
Lemma ins_perm a l : Permutation (a :: l) (ins a l).
Proof.
  induction l as [|b r IH]; cbn [ins]; [reflexivity|]. destruct (fst b <=? fst a); [reflexivity|].
  rewrite perm_swap, IH. reflexivity.
Qed.
Lemma isort_sorts : sorts isort.
Proof.
  intro l. induction l as [|a r [IH1 IH2]]; cbn [isort]; [split; [reflexivity|constructor]|]. split.
  - rewrite <- ins_perm, <- IH1. reflexivity.
  - clear IH1. induction IH2 as [|b l S IH F]; cbn [ins]; [repeat constructor|].
    destruct (Z.leb_spec (fst b) (fst a)).
    + constructor; [constructor; assumption|]. constructor; [exact H|].
      rewrite Forall_forall in *. intros c Hc. specialize (F c Hc). unfold desc in *. lia.
    + constructor; [exact IH|]. rewrite Forall_forall in *. intros c Hc.
      apply (Permutation_in c (Permutation_sym (ins_perm a l))) in Hc as [<-|Hc]; [unfold desc; lia|auto].
Qed.

(** run a list of operations *)
Fixpoint run_ops (ps : Z) (d : size_def) (ops : list page_op) (p : mem) : res mem :=
  match ops with
  | [] => Ok p
  | op :: l => let* (r, p1) := run_op ps d op p in run_ops ps d l p1
  end.
Lemma run_ops_reachable ps h d ops : forall p p', reachable ps h d p -> Forall (op_ok h d) ops ->
  run_ops ps d ops p = Ok p' -> reachable ps h d p'.
Proof.
  induction ops as [|op l IH]; intros p p' R F E; cbn [run_ops] in E.
  - inversion E; subst; exact R.
  - inversion F; subst. apply bind_inv in E as ([r p1] & E1 & E2). eapply IH; [|eassumption|exact E2].
    eapply reachable_op; eassumption.
Qed.
Definition value_of (r : res mem) : mem := match r with Ok p => p | UB => [] end.
Definition fresh (ps h : Z) (d : size_def) : mem :=
  value_of (let* (_, p) := init_page (repeat Byte.xff (Z.to_nat ps)) ps h d in Ok p).

(** the answer of an operation and the entries it leaves *)
Definition after {A} (ps : Z) (d : size_def) (r : res (A * mem)) : res (A * content) :=
  let* (a, p) := r in let* c := contents ps d p in Ok (a, c).

(** a slotted page: 128 bytes, 10 bytes of header, tuples of 3 to 90 bytes that
    start with their size (one byte) *)
Definition vd : size_def := mk_size_def true 3 90 true false false false 0.
Definition vt (n : nat) (b : byte) : tuple := z2b (Z.of_nat n) :: repeat b (n - 1).
Definition v_ops : list page_op :=
  [Append (Some (vt 20 Byte.x61)); Append None; Append (Some (vt 3 Byte.x62)); WriteHeader 2 [Byte.x41; Byte.x42];
   Insert 1 (Some (vt 30 Byte.x63)); Update 0 (Some (vt 12 Byte.x64)); Swap 0 2; Update 1 (Some (vt 31 Byte.x65));
   Append (Some (vt 3 Byte.x66)); Discard 3; Append None].
Definition vp : mem := Eval vm_compute in value_of (run_ops 128 vd v_ops (fresh 128 10 vd)).
Definition vc : content :=
  [None; Some (vt 31 Byte.x65); Some (vt 12 Byte.x64); Some (vt 3 Byte.x66); None].

(** a fixed array page: 128 bytes, 20 bytes of header, tuples of 16 bytes *)
Definition fd : size_def := mk_size_def false 16 0 false false false false 0.
Definition ft (b : byte) : tuple := repeat b 16.
Definition f_ops : list page_op :=
  [Append (Some (ft Byte.x61)); Append None; Append (Some (ft Byte.x62)); WriteHeader 2 [Byte.x41; Byte.x42];
   Insert 1 (Some (ft Byte.x63)); Update 0 (Some (ft Byte.x64)); Swap 0 2; Discard 3; Append None].
Definition fp : mem := Eval vm_compute in value_of (run_ops 128 fd f_ops (fresh 128 20 fd)).
Definition fc : content := [None; Some (ft Byte.x63); Some (ft Byte.x64); None].

Lemma v_limits : limits 128 10 vd.
Proof. unfold limits, def_ok, max_tuple_size, max_bytes; cbn; lia. Qed.
Lemma f_limits : limits 128 20 fd.
Proof. unfold limits, def_ok, max_tuple_size, max_bytes; cbn; lia. Qed.
Lemma vt_ok n b : (3 <= n <= 90)%nat -> ext_ok vd (Some (vt n b)).
Proof.
  intro Hn. unfold ext_ok, tuple_ok. assert (L : zlen (vt n b) = Z.of_nat n) by (unfold vt; rewrite zlen_cons, zlen_repeat; lia).
  rewrite L. split; [|cbn; lia]. do 90 (destruct n as [|n]; [reflexivity || lia|]). destruct n; [reflexivity|lia].
Qed.
Lemma ft_ok b : ext_ok fd (Some (ft b)).
Proof. unfold ext_ok, tuple_ok. cbn. split; [reflexivity|]. unfold zlen, ft. cbn. lia. Qed.
Example v_reachable : reachable 128 10 vd vp /\ contents 128 vd vp = Ok vc.
Proof.
  split; [|reflexivity].
  apply run_ops_reachable with (ops := v_ops) (p := fresh 128 10 vd).
  - eapply reachable_init with (p0 := repeat Byte.xff 128); reflexivity.
  - repeat constructor; cbn [op_ok]; try exact I; try (apply vt_ok; lia); unfold is_u32; try lia; cbn; try lia; apply vt_ok; lia.
  - vm_compute. reflexivity.
Qed.
Example f_reachable : reachable 128 20 fd fp /\ contents 128 fd fp = Ok fc.
Proof.
  split; [|reflexivity].
  apply run_ops_reachable with (ops := f_ops) (p := fresh 128 20 fd).
  - eapply reachable_init with (p0 := repeat Byte.xff 128); reflexivity.
  - repeat constructor; cbn [op_ok]; try exact I; try apply ft_ok; unfold is_u32; try lia; cbn; try lia; apply ft_ok.
  - vm_compute. reflexivity.
Qed.
