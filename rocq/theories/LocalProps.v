(** * C54: the functions on tuples work on their buffer alone

    A buffer [t] may lie anywhere, between any other bytes [A] and [B]: what a
    function answers there is what it answers on [t] alone, and it changes the
    bytes of [t] in the same way and no other byte. *)
From Coq Require Import String.
From Verif Require Import OpFacts SizeProps TupleProps TupleExamples.
From Verif Require FrameFacts.
From Coq Require Import ZifyBool ZifyNat ZifyN Zify.
Ltac Zify.zify_post_hook ::= Z.div_mod_to_equations.
Open Scope list_scope.
Open Scope Z_scope.

Theorem C54_writes_only_the_buffer (A B t : mem) d o : 
  (forall t', init_tuple d t o = Ok t' -> init_tuple d (A ++ t ++ B) (zlen A + o) = Ok (A ++ t' ++ B))
  /\ (forall pa v inc r t', set_element d pa t o v inc = Ok (r, t') -> set_element d pa (A ++ t ++ B) (zlen A + o) v inc = Ok (r, A ++ t' ++ B))
  /\ (forall pa index slots inc r t', expand_element d pa t o index slots inc = Ok (r, t') ->
        expand_element d pa (A ++ t ++ B) (zlen A + o) index slots inc = Ok (r, A ++ t' ++ B))
  /\ (forall pa index slots r t', discard_elements d pa t o index slots = Ok (r, t') ->
        discard_elements d pa (A ++ t ++ B) (zlen A + o) index slots = Ok (r, A ++ t' ++ B)).
Proof.
  split; [|split; [|split]].
  - intros t' E. unfold init_tuple in *. apply bind_inv in E as ([s m1] & E & E').
    destruct (FrameFacts.fr_init A B d t o _ eq_refl _ E) as ([s2 m2] & E2 & Q1 & Q2). unfold FrameFacts.emb in *. cbn [fst snd] in *. injection E' as ->. rewrite E2. cbn [bind]. rewrite Q2. reflexivity.
  - intros pa v inc r t' E. destruct (FrameFacts.fr_set_element A B pa d t o v inc _ E) as ([r2 m2] & E2 & Q1 & Q2). unfold FrameFacts.emb in *. cbn [fst snd] in *. subst. exact E2.
  - intros pa index slots inc r t' E. destruct (FrameFacts.fr_expand_element A B pa d t o index slots inc _ E) as ([r2 m2] & E2 & Q1 & Q2). unfold FrameFacts.emb in *. cbn [fst snd] in *. subst. exact E2.
  - intros pa index slots r t' E. destruct (FrameFacts.fr_discard_elements A B pa d t o index slots _ E) as ([r2 m2] & E2 & Q1 & Q2). unfold FrameFacts.emb in *. cbn [fst snd] in *. subst. exact E2.
Qed.
Print Assumptions C54_writes_only_the_buffer.

Theorem C54_reads_only_the_buffer (A B t : mem) d o :
  (forall n, get_size d t o = Ok n -> get_size d (A ++ t ++ B) (zlen A + o) = Ok n)
  /\ (forall pa x, observe d pa t o = Ok x -> observe d pa (A ++ t ++ B) (zlen A + o) = Ok x)
  /\ (forall pa n, element_count_of d pa t o = Ok n -> element_count_of d pa (A ++ t ++ B) (zlen A + o) = Ok n)
  /\ (forall pa n, get_max_size_increment_allowed d pa t o = Ok n -> get_max_size_increment_allowed d pa (A ++ t ++ B) (zlen A + o) = Ok n)
  /\ (forall pa v inc r, can_set_element d pa t o v inc = Ok r -> can_set_element d pa (A ++ t ++ B) (zlen A + o) v inc = Ok r)
  /\ (forall pa index slots inc r, can_expand_element d pa t o index slots inc = Ok r -> can_expand_element d pa (A ++ t ++ B) (zlen A + o) index slots inc = Ok r)
  /\ (forall pa index slots r, can_discard_elements d pa t o index slots = Ok r -> can_discard_elements d pa (A ++ t ++ B) (zlen A + o) index slots = Ok r).
Proof.
  split; [|split; [|split; [|split; [|split; [|split]]]]].
  - intros n E. destruct (FrameFacts.fr_get_size A B d t o _ eq_refl _ E) as (x & E2 & <-). exact E2.
  - intros pa x E. unfold observe in *. apply bind_inv in E as (v & E & E'). destruct (FrameFacts.fr_value A B pa d t o _ eq_refl _ E) as (y & E2 & Q). unfold FrameFacts.emb in E2. rewrite E2. cbn [bind]. rewrite Q. clear Q.
    destruct v as [v|]; [|exact E']. cbn [option_map]. destruct (get_type_info d pa) as [u|].
    + assert (E0 : (let* r := obs_of u v in Ok (Some r)) = Ok x) by (destruct v; exact E'). clear E'. apply bind_inv in E0 as (w & E' & E3).
      assert (Q : obs_of u (FrameFacts.shift A B v) = Ok w).
      2: { revert Q E3. clear. generalize (FrameFacts.shift A B v). intros v' Q E3. destruct v'; rewrite Q; exact E3. }
      destruct v as [| | | | | | | | |m a k|m a]; try exact E'; cbn [FrameFacts.shift obs_of] in *.
      * apply bind_inv in E' as (bs & E4 & E5). destruct (FrameFacts.fr_rd A B m a _ k eq_refl _ E4) as (z & -> & <-). exact E5.
      * apply bind_inv in E' as (s & E4 & E5). destruct (FrameFacts.fr_get_size A B u m a _ eq_refl _ E4) as (z & -> & <-). cbn [bind].
        apply bind_inv in E5 as (bs & E6 & E7). destruct (FrameFacts.fr_rd A B m a _ s eq_refl _ E6) as (z & -> & <-). exact E7.
    + destruct v; try discriminate; exact E'.
  - intros pa n E. destruct (FrameFacts.fr_count_of A B pa d t o _ eq_refl _ E) as (x & E2 & <-). exact E2.
  - intros pa n E. unfold get_max_size_increment_allowed in *. destruct (FrameFacts.fr_max_increment A B pa d t o _ _ eq_refl _ E) as (x & E2 & <-). exact E2.
  - intros pa v inc r E. destruct (FrameFacts.fr_can_set_element A B pa d t o _ v inc eq_refl _ E) as (x & E2 & <-). exact E2.
  - intros pa index slots inc r E. destruct (FrameFacts.fr_can_expand_element A B pa d t o index slots inc _ E) as (x & E2 & <-). exact E2.
  - intros pa index slots r E. destruct (FrameFacts.fr_can_discard_elements A B pa d t o index slots _ E) as (x & E2 & <-). exact E2.
Qed.
Print Assumptions C54_reads_only_the_buffer.
(** the history of TupleExamples.v between other bytes; the buffer alone is
    enough for it, by C32 and C36 *)
Example C54_example : let A := repeat Byte.xab 7 in let B := repeat Byte.xcd 3 in
  set_element exd [1] (A ++ e6 ++ B) 7 (str "good bye") 50 = Ok (true, A ++ e7 ++ B)
  /\ observe exd [3; 1; 1] (A ++ e6 ++ B) 7 = Ok (Some (bytes_of "ab")).
Proof. split; vm_compute; reflexivity. Qed.
