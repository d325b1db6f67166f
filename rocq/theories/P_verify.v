(** crypto_verify_bytes is an equality test. *)
From Verif Require Import Base M_verify.

Lemma sub_S {A} (l : list A) i n d : (i < length l)%nat -> sub l i (S n) = nth i l d :: sub l (S i) n.
Proof.
  unfold sub. revert i. induction l as [|x l IH]; intros i Hi; [simpl in Hi; lia|].
  destruct i as [|i]; [reflexivity|]. cbn [length] in Hi. cbn [skipn nth]. apply IH. lia.
Qed.
Lemma rd1 (l : bytes) i : (i < length l)%nat -> rd l i 1 = Ok [sel l i].
Proof.
  intros H. rewrite rd_ok by lia. f_equal. unfold sel. rewrite (sub_S l i 0 0 H). reflexivity.
Qed.
Lemma lor_0_iff a b : N.lor a b = 0 <-> a = 0 /\ b = 0.
Proof. apply N.lor_eq_0_iff. Qed.

Lemma verify_loop_spec n : forall i b0 b1 rc,
  bytes_ok b0 -> bytes_ok b1 -> rc < 256 ->
  (i + n <= length b0)%nat -> (i + n <= length b1)%nat ->
  exists v, verify_loop n i b0 b1 rc = Ok v /\ v < 256 /\
    (v = 0 <-> rc = 0 /\ sub b0 i n = sub b1 i n) /\
    verify_trace n i b0 b1 rc = (seq i n, Ok v).
Proof.
  induction n as [|n IH]; intros i b0 b1 rc H0 H1 Hrc L0 L1; cbn [verify_loop verify_trace seq].
  - exists rc. split; [reflexivity|]. split; [exact Hrc|]. split; [|reflexivity].
    unfold sub. cbn [firstn]. tauto.
  - rewrite !rd1 by lia. cbn [bind].
    assert (sel b0 i < 256) as Ha by (eapply Forall_forall in H0; [exact H0|apply nth_In; lia]).
    assert (sel b1 i < 256) as Hb by (eapply Forall_forall in H1; [exact H1|apply nth_In; lia]).
    assert (N.lxor (sel b0 i) (sel b1 i) < 256) as Hx by (apply (lxor_lt _ _ 8); assumption).
    change (sel [sel b0 i] 0) with (sel b0 i). change (sel [sel b1 i] 0) with (sel b1 i).
    assert (N.lor rc (N.lxor (sel b0 i) (sel b1 i)) < 256) as Ho by (apply (lor_lt _ _ 8); assumption).
    rewrite w8_small by exact Ho.
    destruct (IH (S i) b0 b1 _ H0 H1 Ho ltac:(lia) ltac:(lia)) as (v & Ev & Hv & Hiff & Ht).
    exists v. split; [exact Ev|]. split; [exact Hv|]. rewrite Ht. split; [|reflexivity].
    rewrite Hiff, lor_0_iff, N.lxor_eq_0_iff.
    rewrite (sub_S b0 i n 0), (sub_S b1 i n 0) by lia.
    change (nth i b0 0) with (sel b0 i). change (nth i b1 0) with (sel b1 i).
    split; [intros [[-> ->] ->]; auto|].
    intros [-> HH]. injection HH as -> ->. auto.
Qed.

(** Comparing two whole buffers. *)
Lemma verify_whole a b : bytes_ok a -> bytes_ok b -> length a = length b ->
  exists v, crypto_verify_bytes a b (length a) = Ok v /\ (v =? 0) = list_eqb a b.
Proof.
  intros Ha Hb HL.
  destruct (verify_loop_spec (length a) 0 a b 0 Ha Hb ltac:(lia) ltac:(lia) ltac:(lia)) as (v & E & _ & Hiff & _).
  exists v. split; [exact E|].
  rewrite (sub_0_all a) in Hiff by lia. rewrite (sub_0_all b) in Hiff by lia.
  destruct (list_eqb a b) eqn:EL.
  - apply list_eqb_spec in EL. apply N.eqb_eq. tauto.
  - apply list_eqb_false in EL. apply N.eqb_neq. tauto.
Qed.
