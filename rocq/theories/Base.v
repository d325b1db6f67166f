(** Basic vocabulary shared by specifications, models and proofs.

    Bytes and machine words are natural numbers [N]; buffers are [list N].
    Every wrap-around of C arithmetic is written explicitly ([w32], [w64]).
    [res] makes undefined behaviour and abnormal termination visible outcomes. *)
From Coq Require Export List NArith ZArith Lia Bool Arith.
From Coq Require Export ZifyBool ZifyNat ZifyN.
Export ListNotations.

Global Open Scope N_scope.
Global Open Scope list_scope.

Arguments N.add : simpl never.
Arguments N.sub : simpl never.
Arguments N.mul : simpl never.
Arguments N.div : simpl never.
Arguments N.modulo : simpl never.
Arguments N.land : simpl never.
Arguments N.lor : simpl never.
Arguments N.lxor : simpl never.
Arguments N.shiftl : simpl never.
Arguments N.shiftr : simpl never.
Arguments N.pow : simpl never.
Arguments N.ltb : simpl never.
Arguments N.leb : simpl never.
Arguments N.eqb : simpl never.
Arguments N.to_nat : simpl never.
Arguments N.of_nat : simpl never.

Notation bytes := (list N) (only parsing).

(** A buffer all of whose elements are bytes (values below 256). *)
Definition bytes_ok (l : list N) : Prop := Forall (fun b => b < 256) l.
(** A buffer all of whose elements are 32-bit words. *)
Definition words_ok (l : list N) : Prop := Forall (fun w => w < 2 ^ 32) l.

(** Truncation to k-bit unsigned integers (conversion to uintk_t). *)
Definition w8 (x : N) : N := N.land x 0xff.
Definition w32 (x : N) : N := N.land x 0xffffffff.
Definition w64 (x : N) : N := N.land x 0xffffffffffffffff.

(** Outcomes of a modelled C function. *)
Inductive res (A : Type) : Type :=
| Ok (a : A)      (* returned normally *)
| UB              (* undefined behaviour reached *)
| Abort.          (* assert() failed or abort() called *)
Arguments Ok {A} a.
Arguments UB {A}.
Arguments Abort {A}.

Definition bind {A B} (m : res A) (k : A -> res B) : res B :=
  match m with Ok a => k a | UB => UB | Abort => Abort end.
Notation "x <- e1 ;; e2" := (bind e1 (fun x => e2))
  (at level 61, e1 at next level, right associativity).
Notation "' p <- e1 ;; e2" := (bind e1 (fun p => e2))
  (at level 61, p pattern, e1 at next level, right associativity).

(** assert(c) *)
Definition assert_ (c : bool) : res unit := if c then Ok tt else Abort.

(** [sub l off len]: the [len] elements of [l] starting at [off]. *)
Definition sub {A} (l : list A) (off len : nat) : list A := firstn len (skipn off l).
(** [upd l off d]: [l] with the elements from [off] on overwritten by [d]. *)
Definition upd {A} (l : list A) (off : nat) (d : list A) : list A :=
  firstn off l ++ d ++ skipn (off + length d) l.

(** Checked array read / write: outside the object is undefined behaviour. *)
Definition rd {A} (l : list A) (off len : nat) : res (list A) :=
  if Nat.leb (off + len) (length l) then Ok (sub l off len) else UB.
Definition wr {A} (l : list A) (off : nat) (d : list A) : res (list A) :=
  if Nat.leb (off + length d) (length l) then Ok (upd l off d) else UB.

(** xor of two buffers element by element (to the shorter length). *)
Fixpoint xorl (a b : list N) : list N :=
  match a, b with
  | x :: a', y :: b' => N.lxor x y :: xorl a' b'
  | _, _ => []
  end.

(** Split into consecutive pieces of [n] elements (last one may be shorter). *)
Fixpoint chunks_fuel {A} (fuel n : nat) (l : list A) : list (list A) :=
  match fuel with
  | O => []
  | S f => match l with
           | [] => []
           | _ => firstn n l :: chunks_fuel f n (skipn n l)
           end
  end.
Definition chunks {A} (n : nat) (l : list A) : list (list A) := chunks_fuel (length l) n l.

(** Decidable equality of buffers. *)
Fixpoint list_eqb (a b : list N) : bool :=
  match a, b with
  | [], [] => true
  | x :: a', y :: b' => (x =? y) && list_eqb a' b'
  | _, _ => false
  end.

(* ------------------------------------------------------------------ *)
(** Elementary lemmas. *)

Lemma w8_mod x : w8 x = x mod 2 ^ 8.
Proof. unfold w8. change 0xff with (N.ones 8). apply N.land_ones. Qed.
Lemma w32_mod x : w32 x = x mod 2 ^ 32.
Proof. unfold w32. change 0xffffffff with (N.ones 32). apply N.land_ones. Qed.
Lemma w64_mod x : w64 x = x mod 2 ^ 64.
Proof. unfold w64. change 0xffffffffffffffff with (N.ones 64). apply N.land_ones. Qed.

Lemma w32_lt x : w32 x < 2 ^ 32.
Proof. rewrite w32_mod. apply N.mod_lt. discriminate. Qed.
Lemma w8_lt x : w8 x < 256.
Proof. rewrite w8_mod. apply N.mod_lt. discriminate. Qed.
Lemma w64_lt x : w64 x < 2 ^ 64.
Proof. rewrite w64_mod. apply N.mod_lt. discriminate. Qed.
Lemma w32_small x : x < 2 ^ 32 -> w32 x = x.
Proof. intros H. rewrite w32_mod. apply N.mod_small; exact H. Qed.
Lemma w8_small x : x < 256 -> w8 x = x.
Proof. intros H. rewrite w8_mod. apply N.mod_small; exact H. Qed.
Lemma w64_small x : x < 2 ^ 64 -> w64 x = x.
Proof. intros H. rewrite w64_mod. apply N.mod_small; exact H. Qed.

Lemma list_eqb_spec a b : list_eqb a b = true <-> a = b.
Proof.
  revert b; induction a as [|x a IH]; intros [|y b]; simpl; try (split; congruence).
  rewrite andb_true_iff, IH, N.eqb_eq. split.
  - intros [-> ->]; reflexivity.
  - intros H; inversion H; auto.
Qed.
Lemma list_eqb_refl a : list_eqb a a = true.
Proof. apply list_eqb_spec; reflexivity. Qed.
Lemma list_eqb_false a b : list_eqb a b = false <-> a <> b.
Proof.
  rewrite <- not_true_iff_false, list_eqb_spec. reflexivity.
Qed.

Lemma sub_length {A} (l : list A) off len :
  (off + len <= length l)%nat -> length (sub l off len) = len.
Proof. intros H. unfold sub. rewrite firstn_length, skipn_length. lia. Qed.

Lemma upd_length {A} (l : list A) off d :
  (off + length d <= length l)%nat -> length (upd l off d) = length l.
Proof.
  intros H. unfold upd. rewrite !app_length, firstn_length, skipn_length. lia.
Qed.

Lemma rd_ok {A} (l : list A) off len :
  (off + len <= length l)%nat -> rd l off len = Ok (sub l off len).
Proof. intros H. unfold rd. destruct (Nat.leb_spec (off + len) (length l)); [reflexivity|lia]. Qed.
Lemma wr_ok {A} (l : list A) off d :
  (off + length d <= length l)%nat -> wr l off d = Ok (upd l off d).
Proof. intros H. unfold wr. destruct (Nat.leb_spec (off + length d) (length l)); [reflexivity|lia]. Qed.

Lemma rd_Ok_inv {A} (l : list A) off len r :
  rd l off len = Ok r -> (off + len <= length l)%nat /\ r = sub l off len.
Proof. unfold rd. destruct (Nat.leb_spec (off + len) (length l)); intros E; inversion E; auto. Qed.
Lemma wr_Ok_inv {A} (l : list A) off d r :
  wr l off d = Ok r -> (off + length d <= length l)%nat /\ r = upd l off d.
Proof. unfold wr. destruct (Nat.leb_spec (off + length d) (length l)); intros E; inversion E; auto. Qed.

Lemma upd_0_full {A} (l d : list A) : length d = length l -> upd l 0 d = d.
Proof.
  intros H. unfold upd. simpl. rewrite skipn_all2 by lia. apply app_nil_r.
Qed.

Lemma upd_app {A} (a b c d : list A) :
  length b = length d -> upd (a ++ b ++ c) (length a) d = a ++ d ++ c.
Proof.
  intros H. unfold upd.
  rewrite firstn_app, Nat.sub_diag, firstn_O, app_nil_r, firstn_all.
  f_equal. f_equal.
  rewrite skipn_app. rewrite skipn_all2 by lia. simpl.
  rewrite skipn_app. rewrite skipn_all2 by lia. simpl.
  replace (length a + length d - length a - length b)%nat with 0%nat by lia. reflexivity.
Qed.

Lemma sub_app_mid {A} (a b c : list A) : sub (a ++ b ++ c) (length a) (length b) = b.
Proof.
  unfold sub. rewrite skipn_app, Nat.sub_diag, skipn_all2 by lia. simpl.
  rewrite firstn_app, Nat.sub_diag, firstn_all, firstn_O. apply app_nil_r.
Qed.

Lemma sub_0_all {A} (l : list A) n : n = length l -> sub l 0 n = l.
Proof. intros ->. unfold sub. simpl. apply firstn_all. Qed.

Lemma xorl_length a b : length (xorl a b) = Nat.min (length a) (length b).
Proof. revert b; induction a as [|x a IH]; intros [|y b]; simpl; auto. Qed.

Lemma xorl_involutive a b : (length a <= length b)%nat -> xorl (xorl a b) b = a.
Proof.
  revert b; induction a as [|x a IH]; intros [|y b]; simpl; intros H; auto; try lia.
  rewrite IH by lia. rewrite N.lxor_assoc, N.lxor_nilpotent, N.lxor_0_r. reflexivity.
Qed.

Lemma xorl_app a1 a2 b1 b2 : length a1 = length b1 ->
  xorl (a1 ++ a2) (b1 ++ b2) = xorl a1 b1 ++ xorl a2 b2.
Proof.
  revert b1; induction a1 as [|x a IH]; intros [|y b]; simpl; intros H; try lia; auto.
  f_equal. apply IH. lia.
Qed.

Lemma xorl_firstn n a b : firstn n (xorl a b) = xorl (firstn n a) (firstn n b).
Proof.
  revert a b; induction n as [|n IH]; intros [|x a] [|y b]; simpl; auto.
  f_equal. apply IH.
Qed.
Lemma xorl_skipn n a b : skipn n (xorl a b) = xorl (skipn n a) (skipn n b).
Proof.
  revert a b; induction n as [|n IH]; intros [|x a] [|y b]; simpl; auto.
  - destruct (skipn n a); reflexivity.
Qed.

Lemma xorl_comm a b : xorl a b = xorl b a.
Proof.
  revert b; induction a as [|x a IH]; intros [|y b]; simpl; auto.
  rewrite IH, N.lxor_comm. reflexivity.
Qed.

(** chunks: unfolding equations. *)
Lemma chunks_fuel_enough {A} n (l : list A) f1 f2 :
  (0 < n)%nat -> (length l <= f1)%nat -> (length l <= f2)%nat ->
  chunks_fuel f1 n l = chunks_fuel f2 n l.
Proof.
  intros Hn. revert f2 l. induction f1 as [|f1 IH]; intros f2 l H1 H2.
  - destruct l; simpl in *; [|lia]. destruct f2; reflexivity.
  - destruct l as [|x l]; [destruct f2; reflexivity|].
    destruct f2 as [|f2]; [simpl in *; lia|].
    cbn [chunks_fuel]. f_equal. apply IH; rewrite skipn_length; cbn [length] in *; lia.
Qed.

Lemma chunks_nil {A} n : chunks n (@nil A) = [].
Proof. reflexivity. Qed.

Lemma chunks_cons {A} n (l : list A) : (0 < n)%nat -> l <> [] ->
  chunks n l = firstn n l :: chunks n (skipn n l).
Proof.
  intros Hn Hl. destruct l as [|x l]; [congruence|].
  unfold chunks. cbn [length chunks_fuel]. f_equal.
  assert (length (skipn n (x :: l)) <= length l)%nat as HL
    by (rewrite skipn_length; cbn [length]; lia).
  apply chunks_fuel_enough; auto.
Qed.

Lemma chunks_app_block {A} n (b l : list A) : (0 < n)%nat -> length b = n ->
  chunks n (b ++ l) = b :: chunks n l.
Proof.
  intros Hn Hb. rewrite chunks_cons; auto.
  - rewrite firstn_app, skipn_app, Hb, Nat.sub_diag, firstn_O, app_nil_r.
    rewrite firstn_all2 by lia. rewrite skipn_all2 by lia. reflexivity.
  - destruct b; simpl in *; [lia|discriminate].
Qed.

Lemma chunks_short {A} n (l : list A) : (0 < n)%nat -> l <> [] -> (length l <= n)%nat ->
  chunks n l = [l].
Proof.
  intros Hn Hl Hlen. rewrite chunks_cons by auto.
  rewrite firstn_all2, skipn_all2 by lia. reflexivity.
Qed.

(** Induction principle: lists whose length is a multiple of [n]. *)
Lemma blocks_ind {A} (n : nat) (P : list A -> Prop) :
  (0 < n)%nat ->
  P [] ->
  (forall b l, length b = n -> (length l mod n = 0)%nat -> P l -> P (b ++ l)) ->
  forall l, (length l mod n = 0)%nat -> P l.
Proof.
  intros Hn H0 HS l Hl.
  remember (length l / n)%nat as k eqn:Hk. revert l Hl Hk.
  induction k as [|k IH]; intros l Hl Hk.
  - pose proof (Nat.div_mod (length l) n ltac:(lia)) as E.
    rewrite <- Hk, Hl in E. destruct l; [exact H0|simpl in E; lia].
  - pose proof (Nat.div_mod (length l) n ltac:(lia)) as E.
    rewrite <- Hk, Hl in E.
    rewrite <- (firstn_skipn n l).
    assert (length (skipn n l) = n * k)%nat as EL by (rewrite skipn_length; lia).
    apply HS.
    + rewrite firstn_length. lia.
    + rewrite EL, Nat.mul_comm. apply Nat.mod_mul. lia.
    + apply IH.
      * rewrite EL, Nat.mul_comm. apply Nat.mod_mul. lia.
      * rewrite EL, Nat.mul_comm, Nat.div_mul; lia.
Qed.

Lemma bytes_ok_app a b : bytes_ok (a ++ b) <-> bytes_ok a /\ bytes_ok b.
Proof. apply Forall_app. Qed.
Lemma Forall_firstn {A} (P : A -> Prop) n l : Forall P l -> Forall P (firstn n l).
Proof.
  intros H. rewrite <- (firstn_skipn n l) in H. apply Forall_app in H. tauto.
Qed.
Lemma Forall_skipn {A} (P : A -> Prop) n l : Forall P l -> Forall P (skipn n l).
Proof.
  intros H. rewrite <- (firstn_skipn n l) in H. apply Forall_app in H. tauto.
Qed.
Lemma Forall_sub {A} (P : A -> Prop) o n l : Forall P l -> Forall P (sub l o n).
Proof. intros H. apply Forall_firstn, Forall_skipn, H. Qed.

(** Bit-level reasoning. *)
Lemma N_lt_pow2_testbit a n : a < 2 ^ n <-> (forall i, n <= i -> N.testbit a i = false).
Proof.
  split.
  - intros H i Hi.
    destruct (N.eq_dec a 0) as [->|Ha]; [apply N.bits_0|].
    apply N.bits_above_log2. apply N.log2_lt_pow2 in H; lia.
  - intros H.
    destruct (N.eq_dec a 0) as [->|Ha]; [apply N.neq_0_lt_0; apply N.pow_nonzero; lia|].
    apply N.log2_lt_pow2; [lia|].
    destruct (N.lt_ge_cases (N.log2 a) n) as [|Hge]; auto.
    specialize (H _ Hge). rewrite N.bit_log2 in H by auto. discriminate.
Qed.

Lemma lxor_lt a b n : a < 2 ^ n -> b < 2 ^ n -> N.lxor a b < 2 ^ n.
Proof.
  rewrite !N_lt_pow2_testbit. intros Ha Hb i Hi. rewrite N.lxor_spec, Ha, Hb by auto. reflexivity.
Qed.
Lemma lor_lt a b n : a < 2 ^ n -> b < 2 ^ n -> N.lor a b < 2 ^ n.
Proof.
  rewrite !N_lt_pow2_testbit. intros Ha Hb i Hi. rewrite N.lor_spec, Ha, Hb by auto. reflexivity.
Qed.
Lemma land_lt_l a b n : a < 2 ^ n -> N.land a b < 2 ^ n.
Proof.
  rewrite !N_lt_pow2_testbit. intros Ha i Hi. rewrite N.land_spec, Ha by auto. reflexivity.
Qed.

Lemma bytes_ok_xorl a b : bytes_ok a -> bytes_ok b -> bytes_ok (xorl a b).
Proof.
  revert b; induction a as [|x a IH]; intros [|y b] Ha Hb; simpl; try constructor.
  - inversion Ha; inversion Hb; subst. change 256 with (2 ^ 8). apply lxor_lt; assumption.
  - inversion Ha; inversion Hb; subst. apply IH; assumption.
Qed.

Ltac bitwise :=
  apply N.bits_inj; intro;
  repeat first [rewrite N.lxor_spec | rewrite N.land_spec | rewrite N.lor_spec | rewrite N.ldiff_spec];
  repeat match goal with |- context [N.testbit ?x ?i] => destruct (N.testbit x i) end;
  try reflexivity.

(** Array element read (index known to be in range at every use; the proofs
    of the array lengths are in the P_ files) and array element write. *)
Definition sel (l : list N) (i : nat) : N := nth i l 0.
Fixpoint set_nth {A} (l : list A) (i : nat) (v : A) : list A :=
  match l, i with
  | [], _ => []
  | _ :: t, O => v :: t
  | x :: t, S j => x :: set_nth t j v
  end.

Lemma set_nth_length {A} (l : list A) i v : length (set_nth l i v) = length l.
Proof. revert i; induction l as [|x l IH]; intros [|i]; simpl; auto. Qed.
Lemma nth_set_nth_eq {A} (l : list A) i v d : (i < length l)%nat -> nth i (set_nth l i v) d = v.
Proof. revert i; induction l as [|x l IH]; intros [|i]; simpl; intros H; try lia; auto. apply IH; lia. Qed.
Lemma nth_set_nth_ne {A} (l : list A) i j v d : i <> j -> nth j (set_nth l i v) d = nth j l d.
Proof.
  revert i j; induction l as [|x l IH]; intros [|i] [|j] H; simpl; auto; try congruence.
Qed.

(** 32-bit wrapping addition and rotation. *)
Definition add32 (a b : N) : N := w32 (a + b).
Lemma add32_mod a b : add32 a b = (a + b) mod 2 ^ 32.
Proof. apply w32_mod. Qed.
Lemma add32_comm a b : add32 a b = add32 b a.
Proof. unfold add32. rewrite N.add_comm. reflexivity. Qed.
Lemma add32_assoc a b c : add32 (add32 a b) c = add32 a (add32 b c).
Proof.
  rewrite !add32_mod. rewrite N.add_mod_idemp_l, N.add_mod_idemp_r by discriminate.
  rewrite N.add_assoc. reflexivity.
Qed.
Lemma add32_lt a b : add32 a b < 2 ^ 32.
Proof. apply w32_lt. Qed.

Lemma skipn_skipn {A} n m (l : list A) : skipn n (skipn m l) = skipn (n + m) l.
Proof.
  revert l; induction m as [|m IH]; intros l; [rewrite Nat.add_0_r; reflexivity|].
  destruct l as [|x l]; [rewrite !skipn_nil; reflexivity|].
  rewrite Nat.add_succ_r. cbn [skipn]. apply IH.
Qed.

Lemma upd_adjacent {A} (l : list A) o a b : (o + length a <= length l)%nat ->
  upd (upd l o a) (o + length a) b = upd l o (a ++ b).
Proof.
  intros H. unfold upd.
  assert (length (firstn o l ++ a) = o + length a)%nat as HL
    by (rewrite app_length, firstn_length; lia).
  rewrite !(app_assoc (firstn o l) a).
  rewrite firstn_app, HL, Nat.sub_diag, firstn_O, app_nil_r.
  rewrite (firstn_all2 (firstn o l ++ a)) by lia.
  rewrite skipn_app, HL.
  rewrite (skipn_all2 (firstn o l ++ a)) by lia. rewrite app_nil_l, skipn_skipn.
  rewrite <- !app_assoc. do 3 f_equal. f_equal. rewrite app_length. lia.
Qed.

Lemma w32_add_l a b : w32 (w32 a + b) = w32 (a + b).
Proof. rewrite !w32_mod. apply N.add_mod_idemp_l. discriminate. Qed.
Lemma w32_add_r a b : w32 (a + w32 b) = w32 (a + b).
Proof. rewrite !w32_mod. apply N.add_mod_idemp_r. discriminate. Qed.
(** Decide equality of sums modulo 2^32. *)
Ltac add32_solve :=
  repeat match goal with |- context [add32 ?a ?b] =>
    lazymatch a with context [add32 _ _] => fail | _ => idtac end;
    lazymatch b with context [add32 _ _] => fail | _ => idtac end;
    change (add32 a b) with (w32 (a + b)); rewrite ?w32_add_l, ?w32_add_r end;
  f_equal; lia.
