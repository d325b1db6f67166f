(** Proofs about the endian codecs. *)
From Verif Require Import Base SpecBytes M_endian.

Lemma land_ff x : N.land x 0xff = x mod 256.
Proof. change 0xff with (N.ones 8). apply N.land_ones. Qed.

Lemma shl_lor_add a b n : a < 2 ^ n -> N.lor a (N.shiftl b n) = a + b * 2 ^ n.
Proof.
  intros H. rewrite N.shiftl_mul_pow2.
  assert (N.land a (b * 2 ^ n) = 0) as HL.
  { apply N.bits_inj; intros i. rewrite N.land_spec, N.bits_0.
    destruct (N.lt_ge_cases i n) as [Hi|Hi].
    - rewrite N.mul_pow2_bits_low by auto. apply andb_false_r.
    - rewrite (proj1 (N_lt_pow2_testbit a n) H) by auto. reflexivity. }
  rewrite <- N.lxor_lor by exact HL. symmetry. apply N.add_nocarry_lxor. exact HL.
Qed.

Lemma be_bytes_length n x : length (be_bytes n x) = n.
Proof. revert x; induction n as [|n IH]; intros x; simpl; auto. rewrite app_length, IH. simpl. lia. Qed.
Lemma le_bytes_length n x : length (le_bytes n x) = n.
Proof. revert x; induction n as [|n IH]; intros x; simpl; auto. Qed.

Lemma be_bytes_ok n x : bytes_ok (be_bytes n x).
Proof.
  revert x; induction n as [|n IH]; intros x; simpl; [constructor|].
  apply bytes_ok_app. split; auto. constructor; [apply N.mod_lt; discriminate|constructor].
Qed.

Lemma be_val_app a b : be_val (a ++ [b]) = be_val a * 256 + b.
Proof. unfold be_val. rewrite fold_left_app. reflexivity. Qed.

Lemma be_val_be_bytes n x : be_val (be_bytes n x) = x mod 256 ^ N.of_nat n.
Proof.
  revert x; induction n as [|n IH]; intros x.
  - simpl. change (N.of_nat 0) with 0. rewrite N.pow_0_r, N.mod_1_r. reflexivity.
  - cbn [be_bytes]. rewrite be_val_app, IH.
    rewrite Nat2N.inj_succ, N.pow_succ_r'.
    rewrite N.mod_mul_r by (try apply N.pow_nonzero; discriminate). lia.
Qed.

Lemma be_val_bound l : bytes_ok l -> be_val l < 256 ^ N.of_nat (length l).
Proof.
  induction l as [|b l IH] using rev_ind; intros H.
  - simpl. change (N.of_nat 0) with 0. rewrite N.pow_0_r. reflexivity.
  - rewrite be_val_app, app_length. simpl length. rewrite Nat.add_1_r, Nat2N.inj_succ, N.pow_succ_r'.
    apply bytes_ok_app in H. destruct H as [H1 H2]. inversion H2; subst.
    specialize (IH H1). nia.
Qed.

Lemma be_bytes_be_val l : bytes_ok l -> be_bytes (length l) (be_val l) = l.
Proof.
  induction l as [|b l IH] using rev_ind; intros H; auto.
  rewrite app_length, Nat.add_1_r. cbn [be_bytes]. rewrite be_val_app.
  apply bytes_ok_app in H. destruct H as [H1 H2]. inversion H2; subst.
  rewrite N.div_add_l by discriminate.
  rewrite N.div_small, N.add_0_r by auto.
  rewrite N.add_comm, N.mod_add by discriminate.
  rewrite N.mod_small by auto. rewrite IH by auto. reflexivity.
Qed.

Lemma le_val_le_bytes n x : le_val (le_bytes n x) = x mod 256 ^ N.of_nat n.
Proof.
  revert x; induction n as [|n IH]; intros x.
  - simpl. change (N.of_nat 0) with 0. rewrite N.pow_0_r, N.mod_1_r. reflexivity.
  - cbn [le_bytes le_val]. rewrite IH.
    rewrite Nat2N.inj_succ, N.pow_succ_r'.
    rewrite N.mod_mul_r by (try apply N.pow_nonzero; discriminate). lia.
Qed.

Lemma le_bytes_le_val l : bytes_ok l -> le_bytes (length l) (le_val l) = l.
Proof.
  induction l as [|b l IH]; intros H; auto.
  cbn [length le_bytes le_val]. inversion H; subst.
  rewrite (N.mul_comm 256).
  rewrite N.mod_add by discriminate. rewrite N.mod_small by auto.
  rewrite N.div_add by discriminate. rewrite N.div_small by auto.
  rewrite N.add_0_l, IH by auto. reflexivity.
Qed.

Lemma le_val_bound l : bytes_ok l -> le_val l < 256 ^ N.of_nat (length l).
Proof.
  induction l as [|b l IH]; intros H.
  - simpl. change (N.of_nat 0) with 0. rewrite N.pow_0_r. reflexivity.
  - cbn [length le_val]. rewrite Nat2N.inj_succ, N.pow_succ_r'.
    inversion H; subst. specialize (IH ltac:(assumption)). nia.
Qed.

Lemma le_bytes_ok n x : bytes_ok (le_bytes n x).
Proof.
  revert x; induction n as [|n IH]; intros x; simpl; constructor; [|apply IH].
  apply N.mod_lt; discriminate.
Qed.

Lemma shr_land_ff x n : N.land (N.shiftr x n) 0xff = (x / 2 ^ n) mod 256.
Proof. rewrite land_ff, N.shiftr_div_pow2. reflexivity. Qed.

Ltac enc_tac :=
  intros; cbv [be16enc be32enc be64enc le16enc le32enc le64enc be_bytes le_bytes app];
  rewrite ?shr_land_ff, ?land_ff, ?N.div_div by discriminate; reflexivity.

Lemma be16enc_spec x : be16enc x = be_bytes 2 x. Proof. enc_tac. Qed.
Lemma be32enc_spec x : be32enc x = be_bytes 4 x. Proof. enc_tac. Qed.
Lemma be64enc_spec x : be64enc x = be_bytes 8 x. Proof. enc_tac. Qed.
Lemma le16enc_spec x : le16enc x = le_bytes 2 x. Proof. enc_tac. Qed.
Lemma le32enc_spec x : le32enc x = le_bytes 4 x. Proof. enc_tac. Qed.
Lemma le64enc_spec x : le64enc x = le_bytes 8 x. Proof. enc_tac. Qed.

Lemma w16_small x : x < 2 ^ 16 -> w16 x = x.
Proof.
  intros H. unfold w16. change 0xffff with (N.ones 16). rewrite N.land_ones.
  apply N.mod_small. exact H.
Qed.

Lemma shl_small b n k : b < 256 -> n + 8 <= k -> N.shiftl b n < 2 ^ k.
Proof.
  intros Hb Hk. rewrite N.shiftl_mul_pow2.
  replace k with ((k - n - 8) + (8 + n)) by lia. rewrite N.pow_add_r.
  assert (0 < 2 ^ (k - n - 8)) by (apply N.neq_0_lt_0, N.pow_nonzero; discriminate).
  rewrite N.pow_add_r. change (2 ^ 8) with 256.
  assert (0 < 2 ^ n) by (apply N.neq_0_lt_0, N.pow_nonzero; discriminate). nia.
Qed.

Ltac dec_destr p :=
  intros Hl Hb;
  repeat (destruct p as [|? p]; [discriminate Hl|]);
  destruct p; [|discriminate Hl];
  repeat match goal with H : bytes_ok (_ :: _) |- _ => inversion H; clear H; subst end;
  repeat match goal with H : Forall _ (_ :: _) |- _ => inversion H; clear H; subst end.
Ltac dec_fin :=
  cbv [sel nth];
  rewrite ?w32_small, ?w64_small by (apply shl_small; [assumption|lia]);
  repeat match goal with |- context [N.lor ?a (N.shiftl ?b ?n)] =>
    lazymatch a with context [N.lor _ _] => fail | _ =>
      rewrite (shl_lor_add a b n) by lia end end;
  rewrite ?w16_small by lia;
  unfold be_val; cbn [fold_left le_val];
  rewrite ?N.pow_2_r; lia.

Lemma be16dec_spec p : length p = 2%nat -> bytes_ok p -> be16dec p = be_val p.
Proof. dec_destr p. unfold be16dec. dec_fin. Qed.
Lemma be32dec_spec p : length p = 4%nat -> bytes_ok p -> be32dec p = be_val p.
Proof. dec_destr p. unfold be32dec. dec_fin. Qed.
Lemma be64dec_spec p : length p = 8%nat -> bytes_ok p -> be64dec p = be_val p.
Proof. dec_destr p. unfold be64dec. dec_fin. Qed.
Lemma le16dec_spec p : length p = 2%nat -> bytes_ok p -> le16dec p = le_val p.
Proof. dec_destr p. unfold le16dec. dec_fin. Qed.
Lemma le32dec_spec p : length p = 4%nat -> bytes_ok p -> le32dec p = le_val p.
Proof. dec_destr p. unfold le32dec. dec_fin. Qed.
Lemma le64dec_spec p : length p = 8%nat -> bytes_ok p -> le64dec p = le_val p.
Proof. dec_destr p. unfold le64dec. dec_fin. Qed.
