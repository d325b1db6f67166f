(** Property C46: which passphrases are interchangeable. *)
From Verif Require Import Base SpecBytes SpecSHA SpecScrypt SpecScryptAPI SpecAES SpecFormat SpecStream
  P_sha256 P_scrypt P_scrypt_ref M_machine M_cpuperf M_params M_stdio M_scryptenc SpecScryptenc P_scryptenc P_scryptenc4 Prop_params Prop_enc Prop_dec.

(** The key block HMAC derives from a passphrase determines the derived keys. *)
Lemma hmac_same P1 P2 m : hmac_key P1 = hmac_key P2 -> hmac P1 m = hmac P2 m.
Proof. intros H. unfold hmac. rewrite H. reflexivity. Qed.
Lemma pbkdf2_same P1 P2 Sa c n : hmac_key P1 = hmac_key P2 -> pbkdf2 P1 Sa c n = pbkdf2 P2 Sa c n.
Proof.
  intros H. unfold pbkdf2. f_equal. apply flat_map_ext. intros i. unfold pbkdf2_T. rewrite (hmac_same P1 P2 _ H).
  set (U := hmac P2 _). generalize U at 1 3. generalize U. clear U. induction (N.to_nat c - 1)%nat as [|k IH]; intros T U; cbn [pbkdf2_xor]; [reflexivity|].
  cbv zeta. rewrite (hmac_same P1 P2 _ H). apply IH.
Qed.
Lemma wrapping_same P1 P2 Sa N_ r p n : hmac_key P1 = hmac_key P2 -> scrypt_wrapping P1 Sa N_ r p n = scrypt_wrapping P2 Sa N_ r p n.
Proof. intros H. unfold scrypt_wrapping. rewrite (pbkdf2_same P1 P2 Sa 1 _ H). apply (pbkdf2_same P1 P2 _ 1 _ H). Qed.
Lemma keys_same P1 P2 h : hmac_key P1 = hmac_key P2 -> fmt_keys kdf P1 h = fmt_keys kdf P2 h.
Proof. intros H. unfold fmt_keys. apply wrapping_same, H. Qed.
Lemma file_same P1 P2 h d : hmac_key P1 = hmac_key P2 -> fmt_file kdf P1 h d = fmt_file kdf P2 h d.
Proof. intros H. unfold fmt_file, fmt_body, fmt_96, key_hmac, key_enc. rewrite (keys_same P1 P2 h H). reflexivity. Qed.

(** Two passphrases that every file treats alike: same files are produced
    (given the salt), and decryption of any input gives the same status and,
    on success, the same output and parameters. *)
Definition interchangeable (P1 P2 : bytes) : Prop :=
  (forall h d, fmt_file scrypt_wrapping P1 h d = fmt_file scrypt_wrapping P2 h d) /\
  (forall M cfg lb hp e f outbuf outlen P verbose,
     dec_ready M hp P1 -> dec_ready M hp P2 -> data_ok f -> (length f - 128 <= length outbuf)%nat -> all_zero P = true -> no_failure e ->
     exists o1 o2, scryptdec_buf M cfg lb hp e f outbuf outlen P1 P verbose true = Ok o1 /\
       scryptdec_buf M cfg lb hp e f outbuf outlen P2 P verbose true = Ok o2 /\
       oc_rc o1 = oc_rc o2 /\ (oc_rc o1 = SCRYPT_OK -> oc_val o1 = oc_val o2 /\ oc_P o1 = oc_P o2)).
Theorem C46_same_key_block P1 P2 : hmac_key P1 = hmac_key P2 -> interchangeable P1 P2.
Proof.
  intros H. split; [intros; apply file_same, H|].
  intros M cfg lb hp e f outbuf outlen P verbose R1 R2 HD HO HZ HN.
  destruct (C06_status_buffer M cfg lb hp e f outbuf outlen P1 P verbose R1 HD HO HZ HN) as (o1 & E1 & C1).
  destruct (C06_status_buffer M cfg lb hp e f outbuf outlen P2 P verbose R2 HD HO HZ HN) as (o2 & E2 & C2).
  exists o1, o2. split; [exact E1|]. split; [exact E2|]. split.
  - apply C1. pose proof (proj1 (C2 _) eq_refl) as HC. revert HC. generalize (oc_rc o2). intros rc HC.
    assert (passphrase_ok P1 f <-> passphrase_ok P2 f) as HP by (unfold passphrase_ok, key_hmac; rewrite (keys_same P1 P2 _ H); tauto).
    assert (trailer_ok P1 f <-> trailer_ok P2 f) as HT by (unfold trailer_ok, key_hmac; rewrite (keys_same P1 P2 _ H); tauto).
    destruct HC as [A1|A1 A2 A3|A1 A2 A3|A1 A2 A3 A4|A1 A2 A3 A4 A5|A1 A2 A3 A4 A5 A6|A1 A2 A3 A4 A5 A6 A7|A1 A2 A3 A4 A5 A6 A7 A8|A1 A2 A3 A4 A5 A6 A7 A8].
    + apply DC_not_scrypt; assumption.
    + apply DC_version; assumption.
    + apply DC_short; assumption.
    + apply DC_checksum; assumption.
    + apply DC_params; assumption.
    + apply DC_key; assumption.
    + apply DC_pass; try assumption. tauto.
    + apply DC_trailer; try assumption; tauto.
    + apply DC_ok; try assumption; tauto.
  - intros EO.
    destruct (C05_accepts_iff M cfg lb hp e f outbuf outlen P1 P verbose R1 HD HO HZ HN) as (o1' & E1' & I1 & V1).
    destruct (C05_accepts_iff M cfg lb hp e f outbuf outlen P2 P verbose R2 HD HO HZ HN) as (o2' & E2' & I2 & V2).
    assert (o1' = o1) as -> by congruence. assert (o2' = o2) as -> by congruence.
    destruct (proj1 I1 EO) as (h & d & F1 & F2 & F3). destruct (V1 h d F1 F2 F3) as [X1 X2].
    assert (f = fmt_file kdf P2 h d) as F1' by (rewrite <- (file_same P1 P2 h d H); exact F1).
    destruct (V2 h d F1' F2 F3) as [Y1 Y2]. split; congruence.
Qed.
(** Refutation of "distinct passphrases give distinct keys": trailing zero
    bytes are ignored, and a long passphrase may be replaced by its digest. *)
Theorem C46_trailing_zeros_refuted P k : (length P + k <= 64)%nat -> interchangeable P (P ++ repeat 0 k).
Proof.
  intros H. apply C46_same_key_block. unfold hmac_key.
  assert (Nat.ltb 64 (length P) = false) as -> by (apply Nat.ltb_ge; lia).
  assert (Nat.ltb 64 (length (P ++ repeat 0 k)) = false) as -> by (apply Nat.ltb_ge; rewrite app_length, repeat_length; lia).
  cbv zeta. rewrite <- app_assoc, app_length, repeat_length. f_equal. unfold zeros. rewrite <- repeat_app. f_equal. lia.
Qed.
Theorem C46_digest_refuted P : (64 < length P)%nat -> interchangeable P (sha256 P) /\ P <> sha256 P.
Proof.
  intros H. split.
  - apply C46_same_key_block. unfold hmac_key. assert (Nat.ltb 64 (length P) = true) as -> by (apply Nat.ltb_lt; lia).
    rewrite sha256_length. change (Nat.ltb 64 32) with false. cbv iota zeta. rewrite sha256_length. reflexivity.
  - intros E. apply (f_equal (@length N)) in E. rewrite sha256_length in E. lia.
Qed.
(** What does hold: up to 64 bytes, the key block determines the passphrase up
    to trailing zero bytes; in particular for C strings it determines it. *)
Lemma strip_zeros : forall a b i j, a ++ repeat 0 i = b ++ repeat 0 j -> exists k, a = b ++ repeat 0 k \/ b = a ++ repeat 0 k.
Proof.
  induction a as [|x a IH]; intros [|y b] i j E.
  - exists O. left. reflexivity.
  - exists (length (y :: b)). right. cbn [app].
    assert (y :: b = firstn (length (y :: b)) (repeat 0 i)) as E2.
    { cbn [app] in E. rewrite E. change (y :: b ++ repeat 0 j) with ((y :: b) ++ repeat 0 j). rewrite firstn_app_len; reflexivity. }
    assert (Forall (fun z => z = 0) (y :: b)) as HF.
    { rewrite E2. apply Forall_forall. intros z Hz. apply (repeat_spec i 0 z). rewrite <- (firstn_skipn (length (y :: b)) (repeat 0 i)). apply in_or_app. left. exact Hz. }
    clear E E2. induction HF as [|z l HZ HF IH2]; [reflexivity|]. cbn [length repeat]. subst z. f_equal. exact IH2.
  - exists (length (x :: a)). left. cbn [app].
    assert (x :: a = firstn (length (x :: a)) (repeat 0 j)) as E2.
    { cbn [app] in E. rewrite <- E. change (x :: a ++ repeat 0 i) with ((x :: a) ++ repeat 0 i). rewrite firstn_app_len; reflexivity. }
    assert (Forall (fun z => z = 0) (x :: a)) as HF.
    { rewrite E2. apply Forall_forall. intros z Hz. apply (repeat_spec j 0 z). rewrite <- (firstn_skipn (length (x :: a)) (repeat 0 j)). apply in_or_app. left. exact Hz. }
    clear IH E E2. induction HF as [|z l HZ HF IH2]; [reflexivity|]. cbn [length repeat]. subst z. f_equal. exact IH2.
  - cbn [app] in E. injection E as -> E. destruct (IH b i j E) as (k & [-> | ->]); exists k; [left|right]; reflexivity.
Qed.
Theorem C46_key_block P1 P2 : (length P1 <= 64)%nat -> (length P2 <= 64)%nat ->
  (hmac_key P1 = hmac_key P2 <-> exists k, P1 = P2 ++ repeat 0 k \/ P2 = P1 ++ repeat 0 k).
Proof.
  intros H1 H2. unfold hmac_key.
  assert (Nat.ltb 64 (length P1) = false) as -> by (apply Nat.ltb_ge; lia).
  assert (Nat.ltb 64 (length P2) = false) as -> by (apply Nat.ltb_ge; lia). cbv zeta. split.
  - apply strip_zeros.
  - intros (k & [-> | ->]); rewrite <- app_assoc, app_length, repeat_length in *; f_equal; unfold zeros; rewrite <- repeat_app; f_equal; lia.
Qed.
Theorem C46_distinct P1 P2 : (length P1 <= 64)%nat -> (length P2 <= 64)%nat ->
  Forall (fun b => b <> 0) P1 -> Forall (fun b => b <> 0) P2 -> P1 <> P2 -> hmac_key P1 <> hmac_key P2.
Proof.
  intros H1 H2 F1 F2 HNE E. apply C46_key_block in E; auto. destruct E as ([|k] & [-> | ->]).
  - rewrite app_nil_r in HNE. congruence.
  - rewrite app_nil_r in HNE. congruence.
  - apply Forall_app in F1. destruct F1 as [_ F1]. inversion F1. congruence.
  - apply Forall_app in F2. destruct F2 as [_ F2]. inversion F2. congruence.
Qed.
(** "pw" and "pw\0" open the same files. *)
Example C46_case : interchangeable ex_passwd (ex_passwd ++ [0]) /\ ex_passwd <> ex_passwd ++ [0] /\
  dec_ready ex_machine ex_heap ex_passwd /\ dec_ready ex_machine ex_heap (ex_passwd ++ [0]).
Proof.
  split; [apply (C46_trailing_zeros_refuted ex_passwd 1); cbn; lia|]. split; [discriminate|]. split; [exact ex_dec_ready|].
  destruct ex_dec_ready as [A B C]. constructor; auto. repeat constructor.
Qed.
Definition Prop_pass_all := (C46_same_key_block, C46_trailing_zeros_refuted, C46_digest_refuted, C46_key_block, C46_distinct).
Print Assumptions Prop_pass_all.
