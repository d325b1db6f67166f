(** Properties C28 - C31: AES, AES-CTR, constant-time comparison. *)
From Verif Require Import Base SpecBytes SpecAES M_endian P_endian M_verify P_verify M_aes_hw P_aes M_aesctr P_aesctr P_scrypt_ref.

(** C31. *)
Theorem C31_verify_bytes a b len : bytes_ok a -> bytes_ok b ->
  (len <= length a)%nat -> (len <= length b)%nat ->
  exists v, crypto_verify_bytes a b len = Ok v /\ v < 256 /\ (v = 0 <-> firstn len a = firstn len b).
Proof.
  intros Ha Hb La Lb.
  destruct (verify_loop_spec len 0 a b 0 Ha Hb ltac:(lia) La Lb) as (v & E & Hv & Hiff & _).
  exists v. split; [exact E|]. split; [exact Hv|]. rewrite Hiff. unfold sub. cbn [skipn]. tauto.
Qed.
Print Assumptions C31_verify_bytes.
(** The positions inspected are 0, 1, ..., len-1 in this order whatever the data. *)
Theorem C31_data_independent a b len : bytes_ok a -> bytes_ok b ->
  (len <= length a)%nat -> (len <= length b)%nat ->
  fst (verify_trace len 0 a b 0) = seq 0 len /\ snd (verify_trace len 0 a b 0) = crypto_verify_bytes a b len.
Proof.
  intros Ha Hb La Lb.
  destruct (verify_loop_spec len 0 a b 0 Ha Hb ltac:(lia) La Lb) as (v & E & _ & _ & Et).
  rewrite Et. split; [reflexivity|]. symmetry. exact E.
Qed.
Print Assumptions C31_data_independent.
Example C31_hyps : exists v, crypto_verify_bytes [1; 2; 3; 255] [1; 2; 7; 255] 4 = Ok v /\ v <> 0.
Proof. eexists. split; [vm_compute; reflexivity|discriminate]. Qed.

(** C30: key expansion followed by block encryption, for each implementation. *)
Theorem C30_aesni key old inp : (length key = 16 \/ length key = 32)%nat -> length old = 15%nat ->
  length inp = 16%nat ->
  exists hk, crypto_aes_key_expand_aesni true old key (length key) = Ok (Some hk) /\
    crypto_aes_encrypt_block_aesni inp hk = Ok (aes_encrypt key inp).
Proof.
  intros HL HO Hi. destruct (expand_aesni_ok key old HL HO) as (hk & E & Hk). exists hk. split; [exact E|].
  unfold crypto_aes_encrypt_block_aesni, vld16. rewrite rd_ok by lia. rewrite bind_Ok, sub_0_all by lia.
  apply aesni_encrypt_ok; assumption.
Qed.
Print Assumptions C30_aesni.
Theorem C30_arm key old inp : (length key = 16 \/ length key = 32)%nat -> bytes_ok key -> length old = 15%nat ->
  length inp = 16%nat ->
  exists hk, crypto_aes_key_expand_arm true old key (length key) = Ok (Some hk) /\
    crypto_aes_encrypt_block_arm inp hk = Ok (aes_encrypt key inp).
Proof.
  intros HL HB HO Hi. destruct (expand_arm_ok key old HL HB HO) as (hk & E & Hk). exists hk. split; [exact E|].
  unfold crypto_aes_encrypt_block_arm, vld16. rewrite rd_ok by lia. rewrite bind_Ok, sub_0_all by lia.
  apply arm_encrypt_ok; assumption.
Qed.
Print Assumptions C30_arm.
(** The round keys stored are exactly the FIPS 197 key schedule. *)
Theorem C30_round_keys key old j : (length key = 16 \/ length key = 32)%nat -> bytes_ok key -> length old = 15%nat ->
  (j <= length key / 4 + 6)%nat ->
  exists hk hk', crypto_aes_key_expand_aesni true old key (length key) = Ok (Some hk) /\
    crypto_aes_key_expand_arm true old key (length key) = Ok (Some hk') /\
    nth_error (hk_rkeys hk) j = Some (round_key (KeyExpansion key) j) /\
    nth_error (hk_rkeys hk') j = Some (round_key (KeyExpansion key) j).
Proof.
  intros HL HB HO Hj. destruct (expand_aesni_ok key old HL HO) as (hk & E & (_ & Hn & _ & Hk)).
  destruct (expand_arm_ok key old HL HB HO) as (hk' & E' & (_ & Hn' & _ & Hk')).
  exists hk, hk'. repeat split; auto; [apply Hk|apply Hk']; lia.
Qed.
Print Assumptions C30_round_keys.
(** Other key lengths are refused. *)
Theorem C30_bad_length old key len : len <> 16%nat -> len <> 32%nat ->
  crypto_aes_key_expand_aesni true old key len = Ok None /\ crypto_aes_key_expand_arm true old key len = Ok None.
Proof.
  intros H1 H2. apply Nat.eqb_neq in H1, H2.
  unfold crypto_aes_key_expand_aesni, crypto_aes_key_expand_arm. cbn [negb]. rewrite H1, H2. split; reflexivity.
Qed.
Print Assumptions C30_bad_length.
Example C30_hyps : exists key old inp : list N, length key = 32%nat /\ bytes_ok key /\ length inp = 16%nat /\
  aes_encrypt key inp = [0x8e;0xa2;0xb7;0xca;0x51;0x67;0x45;0xbf;0xea;0xfc;0x49;0x90;0x4b;0x49;0x60;0x89].
Proof.
  exists (map N.of_nat (seq 0 32)), [], fips_pt. split; [reflexivity|]. split; [repeat constructor|].
  split; [reflexivity|exact fips197_c3].
Qed.

(** A successfully expanded key. *)
Lemma expanded hw key old k : (length key = 16 \/ length key = 32)%nat -> bytes_ok key -> length old = 15%nat ->
  crypto_aes_key_expand hw true old key (length key) = Ok (Some k) -> key_rep hw key k.
Proof.
  intros HL HB HO E. destruct (expand_rep hw key old HL HB HO) as (k' & E' & Hk). congruence.
Qed.

(** C28.  A stream made from a key and nonce, used by any sequence of calls,
    on any implementation; the contents of fresh memory are arbitrary. *)
Theorem C28_stream hw hi key old obuf opblk nonce inps :
  (length key = 16 \/ length key = 32)%nat -> bytes_ok key -> length old = 15%nat ->
  length obuf = 16%nat -> length opblk = 16%nat ->
  N.of_nat (length (concat inps)) < 2 ^ 64 ->
  exists k st outs st',
    crypto_aes_key_expand hw true old key (length key) = Ok (Some k) /\
    crypto_aesctr_init true obuf opblk k nonce = Ok (Some st) /\
    stream_calls hw hi st inps = Ok (outs, st') /\
    map (@length N) outs = map (@length N) inps /\
    concat outs = aes_ctr key nonce 0 (concat inps).
Proof.
  intros HL HB HO Hb Hp Hlen.
  destruct (expand_rep hw key old HL HB HO) as (k & Ek & Hk).
  destruct (init2_ok hw key k nonce None obuf opblk Hk Hb Hp) as (st & Es & Hs).
  destruct (stream_calls_ok hw hi key nonce inps 0 st Hs ltac:(lia)) as (outs & st' & Ec & E1 & E2 & _).
  exists k, st, outs, st'. unfold crypto_aesctr_init. cbn [negb]. rewrite Es, bind_Ok. repeat split; auto.
Qed.
Print Assumptions C28_stream.
(** The one-shot form. *)
Theorem C28_buf hw hi key old k obuf opblk nonce inp :
  (length key = 16 \/ length key = 32)%nat -> bytes_ok key -> length old = 15%nat ->
  crypto_aes_key_expand hw true old key (length key) = Ok (Some k) ->
  length obuf = 16%nat -> length opblk = 16%nat -> N.of_nat (length inp) < 2 ^ 64 ->
  crypto_aesctr_buf hw hi obuf opblk k nonce inp = Ok (aes_ctr key nonce 0 inp).
Proof.
  intros KL KB KO Ek Hb Hp Hlen. pose proof (expanded hw key old k KL KB KO Ek) as Hk. unfold crypto_aesctr_buf.
  destruct (init2_ok hw key k nonce None obuf opblk Hk Hb Hp) as (st & -> & Hs). rewrite bind_Ok.
  destruct (stream_ok hw hi key nonce 0 st inp Hs ltac:(lia)) as (st' & -> & _). reflexivity.
Qed.
Print Assumptions C28_buf.
(** Encrypting twice with the same key and nonce restores the data. *)
Theorem C28_involutive hw hi key old k obuf opblk nonce inp :
  (length key = 16 \/ length key = 32)%nat -> bytes_ok key -> length old = 15%nat ->
  crypto_aes_key_expand hw true old key (length key) = Ok (Some k) ->
  length obuf = 16%nat -> length opblk = 16%nat -> N.of_nat (length inp) < 2 ^ 64 ->
  (out <- crypto_aesctr_buf hw hi obuf opblk k nonce inp ;; crypto_aesctr_buf hw hi obuf opblk k nonce out) = Ok inp.
Proof.
  intros KL KB KO Ek Hb Hp Hlen. rewrite (C28_buf hw hi key old) by assumption. rewrite bind_Ok.
  rewrite (C28_buf hw hi key old) by (rewrite ?aes_ctr_length; assumption). rewrite aes_ctr_involutive. reflexivity.
Qed.
Print Assumptions C28_involutive.
(** The stream key byte number i is byte i mod 16 of AES_k(nonce || be64(i/16)). *)
Theorem C28_keystream key nonce i : 
  sel (aes_ctr key nonce 0 (repeat 0 (S (N.to_nat i)))) (N.to_nat i) =
  sel (aes_encrypt key (be_bytes 8 nonce ++ be_bytes 8 (i / 16))) (N.to_nat (i mod 16)).
Proof.
  replace (S (N.to_nat i)) with (N.to_nat i + 1)%nat by lia. rewrite repeat_app, aes_ctr_app.
  unfold sel. rewrite app_nth2; rewrite aes_ctr_length, repeat_length; [|lia].
  rewrite Nat.sub_diag. cbn [repeat aes_ctr nth]. rewrite N.add_0_l, N2Nat.id, N.lxor_0_l. reflexivity.
Qed.
Print Assumptions C28_keystream.
(** C29: two machines with different acceleration produce the same output for
    the same calls, whatever those calls are and however each splits them. *)
Theorem C29_hw_equals_sw hw1 hw2 hi1 hi2 key m1 m2 k1 k2 o1 o2 p1 p2 st1 st2 nonce inps1 inps2 :
  (length key = 16 \/ length key = 32)%nat -> bytes_ok key -> length m1 = 15%nat -> length m2 = 15%nat ->
  crypto_aes_key_expand hw1 true m1 key (length key) = Ok (Some k1) ->
  crypto_aes_key_expand hw2 true m2 key (length key) = Ok (Some k2) ->
  length o1 = 16%nat -> length o2 = 16%nat -> length p1 = 16%nat -> length p2 = 16%nat ->
  crypto_aesctr_init true o1 p1 k1 nonce = Ok (Some st1) -> crypto_aesctr_init true o2 p2 k2 nonce = Ok (Some st2) ->
  concat inps1 = concat inps2 -> N.of_nat (length (concat inps1)) < 2 ^ 64 ->
  exists outs1 st1' outs2 st2',
    stream_calls hw1 hi1 st1 inps1 = Ok (outs1, st1') /\ stream_calls hw2 hi2 st2 inps2 = Ok (outs2, st2') /\
    concat outs1 = concat outs2.
Proof.
  intros KL KB M1 M2 K1 K2 O1 O2 P1 P2 E1 E2 EI HL.
  pose proof (expanded hw1 key m1 k1 KL KB M1 K1) as H1. pose proof (expanded hw2 key m2 k2 KL KB M2 K2) as H2. unfold crypto_aesctr_init in E1, E2. cbn [negb] in E1, E2.
  destruct (init2_ok hw1 key k1 nonce None o1 p1 H1 O1 P1) as (s1 & I1 & A1). rewrite I1, bind_Ok in E1.
  destruct (init2_ok hw2 key k2 nonce None o2 p2 H2 O2 P2) as (s2 & I2 & A2). rewrite I2, bind_Ok in E2.
  injection E1 as <-. injection E2 as <-.
  destruct (stream_calls_ok hw1 hi1 key nonce inps1 0 s1 A1 ltac:(lia)) as (outs1 & st1' & C1 & D1 & _).
  destruct (stream_calls_ok hw2 hi2 key nonce inps2 0 s2 A2 ltac:(rewrite <- EI; lia)) as (outs2 & st2' & C2 & D2 & _).
  exists outs1, st1', outs2, st2'. repeat split; auto. congruence.
Qed.
Print Assumptions C29_hw_equals_sw.
(** A concrete key for each implementation meets the hypotheses. *)
Example C29_hyps hw : exists key k, length key = 32%nat /\
  crypto_aes_key_expand hw true (repeat [] 15) key (length key) = Ok (Some k).
Proof.
  destruct (expand_rep hw (map N.of_nat (seq 0 32)) (repeat [] 15) (or_intror eq_refl) ltac:(repeat constructor) eq_refl) as (k & Hk & _).
  exists (map N.of_nat (seq 0 32)), k. split; [reflexivity|exact Hk].
Qed.
