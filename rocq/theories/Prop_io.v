(** I/O failures (C12), key hygiene (C43), the decryption cookie (C50). *)
From Coq Require Import Permutation.
From Verif Require Import Base SpecBytes SpecSHA SpecScrypt SpecScryptAPI SpecAES SpecDRBG SpecFormat SpecStream
  M_endian P_endian M_sha256_tr M_simd M_sha256_hw M_sha256 P_sha256 M_smix M_aes_hw M_aesctr P_aes P_aesctr P_scrypt P_scrypt_ref
  M_scrypt_sel P_scrypt_sel Prop_scrypt M_verify P_verify M_entropy P_entropy M_machine M_double M_memlimit M_cpuperf
  M_humansize P_humansize M_params Prop_params M_stdio P_stdio M_scryptenc SpecScryptenc P_scryptenc P_scryptenc2 P_scryptenc3 P_scryptenc4
  P_scryptenc5 P_scryptenc6 P_scryptenc7 P_scryptenc8 P_scryptenc9 P_scryptenc10 P_scryptenc11 Prop_enc Prop_dec.
Local Opaque ENCBLOCK.

Lemma no_fail_same fi : stream_fails fi = false -> stream_data (no_errors fi) = stream_data fi.
Proof.
  unfold stream_fails, stream_data, no_errors. cbn [i_pieces]. intros H. apply Bool.orb_false_iff in H. destruct H as [_ H]. revert H.
  induction (i_pieces fi) as [|[d x] t IH]; intros H; [reflexivity|]. cbn [map pieces_data pieces_fail fst] in *.
  destruct x; [discriminate|]. destruct d; [reflexivity|]. rewrite IH by exact H. reflexivity.
Qed.
Lemma aes_ctr_prefix_mono k a b : prefix a b -> prefix (aes_ctr k 0 0 a) (aes_ctr k 0 0 b).
Proof. intros [c ->]. rewrite aes_ctr_app. apply prefix_app. Qed.
Lemma body_prefix passwd h a b : prefix a b -> prefix (fmt_body kdf passwd h a) (fmt_file kdf passwd h b).
Proof.
  intros H. unfold fmt_file. apply (prefix_trans _ (fmt_body kdf passwd h b)); [|apply prefix_app].
  unfold fmt_body. apply prefix_cons_app. apply aes_ctr_prefix_mono. exact H.
Qed.
Lemma fmt_96_prefix passwd h b : prefix (fmt_96 kdf passwd h) (fmt_file kdf passwd h b).
Proof. unfold fmt_file, fmt_body. rewrite <- app_assoc. apply prefix_app. Qed.

(** The bytes written by one encryption run, in terms of the file it was to
    produce. *)
Lemma enc_tail_written M e passwd h fi fo hp rc fi' fo' hp' : enc_file_tail M e passwd h fi fo hp rc fi' fo' hp' ->
  exists w, o_data fo' = o_data fo ++ w /\ prefix w (fmt_file kdf passwd h (stream_data (no_errors fi))).
Proof.
  intros H. destruct H as [fo' k A1 A2 A3|rc fo' hp' A1 A2 A3 A4 A5|data w fi' fo' hp' A1 A2 A3 A4 A5 A6 A7|data fi' fo' hp' A1 A2 A3 A4 A5 A6 A7 A8
    |k fi' fo' hp' A1 A2 A3 A4 A5 A6 A7 A8 A9|fi' fo' hp' A1 A2 A3 A4 A5 A6 A7 A8].
  - eexists. split; [exact A3|]. eapply prefix_trans; [apply prefix_firstn|apply fmt_96_prefix].
  - eexists. split; [exact A4|]. apply fmt_96_prefix.
  - eexists. split; [exact A6|]. eapply prefix_trans; [|apply (body_prefix passwd h data); exact A4]. unfold fmt_body. apply prefix_cons_app. exact A5.
  - eexists. split; [exact A7|]. apply body_prefix. exact A6.
  - eexists. split; [exact A8|]. rewrite (no_fail_same fi A5). apply prefix_firstn.
  - eexists. split; [exact A7|]. rewrite (no_fail_same fi A5). apply prefix_refl.
Qed.
Lemma enc_file_rest_P M h e fi fo lb ms P header dk rc o :
  enc_file_rest M h e fi fo lb ms P header dk rc = Ok o -> oc_P o = P.
Proof.
  unfold enc_file_rest. intros E.
  destruct (negb (is_ok rc)). { apply bind_inv in E. destruct E as (x & _ & E). injection E as <-. reflexivity. }
  do 3 (apply bind_inv in E; destruct E as (? & _ & E)). destruct (fwrite header fo) as [ok fo1].
  destruct (negb ok). { apply bind_inv in E. destruct E as (x2 & _ & E). injection E as <-. reflexivity. }
  apply bind_inv in E. destruct E as ([h1 [rc1|[[ki si] AES]]] & _ & E).
  { apply bind_inv in E. destruct E as (x2 & _ & E). injection E as <-. reflexivity. }
  apply bind_inv in E. destruct E as ([[[[eof AES1] hc] fi1] fo2] & _ & E).
  apply bind_inv in E. destruct E as (h2 & _ & E). destruct (negb eof).
  { do 2 (apply bind_inv in E; destruct E as (? & _ & E)). injection E as <-. reflexivity. }
  do 2 (apply bind_inv in E; destruct E as (? & _ & E)). destruct (ferror fi1).
  { apply bind_inv in E. destruct E as (x6 & _ & E). injection E as <-. reflexivity. }
  apply bind_inv in E. destruct E as ([hb hc1] & _ & E). destruct (fwrite hb fo2) as [ok2 fo3].
  apply bind_inv in E. destruct E as (x6 & _ & E). injection E as <-. reflexivity.
Qed.
(** The parameters reported do not depend on the streams. *)
Lemma enc_file_same_P M cfg lb hp hp2 e fi fo fi2 fo2 passwd P verbose force o o2 :
  scryptenc_file M cfg lb hp e fi fo passwd P verbose force = Ok o ->
  scryptenc_file M cfg lb hp2 e fi2 fo2 passwd P verbose force = Ok o2 -> oc_P o = oc_P o2.
Proof.
  rewrite !scryptenc_file_eq. intros E1 E2.
  apply bind_inv in E1. destruct E1 as (u & EA & E1). rewrite EA, bind_Ok in E2.
  apply bind_inv in E1. destruct E1 as ([[[[[lb1 ms] P1] hd] dk] rc] & ES & E1). rewrite ES, bind_Ok in E2.
  apply enc_file_rest_P in E1. apply enc_file_rest_P in E2. congruence.
Qed.

Lemma same_head lim a b : P_of lim a = P_of lim b -> fh_salt a = fh_salt b -> a = b.
Proof.
  intros H HS. pose proof (f_equal x_logN H) as H1. pose proof (f_equal x_r H) as H2. pose proof (f_equal x_p H) as H3.
  destruct a, b. cbn in H1, H2, H3, HS. apply N2Z.inj in H1. congruence.
Qed.
(** ** C12, encryption.  A short write or a read error is reported as such; success
    means that everything was read and written; and what was written so far is
    always the beginning of what a run without I/O failures writes. *)
Theorem C12_encrypt M cfg lb hp e fi fo passwd P verbose force o :
  enc_ready M lb hp e passwd P -> instream_ok fi -> o_err fo = false ->
  scryptenc_file M cfg lb hp e fi fo passwd P verbose force = Ok o ->
  let fo' := snd (oc_val o) in
  (oc_rc o = SCRYPT_EWRFILE <-> o_err fo' = true) /\
  (oc_rc o = SCRYPT_ERDFILE -> stream_fails fi = true) /\
  (oc_rc o = SCRYPT_OK -> stream_fails fi = false /\ o_err fo' = false) /\
  (stream_fails fi = true -> oc_rc o <> SCRYPT_OK) /\
  exists w, o_data fo' = o_data fo ++ w /\
    forall hp2 fi2 fo2 o2, heap_ok hp2 -> delivered (stream_data (no_errors fi)) fi2 -> bytes_ok (stream_data (no_errors fi)) -> out_good fo2 -> o_err fo2 = false ->
      scryptenc_file M cfg lb hp2 e fi2 fo2 passwd P verbose force = Ok o2 -> oc_rc o2 = SCRYPT_OK ->
      exists w2, o_data (snd (oc_val o2)) = o_data fo2 ++ w2 /\ prefix w w2.
Proof.
  intros [[Hs HPW HH] HX HE HD] [HI1 HI2] HO E fo'. pose proof E as E0.
  apply scryptenc_file_inv in E; auto. destruct E as (_ & _ & _ & _ & _ & HR). fold fo' in HR.
  assert (exists w, o_data fo' = o_data fo ++ w /\
    (w = [] \/ exists h, oc_P o = P_of (x_lim P) h /\ salted M e lb h /\ prefix w (fmt_file kdf passwd h (stream_data (no_errors fi))))) as (w & W1 & W2).
  { revert HR. generalize (oc_rc o) (oc_P o) (fst (oc_val o)) (oc_heap o). intros rc P' fi' hp' HR.
    destruct HR as [rc P' A1 A2|h rc fi' fo1 hp' A1 A2 A3 A4].
    - exists []. rewrite app_nil_r. auto.
    - destruct (enc_tail_written _ _ _ _ _ _ _ _ _ _ _ A4) as (w & B1 & B2). exists w. split; [exact B1|]. right. exists h. auto. }
  assert (forall rc, In rc enc_codes -> rc <> SCRYPT_EWRFILE /\ rc <> SCRYPT_ERDFILE /\ rc <> SCRYPT_OK) as HNC.
  { intros rc HC. cbn in HC. repeat split; intros ->; intuition discriminate. }
  assert (aes_rc e <> SCRYPT_EWRFILE /\ aes_rc e <> SCRYPT_ERDFILE /\ aes_rc e <> SCRYPT_OK) as HNA.
  { unfold aes_rc. destruct (v_key_mem e); repeat split; discriminate. }
  assert ((oc_rc o = SCRYPT_EWRFILE <-> o_err fo' = true) /\ (oc_rc o = SCRYPT_ERDFILE -> stream_fails fi = true) /\
    (oc_rc o = SCRYPT_OK -> stream_fails fi = false /\ o_err fo' = false)) as (X1 & X2 & X3).
  { clear W1 W2 w E0. revert HR. generalize (oc_rc o) (oc_P o) (fst (oc_val o)) (oc_heap o). intros rc P' fi' hp' HR.
    destruct HR as [rc P' A1 A2|h rc fi' fo1 hp' A1 A2 A3 A4].
    - destruct (HNC rc A2) as (B1 & B2 & B3). rewrite HO. split; [split; congruence|]. split; congruence.
    - destruct A4 as [fo1 k B1 B2 B3|rc fo1 hp' B1 B2 B3 B4 B5|data w fi' fo1 hp' B1 B2 B3 B4 B5 B6 B7|data fi' fo1 hp' B1 B2 B3 B4 B5 B6 B7 B8
        |k fi' fo1 hp' B1 B2 B3 B4 B5 B6 B7 B8 B9|fi' fo1 hp' B1 B2 B3 B4 B5 B6 B7 B8].
      + rewrite B2. split; [split; reflexivity|]. split; discriminate.
      + subst rc. destruct HNA as (C1 & C2 & C3). rewrite B3, HO. split; [split; congruence|]. split; congruence.
      + rewrite B3. split; [split; reflexivity|]. split; discriminate.
      + rewrite B3, HO. split; [split; discriminate|]. split; [intros _; exact B5|discriminate].
      + rewrite B3. split; [split; reflexivity|]. split; discriminate.
      + rewrite B3, HO. split; [split; discriminate|]. split; [discriminate|]. auto. }
  split; [exact X1|]. split; [exact X2|]. split; [exact X3|]. split; [intros HF HOK; destruct (X3 HOK); congruence|].
  exists w. split; [exact W1|]. intros hp2 fi2 fo2 o2 HH2 HDE HBO HG HER E2 EO2.
  pose proof (enc_file_same_P _ _ _ _ _ _ _ _ _ _ _ _ _ _ _ _ E0 E2) as EP.
  destruct (delivered_ok _ fi2 HBO HDE) as (J1 & J2 & J3 & J4).
  apply scryptenc_file_inv in E2; auto; [|rewrite J4; exact HI2]. destruct E2 as (_ & _ & _ & _ & _ & HR2).
  rewrite EO2, <- EP in HR2. clear EP. revert HR2. generalize (oc_P o2) (fst (oc_val o2)) (oc_heap o2) (snd (oc_val o2)). intros P2 fi2' hp2' fo2' HR2.
  inversion HR2 as [rc P3 A1 A2|h2 rc fi3 fo3 hp3 A1 A2 A3 A4 EQ1 EQ2]; subst; [congruence|].
  inversion A4 as [| | | | |fi4 fo4 hp4 B1 B2 B3 B4 B5 B6 B7 B8]; subst; [destruct HNA as (_ & _ & C3); congruence|].
  eexists. split; [exact B7|]. destruct W2 as [->|(h & P1 & P3 & P4)]; [apply prefix_nil|].
  rewrite J2.
  assert (h = h2) as <-; [|exact P4].
  match goal with H : P_of (x_lim P) h2 = _ |- _ => rename H into EQ1 end.
  destruct P3 as (d1 & P3), A3 as (d2 & A3). clear - P3 A3 P1 EQ1. rewrite P3 in A3.
  apply (same_head (x_lim P)); [|congruence]. rewrite <- P1. congruence.
Qed.
(** Non-vacuity: an environment in which encryption succeeds, a stream that fails
    after one byte and an output that fails after three. *)
Example C12_hyps : enc_ready ex_machine ex_lib ex_heap ex_call ex_passwd ex_P /\
  instream_ok (mk_in [([1], true); ([2; 3], false)] false) /\ stream_fails (mk_in [([1], true); ([2; 3], false)] false) = true /\
  stream_data (no_errors (mk_in [([1], true); ([2; 3], false)] false)) = [1; 2; 3].
Proof.
  split; [apply ex_enc_ready; split; reflexivity|]. split; [|split; reflexivity]. split; [repeat constructor|reflexivity].
Qed.

(** ** C12, decryption. *)
Lemma dec_setup_no_io M cfg lb e lim passwd f verbose force lb' ms dk rc :
  dec_setup_result M cfg lb e lim passwd f verbose force lb' ms dk rc -> rc <> SCRYPT_EWRFILE /\ rc <> SCRYPT_ERDFILE.
Proof.
  intros H. destruct H as [dk A1|dk sst m rc A1 A2 A3|dk sst m lb' A1 A2 A3|sst m lb' A1 A2 A3 A4|sst m lb' A1 A2 A3 A4]; try (split; discriminate).
  apply checkparams_codes in A3. clear - A3. destruct force; cbn in A3; (split; intros ->); intuition discriminate.
Qed.
Theorem C12_decrypt M cfg lb hp e fi fo passwd P verbose force o :
  dec_ready M hp passwd -> instream_ok fi -> o_err fo = false ->
  scryptdec_file M cfg lb hp e fi fo passwd P verbose force = Ok o ->
  let fo' := snd (oc_val o) in let f := stream_data (no_errors fi) in
  (oc_rc o = SCRYPT_EWRFILE <-> o_err fo' = true) /\
  (oc_rc o = SCRYPT_ERDFILE -> stream_fails fi = true) /\
  (oc_rc o = SCRYPT_OK -> stream_fails fi = false /\ o_err fo' = false) /\
  (stream_fails fi = true -> oc_rc o <> SCRYPT_OK) /\
  exists w, o_data fo' = o_data fo ++ w /\
    forall M2 cfg2 lb2 hp2 e2 fi2 fo2 P2 verbose2 force2 o2, dec_ready M2 hp2 passwd -> delivered f fi2 -> data_ok f ->
      scryptdec_file M2 cfg2 lb2 hp2 e2 fi2 fo2 passwd P2 verbose2 force2 = Ok o2 -> oc_rc o2 = SCRYPT_OK ->
      exists w2, o_data (snd (oc_val o2)) = o_data fo2 ++ w2 /\ prefix w w2.
Proof.
  intros HRD HIN HO E fo' f.
  destruct (C08_stream M cfg lb hp e fi fo passwd P verbose force o HRD HIN E) as (w & W1 & W2 & _). fold f fo' in W1, W2.
  destruct HRD as [Hs HPW HH], HIN as [HI1 HI2].
  assert (aes_rc e <> SCRYPT_EWRFILE /\ aes_rc e <> SCRYPT_ERDFILE /\ aes_rc e <> SCRYPT_OK) as HNA.
  { unfold aes_rc. destruct (v_key_mem e); repeat split; discriminate. }
  assert ((oc_rc o = SCRYPT_EWRFILE <-> o_err fo' = true) /\ (oc_rc o = SCRYPT_ERDFILE -> stream_fails fi = true) /\
    (oc_rc o = SCRYPT_OK -> stream_fails fi = false /\ o_err fo' = false)) as (X1 & X2 & X3).
  { clear W1 W2 w. apply scryptdec_file_inv in E; auto. destruct E as (_ & _ & _ & HR). fold fo' in HR.
    revert HR. generalize (oc_rc o) (oc_msgs o) (oc_P o) (fst (oc_val o)) (oc_heap o). intros rc0 ms0 P0 fi0 hp0 HR. clearbody fo'. clear - HR HO HNA.
    destruct HR as [A1|rc1 hd fi' hp' A1 A2 A3 A4|rc1 fi' ms lb' dk hp' A1 A2 A3 A4 A5|rc1 fi1 ms lb' dk hp' A1 A2 A3 A4 A5|fi1 ms lb' dk ct hold w fi' fo1 hp' A1 A2 A3 A4 A5 A6 A7 A8 A9 A10|fi1 ms lb' dk ct hold fi' fo1 hp' A1 A2 A3 A4 A5 A6 A7 A8 A9 A10 A11|fi1 ms lb' dk fi' fo1 hp' A1 A2 A3 A4 A5 A6 A7 A8 A9 A10|rc1 fi1 ms lb' dk fi' fo1 hp' A1 A2 A3 A4 A5 A6 A7 A8 A9 A10 A11].
    - rewrite HO. split; [split; discriminate|]. split; discriminate.
    - rewrite HO. assert (rc1 <> SCRYPT_EWRFILE /\ (rc1 = SCRYPT_ERDFILE -> stream_fails fi = true)) as (B1 & B2).
      { inversion A2; subst; try (split; discriminate); destruct (stream_fails fi); split; try discriminate; auto. }
      split; [split; congruence|]. split; [exact B2|congruence].
    - rewrite HO. apply dec_setup_no_io in A3. destruct A3 as (B1 & B2). split; [split; congruence|]. split; congruence.
    - subst rc1. destruct HNA as (C1 & C2 & C3). rewrite HO. split; [split; congruence|]. split; congruence.
    - rewrite A6. split; [split; reflexivity|]. split; discriminate.
    - rewrite A6, HO. split; [split; discriminate|]. split; [intros _; exact A8|discriminate].
    - rewrite A6, HO. split; [split; discriminate|]. split; discriminate.
    - rewrite A6, HO. destruct A11 as [(-> & _)|(-> & _)]; (split; [split; discriminate|]; split; [discriminate|]); [auto|discriminate]. }
  split; [exact X1|]. split; [exact X2|]. split; [exact X3|]. split; [intros HF HOK; destruct (X3 HOK); congruence|].
  exists w. split; [exact W1|]. intros M2 cfg2 lb2 hp2 e2 fi2 fo2 P2 verbose2 force2 o2 [Hs2 HPW2 HH2] HDE [HBO HBL] E2 EO2.
  destruct (delivered_ok _ fi2 HBO HDE) as (J1 & J2 & J3 & J4).
  apply scryptdec_file_inv in E2; auto; [|rewrite J4; exact HBL]. destruct E2 as (_ & _ & _ & HR2). rewrite EO2 in HR2.
  revert HR2. generalize (oc_msgs o2) (oc_P o2) (fst (oc_val o2)) (snd (oc_val o2)) (oc_heap o2). intros ms2 P3 fi3 fo3 hp3 HR2.
  assert (o_data fo3 = o_data fo2 ++ aes_ctr (key_enc kdf passwd (get_head f)) 0 0 (sub f 96 (length f - 128))) as ED.
  { inversion HR2; subst; try congruence; try (destruct (header_result_ok_inv _ _ _ H0); congruence).
    all: try (unfold aes_rc in *; destruct (v_key_mem e2); congruence). }
  eexists. split; [exact ED|]. destruct W2 as [->|(_ & L & W2)]; [apply prefix_nil|].
  rewrite W2. apply aes_ctr_prefix_mono. exists (sub f (96 + length w) (length f - 128 - length w)).
  replace (length f - 128)%nat with (length w + (length f - 128 - length w))%nat at 1 by lia.
  apply sub_split.
Qed.

(** ** C43.  The array holding the derived keys ends up zero (or was never
    filled), and no object with key material stays allocated or was given back
    to the allocator with its contents: [heap_clean]. *)
Theorem C43_buffer_encrypt M cfg lb hp e data outbuf passwd P verbose force o :
  enc_ready M lb hp e passwd P -> data_ok data -> (length data + 128 <= length outbuf)%nat ->
  scryptenc_buf M cfg lb hp e data outbuf passwd P verbose force = Ok o ->
  oc_dk o = repeat 0 64 /\ heap_clean hp (oc_heap o).
Proof.
  intros [[Hs HPW HH] HX HE HD] [D1 D2] HO E. apply scryptenc_buf_inv in E; auto. destruct E as (_ & _ & A & B & _). auto.
Qed.
Theorem C43_buffer_decrypt M cfg lb hp e f outbuf outlen passwd P verbose force o :
  dec_ready M hp passwd -> data_ok f -> (length f - 128 <= length outbuf)%nat ->
  scryptdec_buf M cfg lb hp e f outbuf outlen passwd P verbose force = Ok o ->
  (oc_dk o = repeat 0 64 \/ (oc_dk o = scratch_bytes (m_junk M) 64 /\ oc_P o = P)) /\ heap_clean hp (oc_heap o).
Proof.
  intros [Hs HPW HH] [D1 D2] HO E. apply scryptdec_buf_inv in E; auto. destruct E as (_ & _ & A & B & _). auto.
Qed.
(** Stream forms: the same unless a write error occurs after the header; then
    exactly one expanded key stays behind. *)
Theorem C43_stream_encrypt M cfg lb hp e fi fo passwd P verbose force o :
  enc_ready M lb hp e passwd P -> instream_ok fi ->
  scryptenc_file M cfg lb hp e fi fo passwd P verbose force = Ok o ->
  oc_dk o = repeat 0 64 /\ (oc_rc o <> SCRYPT_EWRFILE -> heap_clean hp (oc_heap o)) /\
  (oc_rc o = SCRYPT_EWRFILE -> heap_clean hp (oc_heap o) \/
     exists h, heap_leak M (key_enc scrypt_wrapping passwd h) hp (oc_heap o)).
Proof.
  intros [[Hs HPW HH] HX HE HD] [D1 D2] E. apply scryptenc_file_inv in E; auto. destruct E as (_ & _ & A & _ & _ & HR). split; [exact A|].
  revert HR. generalize (oc_rc o) (oc_P o) (fst (oc_val o)) (snd (oc_val o)) (oc_heap o). intros rc P' fi' fo' hp' HR.
  destruct HR as [rc P' A1 A2|h rc fi' fo1 hp' A1 A2 A3 A4].
  - pose proof (heap_clean_refl hp HH). auto.
  - destruct A4; try (split; auto; congruence); [pose proof (heap_clean_refl hp HH); auto|]. split; [congruence|]. eauto.
Qed.
Theorem C43_stream_decrypt M cfg lb hp e fi fo passwd P verbose force o :
  dec_ready M hp passwd -> instream_ok fi ->
  scryptdec_file M cfg lb hp e fi fo passwd P verbose force = Ok o ->
  (oc_rc o <> SCRYPT_EWRFILE -> heap_clean hp (oc_heap o)) /\
  (oc_rc o = SCRYPT_EWRFILE -> exists h, heap_leak1 M (key_enc scrypt_wrapping passwd h) hp (oc_heap o)).
Proof.
  intros [Hs HPW HH] [D1 D2] E. apply scryptdec_file_inv in E; auto. destruct E as (_ & _ & _ & HR).
  revert HR. generalize (oc_rc o) (oc_msgs o) (oc_P o) (fst (oc_val o)) (snd (oc_val o)) (oc_heap o). intros rc ms P' fi' fo' hp' HR.
  pose proof (heap_clean_refl hp HH) as HC.
  destruct HR as [A1|rc1 hd fi0 hp0 A1 A2 A3 A4|rc1 fi0 ms lb' dk hp0 A1 A2 A3 A4 A5|rc1 fi1 ms lb' dk hp0 A1 A2 A3 A4 A5 A6|fi1 ms lb' dk ct hold w fi0 fo1 hp0 A1 A2 A3 A4 A5 A6 A7 A8 A9 A10 A11|fi1 ms lb' dk ct hold fi0 fo1 hp0 A1 A2 A3 A4 A5 A6 A7 A8 A9 A10 A11 A12|fi1 ms lb' dk fi0 fo1 hp0 A1 A2 A3 A4 A5 A6 A7 A8 A9 A10 A11|rc1 fi1 ms lb' dk fi0 fo1 hp0 A1 A2 A3 A4 A5 A6 A7 A8 A9 A10 A11 A12].
  - split; [auto|discriminate].
  - split; [auto|]. intros ->. exfalso. inversion A2; subst; destruct (stream_fails fi); discriminate.
  - split; [auto|]. intros ->. apply dec_setup_no_io in A3. destruct A3. congruence.
  - split; [auto|]. unfold aes_rc in A4. destruct (v_key_mem e); congruence.
  - split; [congruence|]. eauto.
  - split; [auto|discriminate].
  - split; [auto|discriminate].
  - split; [auto|]. destruct A11 as [(-> & _)|(-> & _)]; discriminate.
Qed.
(** The exception is real: an output that accepts the header but not the body
    leaves the expanded key allocated, in every successful set-up. *)
Theorem C43_write_error_refuted M cfg lb hp e fi fo passwd P verbose salt st' t :
  enc_ready M lb hp e passwd P -> instream_ok fi -> no_failure e -> (0 < x_logN P)%Z ->
  crypto_entropy_read (m_sha M) (m_junk M) (v_ent e) (lb_drbg lb) 32 = Ok (Some salt, st') ->
  computable M (mk_fh (Z.to_N (x_logN P)) (x_r P) (x_p P) salt) ->
  stream_data fi <> [] -> o_plan fo = None :: Some 0%nat :: t ->
  exists o, scryptenc_file M cfg lb hp e fi fo passwd P verbose true = Ok o /\ oc_rc o = SCRYPT_EWRFILE /\
    heap_leak M (key_enc scrypt_wrapping passwd (mk_fh (Z.to_N (x_logN P)) (x_r P) (x_p P) salt)) hp (oc_heap o) /\ kh_live (oc_heap o) <> kh_live hp.
Proof.
  intros [[Hs HPW HH] HX HE HD] [D1 D2] HN HL ES HC HNE HPL.
  destruct (scryptenc_setup_force M cfg lb e P (scratch_bytes (jk M) 96) (scratch_bytes (jk M) 64) passwd verbose salt st' Hs HX HPW HE HD
    (scratch_bytes_length _ _) (scratch_bytes_length _ _) (scratch_bytes_ok _ _) HL HC HN ES) as (lb' & ms & E & Hh).
  set (h := mk_fh (Z.to_N (x_logN P)) (x_r P) (x_p P) salt) in *. cbv zeta in E.
  rewrite scryptenc_file_eq, E.
  assert (assert_ (all_zero P || none_zero P) = Ok tt) as ->.
  { unfold assert_. assert (none_zero P = true) as ->; [|rewrite Bool.orb_true_r; reflexivity]. unfold none_zero.
    pose proof HC as [V1 V2 _ V4 _ _ _ _]. subst h. cbn [fh_r fh_p fh_logN] in *. lia. }
  rewrite !bind_Ok. unfold enc_file_rest. cbn [is_ok rcode_eqb negb].
  pose proof Hh as (_ & _ & _ & _ & HSL & HSO). pose proof (fmt_96_length kdf passwd h HSL) as L96.
  assert (bytes_ok (fmt_96 kdf passwd h)) as O96 by (apply fmt_96_ok; [destruct Hh; lia|exact HSO]).
  rewrite key_hmac_rd, bind_Ok.
  destruct (hmac_junk_init (shw M) (jk M) (key_hmac kdf passwd h) (key_hmac_ok passwd h)) as (c1 & -> & HC1). rewrite bind_Ok.
  destruct (HMAC_Update_correct (shw M) (jk M) c1 _ [] (fmt_96 kdf passwd h) HC1 O96) as (c2 & -> & HC2). rewrite bind_Ok.
  unfold fwrite. rewrite HPL. cbn [negb].
  destruct HN as (_ & _ & K1 & K2 & _).
  destruct (start_aes_cases M e hp (fmt_keys kdf passwd h) (keys_length passwd h) (keys_ok passwd h) HH)
      as [(K & _)|[(_ & K & _)|(_ & _ & key & AES & -> & HK & HS)]]; [congruence|congruence|]. rewrite bind_Ok.
  change (firstn 32 (fmt_keys kdf passwd h)) with (key_enc kdf passwd h) in *.
  match goal with |- context [enc_loop M ?n AES c2 fi ?f1] => assert (exists eof AES' hctx' fi' fo', enc_loop M n AES c2 fi f1 = Ok (eof, AES', hctx', fi', fo') /\ eof = false) as (eof & AES' & hctx' & fi' & fo' & -> & ->) end.
  { unfold in_size. cbn [enc_loop]. destruct (fread1 ENCBLOCK fi) as [buf fi1] eqn:ER.
    destruct (Nat.eqb_spec (length buf) 0) as [H0|H0].
    - destruct buf; [|discriminate]. pose proof ENCBLOCK_pos. destruct (fread1_nil ENCBLOCK fi fi1 ltac:(lia) ER) as [HD0 _]. congruence.
    - assert (buf <> []) as Hb by (intros ->; apply H0; reflexivity). pose proof ENCBLOCK_pos as HEB.
      destruct (fread1_some ENCBLOCK fi buf fi1 ltac:(lia) ER Hb D1) as (L1 & O1 & I1 & S1 & F0 & F1 & x & X1 & X2).
      pose proof (fread1_data_le ENCBLOCK fi buf fi1 ltac:(lia) ER Hb D1) as HLE.
      destruct (stream_ok (m_aes M) (m_hi M) (key_enc kdf passwd h) 0 0 AES buf HS ltac:(lia)) as (AES1 & -> & HS1). rewrite bind_Ok.
      assert (bytes_ok (aes_ctr (key_enc kdf passwd h) 0 0 buf)) as OC by (apply aes_ctr_ok; auto using key_enc_ok, key_enc_length).
      destruct (HMAC_Update_correct (shw M) (jk M) c2 _ _ (aes_ctr (key_enc kdf passwd h) 0 0 buf) HC2 OC) as (h1 & -> & HH1). rewrite bind_Ok.
      unfold fwrite. cbn [o_plan]. rewrite aes_ctr_length. assert (Nat.ltb 0 (length buf) = true) as -> by (apply Nat.ltb_lt; lia).
      cbn [negb]. do 5 eexists. split; reflexivity. }
  rewrite bind_Ok. pose proof (heap_fresh hp (kh_next hp) HH ltac:(lia)) as F0.
  assert (fresh (S (kh_next hp)) ((kh_next hp, Some (S_key key)) :: kh_live hp)) as F1.
  { constructor; [cbn; lia|]. apply heap_fresh; [exact HH|lia]. }
  rewrite kh_set_head, bind_Ok by exact F1. cbn [negb]. unfold crypto_aesctr_free. rewrite zero_free_head, bind_Ok by exact F1.
  rewrite zero_dk_ok, bind_Ok by apply keys_length. eexists. split; [reflexivity|]. cbn [oc_rc oc_heap kh_live]. split; [reflexivity|]. split.
  - split; [|split].
    + unfold heap_ok. cbn [kh_live kh_next]. constructor; [cbn; lia|]. eapply Forall_impl; [|exact HH]. cbv beta. intros; lia.
    + exists key. split; [exact HK|reflexivity].
    + exists 1%nat. reflexivity.
  - intros EQ. apply (f_equal (@length _)) in EQ. cbn in EQ. lia.
Qed.
Example C43_hyps : exists o, scryptenc_file ex_machine ex_cfg ex_lib ex_heap ex_call (mk_in [(ex_data, false)] false) (mk_out [] [None; Some 0%nat] false) ex_passwd ex_P true true = Ok o /\
  oc_rc o = SCRYPT_EWRFILE /\ kh_live (oc_heap o) <> kh_live ex_heap.
Proof.
  destruct ex_salt as (salt & d & E & L & B).
  refine (_ (C43_write_error_refuted ex_machine ex_cfg ex_lib ex_heap ex_call (mk_in [(ex_data, false)] false) (mk_out [] [None; Some 0%nat] false) ex_passwd ex_P true salt d [] _ _ ex_no_failure eq_refl E _ _ eq_refl)).
  - intros (o & A1 & A2 & _ & A3). eauto.
  - apply ex_enc_ready. split; reflexivity.
  - split; [repeat constructor|reflexivity].
  - unfold computable. cbn [fh_logN fh_r fh_p ex_P x_logN x_r x_p ex_machine m_szb].
    change (Z.to_N 14) with 14. constructor; try (vm_compute; congruence); exists 14; split; [lia|reflexivity].
  - discriminate.
Qed.

(** ** C50.  Decryption cookies. *)
(** The calls a program makes; copy and free name one of the cookies that are
    currently open (the position in the list of open cookies). *)
Inductive dec_op :=
| D_prep (lb : lib) (e : call_env) (fi : instream) (passwd : bytes) (P : xparams) (verbose force : bool)
| D_copy (e : call_env) (fi : instream) (fo : outstream) (i : nat)
| D_free (i : nat)
| D_free_null.
Definition remove_nth {A} (i : nat) (l : list A) : list A := firstn i l ++ skipn (S i) l.
(** State: heap, open cookies, statuses returned so far (latest first).  A copy or
    free that names no open cookie is not a documented use and is skipped. *)
Definition dec_step (M : machine) (cfg : clk_cfg) (s : kheap * list cookie * list rcode) (op : dec_op) : res (kheap * list cookie * list rcode) :=
  let '(h, cs, rcs) := s in
  match op with
  | D_prep lb e fi passwd P verbose force =>
      o <- scryptdec_file_prep M cfg lb h e fi passwd P verbose force None ;;
      Ok (oc_heap o, match fst (oc_val o) with Some C => C :: cs | None => cs end, oc_rc o :: rcs)
  | D_copy e fi fo i =>
      match nth_error cs i with
      | None => Ok s
      | Some C => ' (rc, fi, fo, h) <- scryptdec_file_copy M h e (Some C) fi fo ;; Ok (h, cs, rc :: rcs)
      end
  | D_free i =>
      match nth_error cs i with
      | None => Ok s
      | Some C => h <- scryptdec_file_cookie_free (Some C) h ;; Ok (h, remove_nth i cs, rcs)
      end
  | D_free_null => h <- scryptdec_file_cookie_free None h ;; Ok (h, cs, rcs)
  end.
Fixpoint dec_history (M : machine) (cfg : clk_cfg) (s : kheap * list cookie * list rcode) (ops : list dec_op) : res (kheap * list cookie * list rcode) :=
  match ops with
  | [] => Ok s
  | op :: t => s <- dec_step M cfg s op ;; dec_history M cfg s t
  end.
Definition op_ok (op : dec_op) : Prop :=
  match op with
  | D_prep lb e fi passwd P verbose force => bytes_ok passwd /\ instream_ok fi
  | D_copy e fi fo i => instream_ok fi
  | _ => True
  end.
Definition cookie_object (C : cookie) : nat * option secret := (ck_addr C, Some (S_cookie (ck_dk C))).
Definition writes_failed (rcs : list rcode) : nat := length (filter (rcode_eqb SCRYPT_EWRFILE) rcs).
(** After any history starting in heap [h0]: the live objects are those of [h0],
    one per open cookie, and one expanded key for every failed write; what was
    released was zero. *)
Record history_ok (h0 : kheap) (s : kheap * list cookie * list rcode) : Prop := mk_history_ok {
  ho_heap : heap_ok (fst (fst s));
  ho_nodup : NoDup (map fst (kh_live (fst (fst s))));
  ho_live : exists keys, Permutation (kh_live (fst (fst s))) (map cookie_object (snd (fst s)) ++ keys ++ kh_live h0) /\
              length keys = writes_failed (snd s) /\ Forall (fun o => exists k, snd o = Some (S_key k)) keys;
  ho_cookies : Forall (fun C => length (ck_dk C) = 64%nat /\ bytes_ok (ck_dk C) /\ bytes_ok (ck_header C)) (snd (fst s));
  ho_released : exists k, kh_released (fst (fst s)) = repeat None k ++ kh_released h0 }.

Lemma zero_free_in h i c : NoDup (map fst (kh_live h)) -> In (i, c) (kh_live h) ->
  exists l, zero_free i h = Ok (mk_kh (kh_next h) l (None :: kh_released h)) /\ Permutation (kh_live h) ((i, c) :: l) /\ NoDup (map fst l).
Proof.
  destruct h as [n l r]. cbn [kh_live kh_next kh_released]. intros ND HI.
  apply in_split in HI. destruct HI as (a & b & ->). exists (a ++ b).
  rewrite map_app in ND. cbn [map fst] in ND.
  assert (fresh i a /\ fresh i b) as [FA FB].
  { apply NoDup_remove_2 in ND. rewrite <- map_app in ND. unfold fresh. split; apply Forall_forall; intros o Ho E; apply ND; apply in_map_iff; exists o; (split; [exact E|]); apply in_or_app; auto. }
  split; [|split; [symmetry; apply Permutation_middle|rewrite map_app; apply NoDup_remove_1 in ND; exact ND]].
  assert (forall x, kh_find i (a ++ (i, x) :: b) = Some x) as HF.
  { intros x. clear - FA. induction FA as [|[j y] a Hj _ IH]; cbn [kh_find app]; [rewrite Nat.eqb_refl; reflexivity|].
    cbn [fst] in Hj. destruct (Nat.eqb_spec i j); [congruence|exact IH]. }
  unfold zero_free, kh_set. cbn [kh_live]. rewrite HF, bind_Ok. cbn [kh_next kh_live kh_released].
  rewrite map_app. cbn [map fst]. rewrite Nat.eqb_refl, !map_fresh by assumption.
  unfold kh_free. cbn [kh_live kh_next kh_released]. rewrite HF. f_equal. f_equal.
  rewrite filter_app. cbn [filter fst]. rewrite Nat.eqb_refl. cbn [negb]. rewrite !filter_fresh by assumption. reflexivity.
Qed.
Lemma remove_nth_perm {A} (l : list A) : forall i x, nth_error l i = Some x -> Permutation l (x :: remove_nth i l).
Proof.
  induction l as [|y l IH]; intros [|i] x H; cbn in H; try discriminate.
  - injection H as ->. apply Permutation_refl.
  - unfold remove_nth. cbn [firstn skipn app]. eapply Permutation_trans; [apply perm_skip, (IH i x H)|]. apply perm_swap.
Qed.
Lemma heap_ok_nodup_cons h l a c : heap_ok h -> NoDup (map fst (kh_live h)) -> a = kh_next h -> l = (a, c) :: kh_live h -> NoDup (map fst l).
Proof.
  intros HH HN -> ->. cbn [map fst]. constructor; [|exact HN]. intros HI. apply in_map_iff in HI. destruct HI as (o & E & HI).
  unfold heap_ok in HH. rewrite Forall_forall in HH. specialize (HH o HI). lia.
Qed.
Theorem C50_step M cfg h0 s op s' : size_bits (m_szb M) -> op_ok op -> history_ok h0 s -> dec_step M cfg s op = Ok s' -> history_ok h0 s'.
Proof.
  intros Hs HOP [HH HN (keys & HL & HLK & HKK) HC (k & HR)] E. destruct s as [[h cs] rcs]. cbn [fst snd] in *.
  destruct op as [lb e fi passwd P verbose force|e fi fo i|i|]; cbn [dec_step op_ok] in *.
  - destruct HOP as [HPW [HI1 HI2]]. apply bind_inv in E. destruct E as (o & EP & E). apply prep_inv in EP; auto. destruct EP as (_ & _ & PR).
    assert (s' = (oc_heap o, match fst (oc_val o) with Some C => C :: cs | None => cs end, oc_rc o :: rcs)) as -> by congruence. clear E.
    assert (writes_failed (oc_rc o :: rcs) = writes_failed rcs) as EWF.
    { unfold writes_failed. cbn [filter]. assert (rcode_eqb SCRYPT_EWRFILE (oc_rc o) = false) as ->; [|reflexivity].
      assert (oc_rc o <> SCRYPT_EWRFILE) as HNW.
      { intros EQ. rewrite EQ in PR. inversion PR as [|rc hd fi' hp' A1 A2 A3 A4|rc fi' ms lb' dk hp' A1 A2 A3 A4 A5|]; subst.
        - inversion A2; subst; destruct (stream_fails fi); discriminate.
        - apply dec_setup_no_io in A3. destruct A3; congruence. }
      destruct (oc_rc o); try reflexivity. congruence. }
    assert (stream_data fi = stream_data fi) as _ by reflexivity. pose proof (stream_data_ok fi HI1) as HFO.
    revert PR EWF. generalize (oc_rc o) (oc_msgs o) (oc_P o) (fst (oc_val o)) (snd (oc_val o)) (oc_heap o). clear o. intros rc ms P' C fi' h' PR EWF.
    assert (heap_clean h h' -> C = None -> history_ok h0 (h', match C with Some C => C :: cs | None => cs end, rc :: rcs)) as HCL.
    { intros (X1 & X2 & j & X3) ->. constructor; cbn [fst snd]; auto.
      - rewrite X2. exact HN.
      - exists keys. rewrite X2, EWF. auto.
      - exists (j + k)%nat. rewrite X3, HR, app_assoc, repeat_app. reflexivity. }
    destruct PR as [A1|rc hd fi' hp' A1 A2 A3 A4|rc fi' ms lb' dk hp' A1 A2 A3 A4 A5|fi' ms lb' hp' A1 A2 A3 A4]; auto.
    { apply HCL; [apply heap_clean_refl, HH|reflexivity]. }
    subst hp'. set (dk := fmt_keys kdf passwd (get_head (stream_data fi))).
    constructor; cbn [fst snd kh_live kh_next kh_released].
    + unfold heap_ok. cbn [kh_live kh_next]. constructor; [cbn; lia|]. eapply Forall_impl; [|exact HH]. cbv beta. intros; lia.
    + eapply heap_ok_nodup_cons; [exact HH|exact HN|reflexivity|reflexivity].
    + exists keys. split; [|rewrite EWF; auto]. cbn [map cookie_object ck_addr ck_dk app]. apply perm_skip. exact HL.
    + constructor; [|exact HC]. cbn [ck_dk ck_header]. split; [apply keys_length|]. split; [apply keys_ok|apply bytes_ok_firstn, HFO].
    + exists k. exact HR.
  - destruct (nth_error cs i) as [C|] eqn:EN; [|assert (s' = (h, cs, rcs)) as -> by congruence; constructor; eauto].
    apply bind_inv in E. destruct E as ([[[rc fi'] fo'] h'] & EC & E). assert (s' = (h', cs, rc :: rcs)) as -> by congruence. clear E.
    destruct HOP as [HI1 HI2]. pose proof HC as HC0. rewrite Forall_forall in HC. destruct (HC C (nth_error_In _ _ EN)) as (L1 & L2 & L3).
    destruct (copy_ok M h e C fi fo HH L1 L2 L3 HI1 HI2) as (rc1 & fi1 & fo1 & h1 & EC1 & CR). rewrite EC in EC1.
    assert (rc1 = rc /\ h1 = h') as [-> ->] by (split; congruence). clear EC1 EC.
    assert (heap_clean h h' -> rc <> SCRYPT_EWRFILE -> history_ok h0 (h', cs, rc :: rcs)) as HCL.
    { intros (X1 & X2 & j & X3) NW. constructor; cbn [fst snd]; auto.
      - rewrite X2. exact HN.
      - exists keys. rewrite X2. split; [exact HL|]. split; [|exact HKK]. unfold writes_failed in *. cbn [filter].
        assert (rcode_eqb SCRYPT_EWRFILE rc = false) as -> by (destruct rc; try reflexivity; congruence). exact HLK.
      - exists (j + k)%nat. rewrite X3, HR, app_assoc, repeat_app. reflexivity. }
    destruct CR as [rc hp' A1 A2 A3|ct hold w fi1' fo1' hp' A1 A2 A3 A4 A5 A6 A7 A8|ct hold fi1' fo1' hp' A1 A2 A3 A4 A5 A6 A7 A8 A9|fi1' fo1' hp' A1 A2 A3 A4 A5 A6 A7 A8|rc fi1' fo1' hp' A1 A2 A3 A4 A5 A6 A7 A8 A9].
    + apply HCL; [exact A3|]. rewrite A1. unfold aes_rc. destruct (v_key_mem e); discriminate.
    + destruct A8 as (X1 & (key & K1 & X2) & j & X3). constructor; cbn [fst snd].
      * exact X1.
      * eapply heap_ok_nodup_cons; [exact HH|exact HN|reflexivity|exact X2].
      * exists ((kh_next h, Some (S_key key)) :: keys). split; [|split].
        -- rewrite X2. cbn [app]. apply Permutation_cons_app. exact HL.
        -- unfold writes_failed in *. cbn [filter rcode_eqb length]. rewrite HLK. reflexivity.
        -- constructor; [eexists; reflexivity|exact HKK].
      * exact HC0.
      * exists (j + k)%nat. rewrite X3, HR, app_assoc, repeat_app. reflexivity.
    + apply HCL; [exact A9|discriminate].
    + apply HCL; [exact A8|discriminate].
    + apply HCL; [exact A9|]. destruct A8 as [(-> & _)|(-> & _)]; discriminate.
  - destruct (nth_error cs i) as [C|] eqn:EN; [|assert (s' = (h, cs, rcs)) as -> by congruence; constructor; eauto].
    apply bind_inv in E. destruct E as (h' & EF & E). assert (s' = (h', remove_nth i cs, rcs)) as -> by congruence. clear E.
    pose proof (remove_nth_perm cs i C EN) as PC.
    assert (In (cookie_object C) (kh_live h)) as HIN.
    { apply (Permutation_in _ (Permutation_sym HL)). apply in_or_app. left. apply in_map. apply (nth_error_In _ _ EN). }
    destruct (zero_free_in h _ _ HN HIN) as (l & EZ & PL & NL). cbn [scryptdec_file_cookie_free] in EF.
    assert (h' = mk_kh (kh_next h) l (None :: kh_released h)) as -> by congruence.
    constructor; cbn [fst snd kh_live kh_next kh_released].
    + unfold heap_ok in *. cbn [kh_live kh_next]. apply (Permutation_Forall PL) in HH. inversion HH. assumption.
    + exact NL.
    + exists keys. split; [|auto]. apply (Permutation_cons_inv (a := cookie_object C)). eapply Permutation_trans; [apply Permutation_sym, PL|].
      eapply Permutation_trans; [exact HL|]. rewrite app_comm_cons. apply Permutation_app_tail.
      apply (Permutation_map cookie_object) in PC. exact PC.
    + apply (Permutation_Forall PC) in HC. inversion HC. assumption.
    + exists (S k). rewrite HR. reflexivity.
  - cbn [scryptdec_file_cookie_free bind] in E. assert (s' = (h, cs, rcs)) as -> by congruence. constructor; eauto.
Qed.
(** For every history of documented calls. *)
Theorem C50_history M cfg h0 ops h cs rcs : size_bits (m_szb M) -> Forall op_ok ops -> heap_ok h0 -> NoDup (map fst (kh_live h0)) ->
  dec_history M cfg (h0, [], []) ops = Ok (h, cs, rcs) ->
  history_ok h0 (h, cs, rcs) /\ (cs = [] -> ~ In SCRYPT_EWRFILE rcs -> Permutation (kh_live h) (kh_live h0)).
Proof.
  intros Hs HO HH HN E. assert (history_ok h0 (h0, [], [])) as HI.
  { constructor; cbn [fst snd]; auto; [exists []; split; [apply Permutation_refl|auto]|exists 0%nat; reflexivity]. }
  assert (history_ok h0 (h, cs, rcs)) as HF.
  { revert HI E. generalize (h0, @nil cookie, @nil rcode). induction HO as [|op ops H1 _ IH]; intros s HI E; cbn [dec_history] in E; [congruence|].
    apply bind_inv in E. destruct E as (s1 & E1 & E). apply (IH s1); [|exact E]. eapply C50_step; eauto. }
  split; [exact HF|]. intros -> NW. destruct HF as [_ _ (keys & HL & HLK & _) _ _]. cbn [fst snd map app] in *.
  assert (writes_failed rcs = 0%nat) as EW.
  { unfold writes_failed. clear - NW. induction rcs as [|rc t IH]; [reflexivity|]. cbn [filter].
    destruct rc; cbn [rcode_eqb]; try (apply IH; intros H; apply NW; right; exact H). exfalso. apply NW. left. reflexivity. }
  rewrite EW in HLK. destruct keys; [exact HL|discriminate].
Qed.
(** Copying and freeing an open cookie always succeed (in particular no double
    free, no use after free) ... *)
Theorem C50_defined M cfg h0 s op : history_ok h0 s -> op_ok op ->
  match op with D_prep _ _ _ _ _ _ _ => False | _ => True end -> exists s', dec_step M cfg s op = Ok s'.
Proof.
  intros [HH HN (keys & HL & _) HC _] HOP Hop. destruct s as [[h cs] rcs]. cbn [fst snd] in *.
  destruct op as [lb e fi passwd P verbose force|e fi fo i|i|]; cbn [dec_step op_ok] in *; [contradiction| | |].
  - destruct (nth_error cs i) as [C|] eqn:EN; [|eauto]. rewrite Forall_forall in HC. destruct (HC C (nth_error_In _ _ EN)) as (L1 & L2 & L3).
    destruct HOP as [HI1 HI2]. destruct (copy_ok M h e C fi fo HH L1 L2 L3 HI1 HI2) as (rc1 & fi1 & fo1 & h1 & EC1 & _). rewrite EC1, bind_Ok. eauto.
  - destruct (nth_error cs i) as [C|] eqn:EN; [|eauto].
    assert (In (cookie_object C) (kh_live h)) as HIN.
    { apply (Permutation_in _ (Permutation_sym HL)). apply in_or_app. left. apply in_map. apply (nth_error_In _ _ EN). }
    destruct (zero_free_in h _ _ HN HIN) as (l & EZ & _). cbn [scryptdec_file_cookie_free]. rewrite EZ, bind_Ok. eauto.
  - cbn [scryptdec_file_cookie_free]. rewrite bind_Ok. eauto.
Qed.
(** ... whereas freeing one a second time is undefined. *)
Theorem C50_double_free C h h' : NoDup (map fst (kh_live h)) -> scryptdec_file_cookie_free (Some C) h = Ok h' ->
  scryptdec_file_cookie_free (Some C) h' = UB.
Proof.
  cbn [scryptdec_file_cookie_free]. intros HN E. set (i := ck_addr C) in *.
  assert (forall l, NoDup (map fst l) -> kh_find i (filter (fun o : nat * option secret => negb (Nat.eqb i (fst o))) l) = None) as HF.
  { clear. induction l as [|[j c] l IH]; intros HN; [reflexivity|]. cbn [filter fst]. inversion HN; subst.
    destruct (Nat.eqb_spec i j); cbn [negb kh_find]; [auto|]. destruct (Nat.eqb_spec i j); [congruence|auto]. }
  unfold zero_free in E. apply bind_inv in E. destruct E as (h1 & E1 & E2).
  unfold kh_set in E1. destruct (kh_find i (kh_live h)); [|discriminate]. assert (h1 = mk_kh (kh_next h) (map (fun o => if Nat.eqb i (fst o) then (i, None) else o) (kh_live h)) (kh_released h)) as -> by congruence.
  unfold kh_free in E2. cbn [kh_live kh_next kh_released] in E2.
  match type of E2 with match ?x with _ => _ end = _ => destruct x; [|discriminate] end.
  injection E2 as <-. unfold zero_free, kh_set. cbn [kh_live]. rewrite HF; [reflexivity|].
  rewrite map_map. erewrite map_ext; [exact HN|]. intros [j c]. cbn [fst]. destruct (Nat.eqb_spec i j); cbn [fst]; congruence.
Qed.
(** A failed prepare leaves no cookie behind. *)
Theorem C50_failed_prep M cfg lb hp e fi passwd P verbose force C0 o :
  dec_ready M hp passwd -> instream_ok fi ->
  scryptdec_file_prep M cfg lb hp e fi passwd P verbose force C0 = Ok o ->
  (oc_rc o <> SCRYPT_OK -> fst (oc_val o) = C0 /\ heap_clean hp (oc_heap o)) /\
  (oc_rc o = SCRYPT_OK -> exists C, fst (oc_val o) = Some C /\ kh_live (oc_heap o) = cookie_object C :: kh_live hp).
Proof.
  intros [Hs HPW HH] [D1 D2] E. apply prep_inv in E; auto. destruct E as (_ & _ & HR).
  revert HR. generalize (oc_rc o) (oc_msgs o) (oc_P o) (fst (oc_val o)) (snd (oc_val o)) (oc_heap o). intros rc ms P' C fi' h' HR.
  destruct HR as [A1|rc hd fi' hp' A1 A2 A3 A4|rc fi' ms lb' dk hp' A1 A2 A3 A4 A5|fi' ms lb' hp' A1 A2 A3 A4].
  - split; [|discriminate]. split; [reflexivity|apply heap_clean_refl, HH].
  - split; [auto|congruence].
  - split; [auto|congruence].
  - split; [congruence|]. intros _. eexists. split; [reflexivity|]. rewrite A4. reflexivity.
Qed.
(** The one-call form is prepare, copy, free. *)
Theorem C50_one_call M cfg lb hp e fi fo passwd P verbose force op C fi1 rc fi2 fo2 hp2 hp3 :
  scryptdec_file_prep M cfg lb hp e fi passwd P verbose force None = Ok op -> oc_rc op = SCRYPT_OK -> oc_val op = (C, fi1) ->
  scryptdec_file_copy M (oc_heap op) e C fi1 fo = Ok (rc, fi2, fo2, hp2) ->
  scryptdec_file_cookie_free C hp2 = Ok hp3 ->
  exists o, scryptdec_file M cfg lb hp e fi fo passwd P verbose force = Ok o /\
    oc_rc o = rc /\ oc_val o = (fi2, fo2) /\ oc_heap o = hp3 /\ oc_P o = oc_P op /\ oc_msgs o = oc_msgs op.
Proof.
  intros E1 E2 E3 E4 E5. unfold scryptdec_file.
  assert (assert_ (all_zero P) = Ok tt) as -> by (unfold scryptdec_file_prep in E1; apply bind_inv in E1; destruct E1 as ([] & E1 & _); exact E1).
  rewrite bind_Ok, E1, bind_Ok, E3, E2. cbn [is_ok rcode_eqb negb]. rewrite E4, bind_Ok, E5, bind_Ok. eexists. split; [reflexivity|]. cbn. auto.
Qed.
Example C50_hyps : exists h C rcs, let f := fmt_file kdf ex_passwd ex_h ex_data in
  dec_history ex_machine ex_cfg (ex_heap, [], []) [D_prep ex_lib ex_call (mk_in [(f, false)] false) ex_passwd ex_P0 false true] = Ok (h, [C], rcs) /\
  history_ok ex_heap (h, [C], rcs).
Proof.
  cbv zeta. set (f := fmt_file kdf ex_passwd ex_h ex_data).
  assert (data_ok f) as HD.
  { split; [apply fmt_file_ok; [exact ex_h_ok|repeat constructor]|]. unfold f. rewrite fmt_file_length by apply ex_h_ok. reflexivity. }
  assert (delivered f (mk_in [(f, false)] false)) as HDE.
  { split; [reflexivity|]. split; [|cbn [i_pieces map fst concat]; apply app_nil_r]. constructor; [|constructor]. split; [|reflexivity]. cbn [fst].
    intros E. apply (f_equal (@length _)) in E. unfold f in E. rewrite fmt_file_length in E by apply ex_h_ok. discriminate E. }
  destruct (C05_stream_accepts_iff ex_machine ex_cfg ex_lib ex_heap ex_call f (mk_in [(f, false)] false) (mk_out [] [] false) ex_passwd ex_P0 false ex_dec_ready HD HDE (Forall_nil _) eq_refl eq_refl ex_no_failure)
    as (o & E & HI & _).
  assert (oc_rc o = SCRYPT_OK) as EO. { apply HI. exists ex_h, ex_data. split; [reflexivity|]. split; [exact ex_h_ok|exact ex_h_computable]. }
  unfold scryptdec_file in E. apply bind_inv in E. destruct E as (u & _ & E). apply bind_inv in E. destruct E as (op & EP & E).
  destruct (oc_val op) as [C fi1] eqn:EV. destruct (is_ok (oc_rc op)) eqn:EK.
  2:{ cbn [negb] in E. exfalso. assert (oc_rc op = oc_rc o) as EQ by (injection E as <-; reflexivity). rewrite EQ, EO in EK. discriminate EK. }
  apply is_ok_spec in EK. clear E.
  assert (instream_ok (mk_in [(f, false)] false)) as HIN.
  { destruct (delivered_ok f _ (proj1 HD) HDE) as (J1 & _ & _ & J4). split; [exact J1|]. rewrite J4. apply HD. }
  destruct (C50_failed_prep _ _ _ _ _ _ _ _ _ _ _ _ ex_dec_ready HIN EP) as [_ HS].
  destruct (HS EK) as (C1 & EC & _). rewrite EV in EC. cbn [fst] in EC. subst C.
  assert (dec_step ex_machine ex_cfg (ex_heap, [], []) (D_prep ex_lib ex_call (mk_in [(f, false)] false) ex_passwd ex_P0 false true) = Ok (oc_heap op, [C1], [oc_rc op])) as ES.
  { unfold dec_step. rewrite EP, bind_Ok, EV. reflexivity. }
  exists (oc_heap op), C1, [oc_rc op]. split; [unfold dec_history; rewrite ES, bind_Ok; reflexivity|].
  refine (C50_step ex_machine ex_cfg ex_heap (ex_heap, [], []) _ _ _ _ _ ES).
  - right. reflexivity.
  - split; [repeat constructor|exact HIN].
  - constructor; cbn [fst snd]; [constructor|constructor|exists []; split; [apply Permutation_refl|auto]|constructor|exists 0%nat; reflexivity].
Qed.
Definition Prop_io_all := (C12_encrypt, C12_decrypt, C43_buffer_encrypt, C43_buffer_decrypt, C43_stream_encrypt, C43_stream_decrypt, C43_write_error_refuted,
  C50_step, C50_history, C50_defined, C50_double_free, C50_failed_prep, C50_one_call).
Print Assumptions Prop_io_all.
