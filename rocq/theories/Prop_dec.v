(** Properties C04, C06, C07, C08: what decryption does with bad input. *)
From Verif Require Import Base SpecBytes SpecSHA SpecScrypt SpecScryptAPI SpecAES SpecDRBG SpecFormat SpecStream
  M_endian P_endian M_sha256_tr M_simd M_sha256_hw M_sha256 P_sha256 M_smix M_aes_hw M_aesctr P_aes P_aesctr P_scrypt P_scrypt_ref
  M_scrypt_sel P_scrypt_sel Prop_scrypt Prop_aes M_verify P_verify M_entropy P_entropy Prop_entropy M_machine M_double M_memlimit M_cpuperf
  M_humansize P_humansize M_params Prop_params M_stdio P_stdio M_scryptenc SpecScryptenc P_scryptenc P_scryptenc2 P_scryptenc3 P_scryptenc4 P_scryptenc5
  P_scryptenc6 P_scryptenc7 P_scryptenc8 P_scryptenc9 P_scryptenc10 P_scryptenc11 Prop_enc.
Local Opaque ENCBLOCK.

(** ** C06.  The status as a function of the input. *)
Theorem C06_status_buffer M cfg lb hp e f outbuf outlen passwd P verbose :
  dec_ready M hp passwd -> data_ok f -> (length f - 128 <= length outbuf)%nat -> all_zero P = true -> no_failure e ->
  exists o, scryptdec_buf M cfg lb hp e f outbuf outlen passwd P verbose true = Ok o /\
    forall rc, oc_rc o = rc <-> dec_class M passwd f rc.
Proof.
  intros [Hs HPW HH] [HD1 HD2] HO HZ HN.
  destruct (scryptdec_buf_force M cfg lb hp e f outbuf outlen passwd P verbose Hs HPW HH HD1 HD2 HO HZ HN) as (o & E & HC).
  exists o. split; [exact E|]. intros rc. split; [congruence|]. revert HC. generalize (oc_rc o). intros rc1 H1 H2.
  destruct H1 as [A1|A1 A2 A3|A1 A2 A3|A1 A2 A3 A4|A1 A2 A3 A4 A5|A1 A2 A3 A4 A5 A6|A1 A2 A3 A4 A5 A6 A7|A1 A2 A3 A4 A5 A6 A7 A8|A1 A2 A3 A4 A5 A6 A7 A8];
  destruct H2 as [B1|B1 B2 B3|B1 B2 B3|B1 B2 B3 B4|B1 B2 B3 B4 B5|B1 B2 B3 B4 B5 B6|B1 B2 B3 B4 B5 B6 B7|B1 B2 B3 B4 B5 B6 B7 B8|B1 B2 B3 B4 B5 B6 B7 B8];
  try reflexivity; exfalso; try contradiction; try (destruct A1; [lia|contradiction]); try (destruct B1; [lia|contradiction]); try lia.
Qed.
Theorem C06_status_stream M cfg lb hp e f fi fo passwd P verbose :
  dec_ready M hp passwd -> data_ok f -> delivered f fi -> out_good fo -> o_err fo = false -> all_zero P = true -> no_failure e ->
  exists o, scryptdec_file M cfg lb hp e fi fo passwd P verbose true = Ok o /\
    forall rc, oc_rc o = rc <-> dec_class_stream M passwd f rc.
Proof.
  intros [Hs HPW HH] [HD1 HD2] HDE HG HER HZ HN.
  destruct (dec_file_force M cfg lb hp e f fi fo passwd P verbose Hs HPW HH HD1 HD2 HDE HG HER HZ HN) as (o & E & HC & _ & _).
  exists o. split; [exact E|]. intros rc. split; [congruence|]. revert HC. generalize (oc_rc o). intros rc1 H1 H2.
  destruct (le_lt_dec 96 (length f)) as [L1|L1]; [destruct (le_lt_dec 128 (length f)) as [L2|L2]|].
  2:{ destruct H1 as [r1 C1 H1|A1 A2|A1 A2 A3|A1 A2 A3 A4|A1 A2 A3 A4 A5|A1 A2 A3 A4 A5 A6|A1 A2 A3 A4 A5 A6 A7|A1 A2 A3 A4 A5 A6 A7];
      destruct H2 as [r2 C2 H2|B1 B2|B1 B2 B3|B1 B2 B3 B4|B1 B2 B3 B4 B5|B1 B2 B3 B4 B5 B6|B1 B2 B3 B4 B5 B6 B7|B1 B2 B3 B4 B5 B6 B7];
      try reflexivity; exfalso; try contradiction; lia. }
  all: destruct H1 as [r1 C1 H1| | | | | | |]; try lia; destruct H2 as [r2 C2 H2| | | | | | |]; try lia.
  all: destruct H1 as [A1|A1 A2 A3|A1 A2 A3|A1 A2 A3 A4|A1 A2 A3 A4 A5|A1 A2 A3 A4 A5 A6|A1 A2 A3 A4 A5 A6 A7|A1 A2 A3 A4 A5 A6 A7 A8|A1 A2 A3 A4 A5 A6 A7 A8];
  destruct H2 as [B1|B1 B2 B3|B1 B2 B3|B1 B2 B3 B4|B1 B2 B3 B4 B5|B1 B2 B3 B4 B5 B6|B1 B2 B3 B4 B5 B6 B7|B1 B2 B3 B4 B5 B6 B7 B8|B1 B2 B3 B4 B5 B6 B7 B8];
  try reflexivity; exfalso; try contradiction; try (destruct A1; [lia|contradiction]); try (destruct B1; [lia|contradiction]); try lia.
Qed.

Lemma checkparams_einval M cfg sst e lim logN r p verbose force sst' m : r < 2 ^ 32 -> p < 2 ^ 32 ->
  checkparams M cfg sst e lim logN r p verbose force = Ok (sst', m, SCRYPT_EINVAL) ->
  ~ ((1 <= logN <= 63)%Z /\ 0 < r /\ 0 < p /\ r * p < 2 ^ 30).
Proof.
  intros Hr Hp E (H1 & H2 & H3 & H4). unfold checkparams in E.
  destruct (Z.ltb_spec logN 1) as [|_]; [lia|]. destruct (Z.ltb_spec 63 logN) as [|_]; [lia|]. cbn [orb] in E.
  assert (w64 (r * p) = r * p) as Hw by (apply w64_small; lia). rewrite Hw in E.
  destruct (N.leb_spec 0x40000000 (r * p)) as [|_]; [lia|].
  destruct (N.eqb_spec r 0) as [|_]; [lia|]. destruct (N.eqb_spec p 0) as [|_]; [lia|]. cbn [orb] in E.
  destruct force.
  { apply bind_inv in E. destruct E as (x & _ & E). congruence. }
  apply bind_inv in E. destruct E as ([L|] & _ & E); [|congruence].
  apply bind_inv in E. destruct E as ([s1 [rc1|opps]] & E1 & E).
  - apply cpuperf_codes in E1. assert (rc1 = SCRYPT_EINVAL) as -> by congruence. destruct E1; discriminate.
  - cbv zeta in E. apply bind_inv in E. destruct E as (m1 & _ & E).
    assert (SCRYPT_EINVAL = check_limits L (dmul opps (l_maxtime lim)) (Z.to_N logN) r p) as E2 by congruence.
    revert E2. unfold check_limits. repeat match goal with |- context [if ?b then _ else _] => destruct b end; discriminate.
Qed.
Lemma get_head_rp f : bytes_ok f -> (48 <= length f)%nat -> fh_r (get_head f) < 2 ^ 32 /\ fh_p (get_head f) < 2 ^ 32.
Proof. intros HO HL. unfold get_head. cbn [fh_r fh_p]. split; apply be32dec_be_val; auto; lia. Qed.
(** In any environment: the set-up step's status. *)
Lemma dec_setup_class M cfg lb e lim passwd f verbose force lb' ms dk rc : bytes_ok f -> (96 <= length f)%nat ->
  dec_setup_result M cfg lb e lim passwd f verbose force lb' ms dk rc ->
  In rc env_codes \/ (rc = SCRYPT_EINVAL /\ ~ checksum_ok f) \/ (rc = SCRYPT_EINVAL /\ checksum_ok f /\ ~ fhead_ok (get_head f)) \/
  (rc = SCRYPT_EPASS /\ checksum_ok f /\ fhead_ok (get_head f) /\ computable M (get_head f) /\ ~ passphrase_ok passwd f) \/
  (rc = SCRYPT_OK /\ checksum_ok f /\ fhead_ok (get_head f) /\ computable M (get_head f) /\ passphrase_ok passwd f).
Proof.
  intros HO HL H. destruct (get_head_rp f HO ltac:(lia)) as [Hr Hp].
  assert (forall sst m, checkparams M cfg (lb_smix lb) (v_params e) lim (Z.of_N (fh_logN (get_head f))) (fh_r (get_head f)) (fh_p (get_head f)) verbose force = Ok (sst, m, SCRYPT_OK) -> fhead_ok (get_head f)) as HF.
  { intros sst m EC. apply checkparams_ok_range in EC; auto; [|discriminate]. apply get_head_ok_iff; auto; lia. }
  destruct H as [dk A1|dk sst m rc A1 A2 A3|dk sst m lb' A1 A2 A3|sst m lb' A1 A2 A3 A4|sst m lb' A1 A2 A3 A4].
  - right; left. auto.
  - pose proof (checkparams_codes _ _ _ _ _ _ _ _ _ _ _ _ _ A3) as HC.
    destruct HC as [<-|[<-|HC]]; [congruence| |].
    + right; right; left. split; [reflexivity|]. split; [exact A1|]. intros HX. apply checkparams_einval in A3; auto.
      apply get_head_ok_iff in HX; auto; lia.
    + left. destruct force; [destruct HC|]. cbn in HC |- *. tauto.
  - left. cbn. tauto.
  - right; right; right; left. eauto 10.
  - right; right; right; right. eauto 10.
Qed.
(** In any environment (limits, failing facilities, messages on or off) the
    status either is one of the environment's codes or is the one the input
    calls for.  The trailer is only judged when the body could be processed. *)
Theorem C06_any_environment_buffer M cfg lb hp e f outbuf outlen passwd P verbose force o :
  dec_ready M hp passwd -> data_ok f -> (length f - 128 <= length outbuf)%nat ->
  scryptdec_buf M cfg lb hp e f outbuf outlen passwd P verbose force = Ok o ->
  In (oc_rc o) env_codes \/ dec_class M passwd f (oc_rc o).
Proof.
  intros [Hs HPW HH] [HD1 HD2] HO E. apply scryptdec_buf_inv in E; auto. destruct E as (_ & _ & _ & _ & HR).
  revert HR. generalize (oc_rc o) (oc_msgs o) (oc_P o) (oc_val o). intros rc ms P' V HR.
  destruct HR as [A|A B C|A B C|rc lb' ms dk A B C D F|rc lb' ms dk A B C D F G|rc lb' ms dk A B C D F G H].
  - right. apply DC_not_scrypt; auto.
  - right. apply DC_version; auto.
  - right. apply DC_short; auto.
  - apply dec_setup_class in F; auto; [|lia]. destruct F as [F|[(-> & F)|[(-> & F & G)|[(-> & F1 & F2 & F3 & F4)|(-> & _)]]]]; auto; [| | |congruence];
      right; eauto using dec_class.
  - left. rewrite F. unfold aes_rc. destruct (v_key_mem e); cbn; tauto.
  - right. apply dec_setup_class in D; auto; [|lia].
    destruct D as [D|[(D & _)|[(D & _)|[(D & _)|(_ & F1 & F2 & F3 & F4)]]]]; try discriminate D; [cbn in D; intuition discriminate|].
    destruct H as [(-> & H)|(-> & H)]; [apply DC_ok|apply DC_trailer]; auto.
Qed.
Theorem C06_any_environment_stream M cfg lb hp e fi fo passwd P verbose force o :
  dec_ready M hp passwd -> instream_ok fi ->
  scryptdec_file M cfg lb hp e fi fo passwd P verbose force = Ok o ->
  In (oc_rc o) env_codes \/ dec_class_stream M passwd (stream_data fi) (oc_rc o).
Proof.
  intros [Hs HPW HH] [HD1 HD2] E. apply scryptdec_file_inv in E; auto. destruct E as (_ & _ & _ & HR).
  revert HR. generalize (oc_rc o) (oc_msgs o) (oc_P o) (oc_val o) (oc_heap o). clear o. intros rc0 ms0 P0 [fi0 fo0] hp0. cbn [fst snd]. intros HR.
  pose proof (stream_data_ok fi HD1) as HFO. set (f := stream_data fi) in *.
  destruct HR as [A1|rc1 hd fi' hp' A1 A2 A3 A4|rc1 fi' ms lb' dk hp' A1 A2 A3 A4 A5|rc1 fi1 ms lb' dk hp' A1 A2 A3 A4 A5|fi1 ms lb' dk ct hold w fi' fo' hp' A1 A2 A3 A4 A5 A6 A7 A8 A9|fi1 ms lb' dk ct hold fi' fo' hp' A1 A2 A3 A4 A5 A6 A7 A8 A9|fi1 ms lb' dk fi' fo' hp' A1 A2 A3 A4 A5 A6 A7 A8 A9 A10|rc1 fi1 ms lb' dk fi' fo' hp' A1 A2 A3 A4 A5 A6 A7 A8 A9 A10 A11];
    try (left; cbn; tauto).
  - inversion A2 as [fi2 L S1 S2 S3 S4 S5 S6 S7|fi2 L|fi2 L S1|fi2 L S1 S2|fi2 L S1 S2]; subst rc1; fold f in L |- *; try congruence.
    + destruct (stream_fails fi); [left; cbn; tauto|right]. apply DCS_same; [lia|]. apply DC_not_scrypt. auto.
    + right. fold f in S1. destruct (le_lt_dec 96 (length f)) as [L1|L1]; [destruct (le_lt_dec 128 (length f)) as [L2|L2]|].
      * apply DCS_same; [lia|]. apply DC_not_scrypt. auto.
      * apply DCS_not_scrypt; auto; lia.
      * apply DCS_same; [lia|]. apply DC_not_scrypt. auto.
    + right. fold f in S1, S2. destruct (le_lt_dec 96 (length f)) as [L1|L1]; [destruct (le_lt_dec 128 (length f)) as [L2|L2]|].
      * apply DCS_same; [lia|]. apply DC_version; auto.
      * apply DCS_version; auto; lia.
      * apply DCS_same; [lia|]. apply DC_version; auto.
    + destruct (stream_fails fi); [left; cbn; tauto|right]. fold f in S1, S2. apply DCS_same; [lia|]. apply DC_short; auto. lia.
  - destruct (header_result_ok_inv fi _ fi' A2) as (_ & HL & S1 & S2 & _). fold f in HL, S1, S2.
    apply dec_setup_class in A3; auto. destruct A3 as [F|[(-> & F)|[(-> & F & G)|[(-> & F1 & F2 & F3 & F4)|(-> & _)]]]]; auto; [| | |congruence];
      right; (destruct (le_lt_dec 128 (length f)) as [L2|L2]; [apply DCS_same; [lia|]|]); eauto using dec_class, dec_class_stream.
  - left. rewrite A4. unfold aes_rc. destruct (v_key_mem e); cbn; tauto.
  - right. destruct (header_result_ok_inv fi _ fi1 A2) as (_ & HL & S1 & S2 & _). fold f in HL, S1, S2.
    apply dec_setup_class in A3; auto. destruct A3 as [D|[(D & _)|[(D & _)|[(D & _)|(_ & F1 & F2 & F3 & F4)]]]]; try discriminate D; [cbn in D; intuition discriminate|].
    apply DCS_short; auto.
  - right. destruct (header_result_ok_inv fi _ fi1 A2) as (_ & HL & S1 & S2 & _). fold f in HL, S1, S2.
    apply dec_setup_class in A3; auto. destruct A3 as [D|[(D & _)|[(D & _)|[(D & _)|(_ & F1 & F2 & F3 & F4)]]]]; try discriminate D; [cbn in D; intuition discriminate|].
    apply DCS_same; [subst f; lia|]. destruct A11 as [(-> & A11)|(-> & A11)]; [apply DC_ok|apply DC_trailer]; auto.
Qed.
Example C06_hyps : dec_ready ex_machine ex_heap ex_passwd /\ data_ok (fmt_64 ex_h) /\ all_zero ex_P0 = true /\ no_failure ex_call /\
  dec_class ex_machine ex_passwd (fmt_64 ex_h) SCRYPT_EINVAL /\ dec_class ex_machine ex_passwd (fmt_magic ++ [1]) SCRYPT_EVERSION /\
  dec_class ex_machine ex_passwd (fmt_file kdf ex_passwd ex_h ex_data) SCRYPT_OK.
Proof.
  split; [exact ex_dec_ready|]. split. { split; [apply fmt_64_ok; [reflexivity|repeat constructor]|reflexivity]. }
  split; [reflexivity|]. split; [exact ex_no_failure|].
  split; [|split].
  - apply DC_short; [|reflexivity|reflexivity]. rewrite fmt_64_length by reflexivity. lia.
  - apply DC_version; [cbn; lia|reflexivity|discriminate].
  - apply fmt_file_class; [exact ex_h_ok|exact ex_h_computable].
Qed.

(** ** C04.  Stream and buffer decryption agree on status, messages, reported
    parameters and output, for every read schedule, except on inputs of
    96 .. 127 bytes. *)
Theorem C04_stream_equals_buffer M cfg lb hp e f outbuf outlen fi fo passwd P verbose force ob :
  dec_ready M hp passwd -> data_ok f -> (length f - 128 <= length outbuf)%nat ->
  delivered f fi -> out_good fo -> o_err fo = false -> v_cookie_mem e = true ->
  (length f < 96 \/ 128 <= length f)%nat ->
  scryptdec_buf M cfg lb hp e f outbuf outlen passwd P verbose force = Ok ob ->
  exists of, scryptdec_file M cfg lb hp e fi fo passwd P verbose force = Ok of /\
    oc_rc of = oc_rc ob /\ oc_msgs of = oc_msgs ob /\ oc_P of = oc_P ob /\ oc_lib of = oc_lib ob /\
    (oc_rc ob = SCRYPT_OK -> o_data (snd (oc_val of)) = o_data fo ++ firstn (length f - 128) (fst (oc_val ob))).
Proof.
  intros [Hs HPW HH] [HD1 HD2] HO HDE HG HER HM HL E.
  destruct (dec_forms_agree M cfg lb hp e f outbuf outlen fi fo passwd P verbose force ob Hs HPW HH HD1 HD2 HO HDE HG HER HM HL E) as (of & E1 & A1 & A2 & A3 & A4 & A5).
  exists of. auto 10.
Qed.
(** On inputs of 96 .. 127 bytes the buffer form says SCRYPT_EINVAL (or
    SCRYPT_EVERSION) without looking further; the stream form writes nothing and
    does not succeed either. *)
Theorem C04_truncated M cfg lb hp e f outbuf outlen fi fo passwd P verbose :
  dec_ready M hp passwd -> data_ok f -> (96 <= length f < 128)%nat ->
  delivered f fi -> out_good fo -> o_err fo = false -> no_failure e -> all_zero P = true ->
  exists ob of, scryptdec_buf M cfg lb hp e f outbuf outlen passwd P verbose true = Ok ob /\
    scryptdec_file M cfg lb hp e fi fo passwd P verbose true = Ok of /\
    oc_rc ob <> SCRYPT_OK /\ oc_val ob = (outbuf, outlen) /\ oc_rc of <> SCRYPT_OK /\ o_data (snd (oc_val of)) = o_data fo.
Proof.
  intros [Hs HPW HH] [HD1 HD2] HL HDE HG HER HN HZ.
  assert (length f - 128 <= length outbuf)%nat as HO by lia.
  destruct (scryptdec_buf_force M cfg lb hp e f outbuf outlen passwd P verbose Hs HPW HH HD1 HD2 HO HZ HN) as (ob & Eb & HCb).
  destruct (dec_file_force M cfg lb hp e f fi fo passwd P verbose Hs HPW HH HD1 HD2 HDE HG HER HZ HN) as (of & Ef & HCf & _ & HW).
  exists ob, of. split; [exact Eb|]. split; [exact Ef|]. apply scryptdec_buf_inv in Eb; auto. destruct Eb as (_ & _ & _ & _ & HR).
  split. { intros EO. rewrite EO in HCb. inversion HCb; lia. }
  split. { revert HR. generalize (oc_rc ob) (oc_msgs ob) (oc_P ob) (oc_val ob). intros rc ms P' V HR. destruct HR; auto; lia. }
  split. { intros EO. rewrite EO in HCf. inversion HCf as [rc A B| | | | | | |]. lia. }
  apply HW. lia.
Qed.
(** The statuses do differ: a file truncated to 96 bytes, N = 2, under a wrong
    passphrase.  (The property as first stated is therefore false.) *)
Definition trunc_h : fhead := mk_fh 1 1 1 (repeat 0 32).
Definition trunc_f : bytes := fmt_96 scrypt [1] trunc_h.
Lemma trunc_facts : length trunc_f = 96%nat /\ data_ok trunc_f /\ firstn 6 trunc_f = fmt_magic /\ nth 6 trunc_f 0 = 0 /\ checksum_ok trunc_f /\
  get_head trunc_f = trunc_h /\ fhead_ok trunc_h /\ computable ex_machine trunc_h /\ ~ passphrase_ok ex_passwd trunc_f.
Proof.
  assert (get_head trunc_f = trunc_h) as EG by (vm_compute; reflexivity).
  assert (fmt_keys scrypt_wrapping ex_passwd trunc_h = fmt_keys scrypt ex_passwd trunc_h) as EK
    by (unfold fmt_keys; apply scrypt_wrapping_small; cbn; lia).
  split; [vm_compute; reflexivity|]. split. { split; [|vm_compute; reflexivity]. unfold trunc_f. apply fmt_96_ok; [reflexivity|repeat constructor]. }
  split; [vm_compute; reflexivity|]. split; [vm_compute; reflexivity|]. split; [vm_compute; reflexivity|]. split; [exact EG|].
  split; [|split].
  - unfold fhead_ok, trunc_h. cbn [fh_logN fh_r fh_p fh_salt]. repeat split; try lia. repeat constructor.
  - unfold computable. cbn [fh_logN fh_r fh_p trunc_h ex_machine m_szb].
    constructor; try (vm_compute; congruence); exists 1; split; [lia|reflexivity].
  - unfold passphrase_ok. rewrite EG. unfold key_hmac. rewrite EK. vm_compute. discriminate.
Qed.
Theorem C04_truncated_refuted : exists ob of outbuf outlen,
  let fi := mk_in [(trunc_f, false)] false in let fo := mk_out [] [] false in
  delivered trunc_f fi /\ out_good fo /\
  scryptdec_buf ex_machine ex_cfg ex_lib ex_heap ex_call trunc_f outbuf outlen ex_passwd ex_P0 false true = Ok ob /\
  scryptdec_file ex_machine ex_cfg ex_lib ex_heap ex_call fi fo ex_passwd ex_P0 false true = Ok of /\
  oc_rc ob = SCRYPT_EINVAL /\ oc_rc of = SCRYPT_EPASS.
Proof.
  destruct trunc_facts as (F1 & F2 & F3 & F4 & F5 & F6 & F7 & F8 & F9).
  assert (trunc_f <> []) as HNE by (intros E; rewrite E in F1; discriminate).
  set (fi := mk_in [(trunc_f, false)] false). set (fo := mk_out [] [] false).
  assert (delivered trunc_f fi) as HDE. { split; [reflexivity|]. split; [repeat constructor; exact HNE|apply app_nil_r]. }
  assert (out_good fo) as HG by constructor.
  destruct (C06_status_buffer ex_machine ex_cfg ex_lib ex_heap ex_call trunc_f [] 0 ex_passwd ex_P0 false ex_dec_ready F2 ltac:(rewrite F1; cbn; lia) eq_refl ex_no_failure) as (ob & Eb & HB).
  destruct (C06_status_stream ex_machine ex_cfg ex_lib ex_heap ex_call trunc_f fi fo ex_passwd ex_P0 false ex_dec_ready F2 HDE HG eq_refl eq_refl ex_no_failure) as (of & Ef & HF).
  exists ob, of, [], 0. cbv zeta. split; [exact HDE|]. split; [exact HG|]. split; [exact Eb|]. split; [exact Ef|].
  split; [apply HB, DC_short; [rewrite F1; lia|exact F3|exact F4]|].
  apply HF, DCS_pass; [rewrite F1; lia|exact F3|exact F4|exact F5|rewrite F6; exact F7|rewrite F6; exact F8|exact F9].
Qed.

Lemma accepted_is_forgery_file passwd f' h data :
  fhead_ok h -> f' <> fmt_file scrypt_wrapping passwd h data -> (128 <= length f')%nat -> trailer_ok passwd f' ->
  let m' := firstn (length f' - 32) f' in let t' := skipn (length f' - 32) f' in
  t' = hmac (key_hmac scrypt_wrapping passwd (get_head f')) m' /\
  m' <> fmt_64 h /\ m' <> fmt_body scrypt_wrapping passwd h data /\
  (firstn 48 f' = fmt_48 h -> t' = hmac (key_hmac scrypt_wrapping passwd h) m').
Proof.
  intros Hh HNE A1 A8 m' t'. unfold trailer_ok in A8. split; [exact A8|].
  assert (length m' = (length f' - 32)%nat) as LM by (unfold m'; rewrite firstn_length; lia).
  assert (forall g, firstn 48 f' = firstn 48 g -> get_head f' = get_head g) as HG48.
  { intros g Eg. rewrite <- (get_head_firstn f' 48), <- (get_head_firstn g 48) by lia. congruence. }
  assert (forall rest, get_head (fmt_48 h ++ rest) = h) as HGF by (intros; apply get_head_fmt; exact Hh).
  assert (length (fmt_48 h) = 48%nat) as L48 by (apply fmt_48_length; apply Hh).
  split. { intros EM. apply (f_equal (@length N)) in EM. rewrite LM, fmt_64_length in EM by apply Hh. lia. }
  split.
  - intros EM. apply HNE. rewrite <- (firstn_skipn (length f' - 32) f'). fold m' t'. unfold t'. rewrite A8. fold m'. rewrite EM. unfold fmt_file. f_equal. f_equal. f_equal.
    rewrite <- (get_head_firstn f' (length f' - 32)) by lia. fold m'. rewrite EM. unfold fmt_body, fmt_96, fmt_64. rewrite <- !app_assoc. apply HGF.
  - intros E48. unfold t'. rewrite A8. fold m'. f_equal. f_equal. rewrite (HG48 (fmt_48 h ++ [])) by (rewrite E48, app_nil_r; symmetry; apply firstn_all2; lia).
    apply HGF.
Qed.
Lemma accepted_is_forgery M passwd f' h data :
  fhead_ok h -> f' <> fmt_file scrypt_wrapping passwd h data -> dec_class M passwd f' SCRYPT_OK ->
  let m' := firstn (length f' - 32) f' in let t' := skipn (length f' - 32) f' in
  t' = hmac (key_hmac scrypt_wrapping passwd (get_head f')) m' /\
  m' <> fmt_64 h /\ m' <> fmt_body scrypt_wrapping passwd h data /\
  (firstn 48 f' = fmt_48 h -> t' = hmac (key_hmac scrypt_wrapping passwd h) m').
Proof. intros Hh HNE HC. inversion HC as [| | | | | | | |A1 A2 A3 A4 A5 A6 A7 A8]. exact (accepted_is_forgery_file passwd f' h data Hh HNE A1 A8). Qed.
(** ** C07.  If a modified file is accepted under the same passphrase, then it
    carries a valid tag on a message that was never tagged in the original. *)
Theorem C07_forgery M cfg lb hp e f' outbuf outlen passwd P verbose force o h data :
  dec_ready M hp passwd -> data_ok f' -> (length f' - 128 <= length outbuf)%nat -> fhead_ok h ->
  f' <> fmt_file scrypt_wrapping passwd h data ->
  scryptdec_buf M cfg lb hp e f' outbuf outlen passwd P verbose force = Ok o -> oc_rc o = SCRYPT_OK ->
  let m' := firstn (length f' - 32) f' in let t' := skipn (length f' - 32) f' in
  t' = hmac (key_hmac scrypt_wrapping passwd (get_head f')) m' /\
  m' <> fmt_64 h /\ m' <> fmt_body scrypt_wrapping passwd h data /\
  (firstn 48 f' = fmt_48 h -> t' = hmac (key_hmac scrypt_wrapping passwd h) m').
Proof.
  intros HR HD HO Hh HNE E EO.
  destruct (C06_any_environment_buffer M cfg lb hp e f' outbuf outlen passwd P verbose force o HR HD HO E) as [HC|HC]; rewrite EO in HC.
  { cbn in HC. intuition discriminate. }
  eapply accepted_is_forgery; eauto.
Qed.
(** The same of the stream form, which [scrypt dec] uses. *)
Theorem C07_forgery_stream M cfg lb hp e fi fo passwd P verbose force o h data :
  dec_ready M hp passwd -> instream_ok fi -> fhead_ok h ->
  let f' := stream_data fi in
  f' <> fmt_file scrypt_wrapping passwd h data ->
  scryptdec_file M cfg lb hp e fi fo passwd P verbose force = Ok o -> oc_rc o = SCRYPT_OK ->
  let m' := firstn (length f' - 32) f' in let t' := skipn (length f' - 32) f' in
  t' = hmac (key_hmac scrypt_wrapping passwd (get_head f')) m' /\
  m' <> fmt_64 h /\ m' <> fmt_body scrypt_wrapping passwd h data /\
  (firstn 48 f' = fmt_48 h -> t' = hmac (key_hmac scrypt_wrapping passwd h) m').
Proof.
  intros HR HD Hh f' HNE E EO.
  destruct (C06_any_environment_stream M cfg lb hp e fi fo passwd P verbose force o HR HD E) as [HC|HC]; rewrite EO in HC.
  { cbn in HC. intuition discriminate. }
  fold f' in HC. inversion HC as [rc0 A0 A9| | | | | | |]; subst rc0. eapply accepted_is_forgery; eauto.
Qed.
(** In particular a file whose last 32 bytes only were changed is rejected. *)
Theorem C07_tag_change_rejected M cfg lb hp e t' outbuf outlen passwd P verbose force o h data :
  dec_ready M hp passwd -> fhead_ok h -> bytes_ok data -> N.of_nat (length data + 128) < 2 ^ 64 -> bytes_ok t' -> length t' = 32%nat ->
  t' <> hmac (key_hmac scrypt_wrapping passwd h) (fmt_body scrypt_wrapping passwd h data) -> (length data <= length outbuf)%nat ->
  scryptdec_buf M cfg lb hp e (fmt_body scrypt_wrapping passwd h data ++ t') outbuf outlen passwd P verbose force = Ok o ->
  oc_rc o <> SCRYPT_OK.
Proof.
  intros HR Hh HDO HDL HTO HTL HNE HO E EO.
  assert (length (fmt_body kdf passwd h data) = (length data + 96)%nat) as LB by (apply fmt_body_length; apply Hh).
  pose proof (fmt_file_ok passwd h data Hh HDO) as HFO. unfold fmt_file in HFO. apply bytes_ok_app in HFO. destruct HFO as [HBO _].
  assert (length (fmt_body kdf passwd h data ++ t') = (length data + 128)%nat) as LF by (rewrite app_length; lia).
  edestruct (C07_forgery M cfg lb hp e (fmt_body kdf passwd h data ++ t') outbuf outlen passwd P verbose force o h data) as (_ & _ & A & _); eauto.
  { split; [apply bytes_ok_app; split; [exact HBO|exact HTO]|rewrite LF; exact HDL]. }
  { rewrite LF. lia. }
  { intros EF. unfold fmt_file in EF. apply app_inv_head in EF. contradiction. }
  apply A. rewrite LF. apply firstn_app_len. lia.
Qed.
Example C07_hyps : let f' := fmt_file kdf ex_passwd ex_h [1; 2] in
  dec_ready ex_machine ex_heap ex_passwd /\ data_ok f' /\ fhead_ok ex_h /\ f' <> fmt_file kdf ex_passwd ex_h ex_data /\
  exists o, scryptdec_buf ex_machine ex_cfg ex_lib ex_heap ex_call f' [0; 0] 0 ex_passwd ex_P0 false true = Ok o /\ oc_rc o = SCRYPT_OK.
Proof.
  intros f'. pose proof ex_h_ok as Hh. assert (length f' = 130%nat) as LF by (unfold f'; rewrite fmt_file_length by apply Hh; reflexivity).
  assert (data_ok f') as HD by (split; [apply fmt_file_ok; [exact Hh|repeat constructor]|rewrite LF; reflexivity]).
  split; [exact ex_dec_ready|]. split; [exact HD|]. split; [exact Hh|].
  split. { intros E. apply (f_equal (@length N)) in E. rewrite LF, fmt_file_length in E by apply Hh. discriminate. }
  destruct (C05_accepts_iff ex_machine ex_cfg ex_lib ex_heap ex_call f' [0; 0] 0 ex_passwd ex_P0 false ex_dec_ready HD ltac:(rewrite LF; cbn; lia) eq_refl ex_no_failure)
    as (o & E & HI & _).
  exists o. split; [exact E|]. apply HI. exists ex_h, [1; 2]. split; [reflexivity|]. split; [exact Hh|exact ex_h_computable].
Qed.

(** ** C08.  What a failed decryption has written.  Buffer form: nothing,
    unless header, parameters and passphrase were right and only the final tag
    is wrong; then the buffer holds the unauthenticated plaintext. *)
Theorem C08_buffer M cfg lb hp e f outbuf outlen passwd P verbose force o :
  dec_ready M hp passwd -> data_ok f -> (length f - 128 <= length outbuf)%nat ->
  scryptdec_buf M cfg lb hp e f outbuf outlen passwd P verbose force = Ok o -> oc_rc o <> SCRYPT_OK ->
  oc_val o = (outbuf, outlen) \/
  (oc_rc o = SCRYPT_EINVAL /\ (128 <= length f)%nat /\ passphrase_ok passwd f /\ ~ trailer_ok passwd f /\
   oc_val o = (aes_ctr (key_enc scrypt_wrapping passwd (get_head f)) 0 0 (sub f 96 (length f - 128)) ++ skipn (length f - 128) outbuf,
               N.of_nat (length f - 128))).
Proof.
  intros [Hs HPW HH] [HD1 HD2] HO E. apply scryptdec_buf_inv in E; auto. destruct E as (_ & _ & _ & _ & HR).
  revert HR. generalize (oc_rc o) (oc_msgs o) (oc_P o) (oc_val o). intros rc ms P' V HR HN.
  destruct HR as [A|A B C|A B C|rc lb' ms dk A B C D F|rc lb' ms dk A B C D F G|rc lb' ms dk A B C D F G H]; auto.
  right. destruct H as [(-> & _)|(-> & H)]; [congruence|]. apply dec_setup_class in D; auto; [|lia].
  destruct D as [D|[(D & _)|[(D & _)|[(D & _)|(_ & F1 & F2 & F3 & F4)]]]]; try discriminate D; [cbn in D; intuition discriminate|].
  auto.
Qed.
(** So the statement "a failed call leaves the buffer alone" is false: every
    file with a wrong final tag is decrypted into the caller's buffer, and the
    length is set, before SCRYPT_EINVAL is returned. *)
Theorem C08_buffer_refuted M cfg lb hp e t' outbuf outlen passwd P verbose h data :
  dec_ready M hp passwd -> fhead_ok h -> computable M h -> bytes_ok data -> N.of_nat (length data + 128) < 2 ^ 64 -> bytes_ok t' -> length t' = 32%nat ->
  t' <> hmac (key_hmac scrypt_wrapping passwd h) (fmt_body scrypt_wrapping passwd h data) -> (length data <= length outbuf)%nat ->
  all_zero P = true -> no_failure e ->
  exists o, scryptdec_buf M cfg lb hp e (fmt_body scrypt_wrapping passwd h data ++ t') outbuf outlen passwd P verbose true = Ok o /\
    oc_rc o = SCRYPT_EINVAL /\ oc_val o = (data ++ skipn (length data) outbuf, N.of_nat (length data)).
Proof.
  intros HR Hh Hc HDO HDL HTO HTL HNE HO HZ HN.
  assert (length (fmt_body kdf passwd h data) = (length data + 96)%nat) as LB by (apply fmt_body_length; apply Hh).
  pose proof (fmt_file_ok passwd h data Hh HDO) as HFO. unfold fmt_file in HFO. apply bytes_ok_app in HFO. destruct HFO as [HBO _].
  set (f := fmt_body kdf passwd h data ++ t').
  assert (length f = (length data + 128)%nat) as LF by (unfold f; rewrite app_length; lia).
  assert (data_ok f) as HD by (split; [apply bytes_ok_app; split; [exact HBO|exact HTO]|rewrite LF; exact HDL]).
  destruct (C06_status_buffer M cfg lb hp e f outbuf outlen passwd P verbose HR HD ltac:(lia) HZ HN) as (o & E & HS).
  exists o. split; [exact E|].
  destruct (fmt_file_checks passwd h data Hh) as (B1 & B2 & B3 & B4 & B5 & B6 & B7).
  assert (forall n, (n <= 96 + length data)%nat -> firstn n f = firstn n (fmt_file kdf passwd h data)) as HF.
  { intros n Hn. unfold f, fmt_file. rewrite !firstn_app_le by lia. reflexivity. }
  assert (forall o n, (o + n <= 96 + length data)%nat -> sub f o n = sub (fmt_file kdf passwd h data) o n) as HSB.
  { intros o0 n Hn. unfold f, fmt_file. rewrite !sub_app_le by lia. reflexivity. }
  assert (get_head f = h) as EH. { rewrite <- B1. rewrite <- (get_head_firstn f 48), HF, get_head_firstn by lia. reflexivity. }
  assert (oc_rc o = SCRYPT_EINVAL) as EO.
  { apply HS. apply DC_trailer; [lia| | | |rewrite EH; exact Hh|rewrite EH; exact Hc| |].
    - rewrite HF by lia. exact B2.
    - rewrite <- (nth_firstn f 6 7), HF, nth_firstn by lia. exact B3.
    - unfold checksum_ok. rewrite HSB, HF by lia. exact B4.
    - unfold passphrase_ok. rewrite HSB, HF, EH by lia. unfold passphrase_ok in B5. rewrite B1 in B5. exact B5.
    - unfold trailer_ok. rewrite EH, LF. replace (length data + 128 - 32)%nat with (length (fmt_body kdf passwd h data)) by lia.
      unfold f. rewrite skipn_app_len, firstn_app_len by reflexivity. exact HNE. }
  split; [exact EO|].
  assert (oc_rc o <> SCRYPT_OK) as HNO by congruence.
  destruct HR as [Hs HPW HH], HD as [HD1 HD2].
  apply scryptdec_buf_inv in E; auto; [|lia]. destruct E as (_ & _ & _ & _ & HRR).
  assert (dec_class M passwd f SCRYPT_EINVAL) as HCL by (apply HS; exact EO).
  revert HRR. rewrite EO. generalize (oc_msgs o) (oc_P o) (oc_val o). intros ms P' V HRR.
  assert (sub f 96 (length f - 128) = aes_ctr (key_enc kdf passwd h) 0 0 data) as EB.
  { rewrite HSB by lia. replace (length f - 128)%nat with (length (fmt_file kdf passwd h data) - 128)%nat; [exact B7|].
    rewrite fmt_file_length by apply Hh. lia. }
  assert (checksum_ok f) as HCK by (unfold checksum_ok; rewrite HSB, HF by lia; exact B4).
  inversion HRR as [A|A B C|A B C|rc lb' ms1 dk A B C D F|rc lb' ms1 dk A B C D F G|rc lb' ms1 dk A B C D F G H]; subst V.
  - destruct A as [A|A]; [lia|]. rewrite HF in A by lia. contradiction.
  - lia.
  - assert (96 <= length f)%nat as L96 by lia. apply (dec_setup_force M cfg lb e _ passwd f verbose _ _ _ SCRYPT_EINVAL HD1 L96 HN) in F.
    exfalso. clear - F HCK Hh EH. rewrite EH in F. destruct F as [(F & _)|[(_ & F & _)|[(_ & _ & _ & F)|[(_ & _ & _ & _ & F)|(_ & _ & _ & _ & F)]]]].
    + exact (F HCK). + exact (F Hh). + discriminate F. + discriminate F. + discriminate F.
  - unfold aes_rc in F. destruct (v_key_mem e); discriminate.
  - rewrite EB, EH, aes_ctr_involutive, LF. replace (length data + 128 - 128)%nat with (length data) by lia. reflexivity.
Qed.
Example C08_hyps : exists t' : bytes, bytes_ok t' /\ length t' = 32%nat /\
  t' <> hmac (key_hmac kdf ex_passwd ex_h) (fmt_body kdf ex_passwd ex_h ex_data) /\ dec_ready ex_machine ex_heap ex_passwd /\ fhead_ok ex_h /\ computable ex_machine ex_h.
Proof.
  destruct (list_eq_dec N.eq_dec (repeat 0 32) (hmac (key_hmac kdf ex_passwd ex_h) (fmt_body kdf ex_passwd ex_h ex_data))) as [E|E].
  - exists (repeat 1 32). split; [repeat constructor|]. split; [reflexivity|]. rewrite <- E. split; [discriminate|]. auto using ex_dec_ready, ex_h_ok, ex_h_computable.
  - exists (repeat 0 32). split; [repeat constructor|]. split; [reflexivity|]. split; [exact E|]. auto using ex_dec_ready, ex_h_ok, ex_h_computable.
Qed.

(** Stream form, any fault: whatever was written is the decryption of a part of
    the body that ends at least 32 bytes before the end of the data read; and
    nothing is written unless the passphrase was verified. *)
Lemma stream_data_prefix fi : prefix (stream_data fi) (stream_data (no_errors fi)).
Proof.
  unfold stream_data, no_errors. cbn [i_pieces]. induction (i_pieces fi) as [|[d x] t IH]; [apply prefix_refl|].
  cbn [map pieces_data fst]. destruct x; [exists (match d with [] => [] | _ => pieces_data (map (fun p => (fst p, false)) t) end); rewrite app_nil_r; reflexivity|].
  destruct d; [apply prefix_refl|]. apply prefix_cons_app. exact IH.
Qed.
Lemma aes_ctr_prefix k ct w : prefix w (aes_ctr k 0 0 ct) -> w = aes_ctr k 0 0 (firstn (length w) ct).
Proof.
  intros [c E]. assert (length w <= length ct)%nat as L by (rewrite <- (aes_ctr_length k 0 ct 0), E, app_length; lia).
  rewrite <- (firstn_skipn (length w) ct) in E at 1. rewrite aes_ctr_app in E.
  apply (f_equal (firstn (length w))) in E. rewrite (firstn_app_len w c) in E by reflexivity.
  rewrite firstn_app, aes_ctr_length, firstn_length, Nat.min_l, Nat.sub_diag, firstn_O, app_nil_r in E by lia.
  rewrite firstn_all2 in E by (rewrite aes_ctr_length, firstn_length; lia). congruence.
Qed.
Lemma prefix_get_head a b : (48 <= length a)%nat -> prefix a b -> get_head a = get_head b.
Proof. intros L [c ->]. rewrite <- (get_head_firstn a 48), <- (get_head_firstn (a ++ c) 48) by lia. rewrite firstn_app_le by lia. reflexivity. Qed.
Lemma prefix_passphrase pw a b : (96 <= length a)%nat -> prefix a b -> passphrase_ok pw a -> passphrase_ok pw b.
Proof. intros L [c ->] H. apply (passphrase_firstn pw (a ++ c) 96); [lia|]. rewrite firstn_app_le by lia. apply passphrase_firstn; auto. Qed.
Lemma dec_setup_ok_pass M cfg lb e lim passwd f verbose force lb' ms dk : bytes_ok f -> (96 <= length f)%nat ->
  dec_setup_result M cfg lb e lim passwd f verbose force lb' ms dk SCRYPT_OK -> passphrase_ok passwd f.
Proof.
  intros A B H. apply dec_setup_class in H; auto. destruct H as [D|[(D & _)|[(D & _)|[(D & _)|(_ & F1 & F2 & F3 & F4)]]]]; try discriminate D; [cbn in D; intuition discriminate|exact F4].
Qed.
Lemma decrypted_part (f F96 ct hold w k : bytes) : length F96 = 96%nat -> length hold = 32%nat -> prefix (F96 ++ ct ++ hold) f ->
  prefix w (aes_ctr k 0 0 ct) -> (96 + length w + 32 <= length f)%nat /\ w = aes_ctr k 0 0 (sub f 96 (length w)).
Proof.
  intros L1 L2 [c ->] HW. pose proof (prefix_length _ _ HW) as L. rewrite aes_ctr_length in L. split; [rewrite !app_length; lia|].
  rewrite (aes_ctr_prefix k ct w HW) at 1. f_equal. unfold sub. rewrite <- !app_assoc. rewrite skipn_app_len by (symmetry; exact L1). rewrite firstn_app_le by lia. reflexivity.
Qed.
Theorem C08_stream M cfg lb hp e fi fo passwd P verbose force o :
  dec_ready M hp passwd -> instream_ok fi ->
  scryptdec_file M cfg lb hp e fi fo passwd P verbose force = Ok o ->
  let f := stream_data (no_errors fi) in
  exists w, o_data (snd (oc_val o)) = o_data fo ++ w /\
    (w = [] \/
     (passphrase_ok passwd f /\ (96 + length w + 32 <= length f)%nat /\
      w = aes_ctr (key_enc scrypt_wrapping passwd (get_head f)) 0 0 (sub f 96 (length w)))) /\
    (w <> [] -> In (oc_rc o) [SCRYPT_OK; SCRYPT_EINVAL; SCRYPT_EWRFILE; SCRYPT_ERDFILE]).
Proof.
  intros [Hs HPW HH] [HD1 HD2] E f. apply scryptdec_file_inv in E; auto. destruct E as (_ & _ & _ & HR).
  revert HR. generalize (oc_rc o) (oc_msgs o) (oc_P o) (oc_val o) (oc_heap o). clear o. intros rc0 ms0 P0 [fi0 fo0] hp0. cbn [fst snd]. intros HR.
  pose proof (stream_data_ok fi HD1) as HFO. pose proof (stream_data_prefix fi) as HPX. fold f in HPX.
  assert (forall x lb' ms dk, header_result fi SCRYPT_OK (firstn 96 (stream_data fi)) x -> dec_setup_result M cfg lb e (x_lim P) passwd (stream_data fi) verbose force lb' ms dk SCRYPT_OK ->
    passphrase_ok passwd f /\ get_head (stream_data fi) = get_head f /\ (96 <= length (stream_data fi))%nat) as HK.
  { intros x lb' ms dk A B. destruct (header_result_ok_inv fi _ x A) as (_ & HL & _). split; [|split; [apply prefix_get_head; [lia|exact HPX]|exact HL]].
    apply (prefix_passphrase passwd (stream_data fi)); [lia|exact HPX|]. exact (dec_setup_ok_pass M cfg lb e (x_lim P) passwd (stream_data fi) verbose force lb' ms dk HFO HL B). }
  destruct HR as [A1|rc1 hd fi' hp' A1 A2 A3 A4|rc1 fi' ms lb' dk hp' A1 A2 A3 A4 A5|rc1 fi1 ms lb' dk hp' A1 A2 A3 A4 A5|fi1 ms lb' dk ct hold w fi' fo' hp' A1 A2 A3 A4 A5 A6 A7 A8 A9 A10|fi1 ms lb' dk ct hold fi' fo' hp' A1 A2 A3 A4 A5 A6 A7 A8 A9 A10 A11|fi1 ms lb' dk fi' fo' hp' A1 A2 A3 A4 A5 A6 A7 A8 A9 A10|rc1 fi1 ms lb' dk fi' fo' hp' A1 A2 A3 A4 A5 A6 A7 A8 A9 A10 A11].
  1,2,3,4: exists []; rewrite app_nil_r; split; [reflexivity|split; [left; reflexivity|congruence]].
  - destruct (HK _ _ _ _ A2 A3) as (K1 & K2 & K3). exists w. split; [exact A10|]. split; [right|intros _; cbn; tauto]. split; [exact K1|].
    rewrite <- K2. refine (decrypted_part f _ ct hold w _ _ A8 A7 A9). rewrite firstn_length. lia.
  - destruct (HK _ _ _ _ A2 A3) as (K1 & K2 & K3). exists (aes_ctr (key_enc kdf passwd (get_head (stream_data fi))) 0 0 ct). split; [exact A11|]. split; [|intros _; cbn; tauto].
    destruct A10 as [A10| ->]; [right|left; reflexivity]. split; [exact K1|].
    rewrite <- K2. refine (decrypted_part f _ ct hold _ _ _ A10 A9 (prefix_refl _)). rewrite firstn_length. lia.
  - exists []. rewrite app_nil_r. split; [exact A10|]. split; [left; reflexivity|congruence].
  - destruct (HK _ _ _ _ A2 A3) as (K1 & K2 & K3). eexists. split; [exact A10|]. split; [right|intros _; destruct A11 as [(-> & _)|(-> & _)]; cbn; tauto].
    split; [exact K1|]. rewrite K2. destruct HPX as [c HPX].
    assert (sub (stream_data fi) 96 (length (stream_data fi) - 128) = sub f 96 (length (stream_data fi) - 128)) as -> by (rewrite HPX, sub_app_le by lia; reflexivity).
    assert (length (stream_data fi) <= length f)%nat by (rewrite HPX, app_length; lia).
    assert (length (aes_ctr (key_enc kdf passwd (get_head f)) 0 0 (sub f 96 (length (stream_data fi) - 128))) = (length (stream_data fi) - 128)%nat) as EL by (rewrite aes_ctr_length, sub_length by lia; reflexivity).
    split; [rewrite EL; lia|]. rewrite EL. reflexivity.
Qed.
Definition Prop_dec_all := (C06_status_buffer, C06_status_stream, C06_any_environment_buffer, C06_any_environment_stream, C04_stream_equals_buffer, C04_truncated, C04_truncated_refuted,
  C07_forgery, C07_forgery_stream, C07_tag_change_rejected, C08_buffer, C08_buffer_refuted, C08_stream).
Print Assumptions Prop_dec_all.
