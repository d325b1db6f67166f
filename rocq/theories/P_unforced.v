(** Decryption with the limits in force: like the forced runs of P_scryptenc6 and
    P_scryptenc11, but with an arbitrary outcome of the parameter check. *)
From Verif Require Import Base SpecBytes SpecSHA SpecScrypt SpecScryptAPI SpecAES SpecDRBG SpecFormat SpecStream
  M_endian P_endian M_sha256_tr M_simd M_sha256_hw M_sha256 P_sha256 M_smix M_aes_hw M_aesctr P_aes P_aesctr P_scrypt P_scrypt_ref
  M_scrypt_sel P_scrypt_sel Prop_scrypt M_verify P_verify M_entropy P_entropy M_machine M_double M_memlimit M_cpuperf
  M_humansize P_humansize M_params M_stdio P_stdio M_scryptenc SpecScryptenc P_scryptenc P_scryptenc2 P_scryptenc3 P_scryptenc4 P_scryptenc5
  P_scryptenc6 P_scryptenc7 P_scryptenc8 P_scryptenc9 P_scryptenc10 SpecVerdict.
Local Opaque ENCBLOCK.

Section Checked.
  Context (M : machine) (cfg : clk_cfg).
  (** The parameter check on the header of f says v if the parameters are valid. *)
  Definition checked (lb : lib) (e : call_env) (lim : limits) (f : bytes) (verbose force : bool) (v : rcode) : Prop :=
    exists sst m rc, checkparams M cfg (lb_smix lb) (v_params e) lim (Z.of_N (fh_logN (get_head f))) (fh_r (get_head f)) (fh_p (get_head f)) verbose force
      = Ok (sst, m, rc) /\ (fhead_ok (get_head f) /\ rc = v \/ ~ fhead_ok (get_head f) /\ rc = SCRYPT_EINVAL).

  Lemma dec_setup_checked lb e lim passwd f verbose force v lb' ms dk rc : no_failure e -> checked lb e lim f verbose force v ->
    dec_setup_result M cfg lb e lim passwd f verbose force lb' ms dk rc ->
    (~ checksum_ok f /\ rc = SCRYPT_EINVAL) \/
    (checksum_ok f /\ ~ fhead_ok (get_head f) /\ rc = SCRYPT_EINVAL) \/
    (checksum_ok f /\ fhead_ok (get_head f) /\ v <> SCRYPT_OK /\ rc = v) \/
    (checksum_ok f /\ fhead_ok (get_head f) /\ v = SCRYPT_OK /\ ~ computable M (get_head f) /\ rc = SCRYPT_EKEY) \/
    (checksum_ok f /\ fhead_ok (get_head f) /\ v = SCRYPT_OK /\ computable M (get_head f) /\ ~ passphrase_ok passwd f /\ rc = SCRYPT_EPASS) \/
    (checksum_ok f /\ fhead_ok (get_head f) /\ v = SCRYPT_OK /\ computable M (get_head f) /\ passphrase_ok passwd f /\ rc = SCRYPT_OK).
  Proof.
    intros (N1 & N2 & _ & _ & _ & N3 & N4) (sst0 & m0 & rc0 & EC & HV) HR.
    inversion HR as [dk0 HX|dk0 sst m rc1 HX HY HZ|dk0 sst m lb0 HX HY HZ|sst m lb0 HX HY HZ HW|sst m lb0 HX HY HZ HW]; subst.
    - left. auto.
    - assert (rc = rc0) as -> by congruence. destruct HV as [[HV ->]|[HV ->]]; [right; right; left; auto|right; left; auto].
    - assert (rc0 = SCRYPT_OK) as -> by congruence. destruct HV as [[HV HV2]|[HV HV2]]; [|discriminate HV2].
      do 3 right. left. repeat (split; [solve [auto]|]). split; [|reflexivity]. intros HQ. apply HZ; auto.
    - assert (rc0 = SCRYPT_OK) as -> by congruence. destruct HV as [[HV HV2]|[HV HV2]]; [|discriminate HV2]. do 4 right. left. auto 10.
    - assert (rc0 = SCRYPT_OK) as -> by congruence. destruct HV as [[HV HV2]|[HV HV2]]; [|discriminate HV2]. do 5 right. auto 10.
  Qed.

  Lemma scryptdec_buf_checked lb hp e f outbuf outlen passwd P verbose force v :
    size_bits (m_szb M) -> bytes_ok passwd -> heap_ok hp ->
    bytes_ok f -> N.of_nat (length f) < 2 ^ 64 -> (length f - 128 <= length outbuf)%nat -> all_zero P = true -> no_failure e ->
    ((128 <= length f)%nat -> checked lb e (x_lim P) f verbose force v) ->
    exists o, scryptdec_buf M cfg lb hp e f outbuf outlen passwd P verbose force = Ok o /\ limited 128 f (dec_class M passwd f) v (oc_rc o).
  Proof.
    intros Hs HPW HH HFO HF64 HOB HZ HN HK.
    assert (exists o, scryptdec_buf M cfg lb hp e f outbuf outlen passwd P verbose force = Ok o) as (o & E).
    { destruct (Nat.ltb_spec (length f) 128) as [H8|H8].
      - rewrite scryptdec_buf_cases by exact HFO. rewrite HZ. cbn [assert_]. rewrite bind_Ok.
        destruct (Nat.ltb (length f) 7); [eauto|]. destruct (negb _); [eauto|]. destruct (negb _); [eauto|].
        assert (Nat.ltb (length f) 128 = true) as -> by (apply Nat.ltb_lt; exact H8). eauto.
      - pose proof HN as (N1 & N2 & _ & _ & _ & N3 & N4). destruct (HK H8) as (sst & m & rc & EC & _).
        eapply scryptdec_buf_total; eauto. }
    exists o. split; [exact E|]. apply scryptdec_buf_inv in E; auto. destruct E as (_ & _ & _ & _ & HR).
    pose proof HN as (_ & _ & K1 & K2 & _).
    assert (forall rc, ~ reaches_limits 128 f -> dec_class M passwd f rc -> limited 128 f (dec_class M passwd f) v rc) as LR by (intros; apply L_class; auto).
    inversion HR as [HX|HX1 HX2 HX3|HX1 HX2 HX3|rc lb' ms dk HX1 HX2 HX3 HX4 HX5|rc lb' ms dk HX1 HX2 HX3 HX4 HX5 HX6|rc lb' ms dk HX1 HX2 HX3 HX4 HX5 HX6 HX7]; subst.
    - apply LR; [|apply DC_not_scrypt; assumption]. intros (R1 & R2 & _). destruct HX; [lia|contradiction].
    - apply LR; [|apply DC_version; assumption]. intros (R1 & R2 & R3 & _). contradiction.
    - apply LR; [|apply DC_short; assumption]. intros (R1 & _). lia.
    - apply (dec_setup_checked _ _ _ _ _ _ _ v) in HX5; auto.
      destruct HX5 as [(A & ->)|[(A & B & ->)|[(A & B & C & ->)|[(A & B & C & D & ->)|[(A & B & C & D & EE & ->)|(A & B & C & D & EE & F)]]]]].
      + apply LR; [|apply DC_checksum; auto]. intros (R1 & R2 & R3 & R4 & _). contradiction.
      + apply LR; [|apply DC_params; auto]. intros (R1 & R2 & R3 & R4 & R5). contradiction.
      + apply L_refused; [exact C|]. unfold reaches_limits; auto 8.
      + apply L_class; [auto|]. apply DC_key; auto.
      + apply L_class; [auto|]. apply DC_pass; auto.
      + congruence.
    - destruct HX6; congruence.
    - apply (dec_setup_checked _ _ _ _ _ _ _ v) in HX4; auto.
      destruct HX4 as [(A & X)|[(A & B & X)|[(A & B & C & X)|[(A & B & C & D & X)|[(A & B & C & D & EE & X)|(A & B & C & D & EE & F)]]]]]; try discriminate X; try congruence.
      apply L_class; [auto|]. destruct HX7 as [(-> & T)|(-> & T)]; [apply DC_ok|apply DC_trailer]; auto.
  Qed.

  Lemma dec_file_checked lb hp e f fi fo passwd P verbose force v :
    size_bits (m_szb M) -> bytes_ok passwd -> heap_ok hp -> bytes_ok f -> N.of_nat (length f) < 2 ^ 64 ->
    delivered f fi -> out_good fo -> o_err fo = false -> all_zero P = true -> no_failure e ->
    ((96 <= length f)%nat -> checked lb e (x_lim P) f verbose force v) ->
    exists o, scryptdec_file M cfg lb hp e fi fo passwd P verbose force = Ok o /\ limited 96 f (dec_class_stream M passwd f) v (oc_rc o) /\
      (oc_rc o = SCRYPT_OK -> o_data (snd (oc_val o)) = o_data fo ++ aes_ctr (key_enc kdf passwd (get_head f)) 0 0 (sub f 96 (length f - 128)) /\
         oc_P o = P_of (x_lim P) (get_head f)) /\
      ((length f < 128)%nat -> o_data (snd (oc_val o)) = o_data fo).
  Proof.
    intros Hs HPW HH HFO HFL HDE HG HER HZ HN HK.
    destruct (delivered_ok f fi HFO HDE) as (HI & HSD & HSF & HSN).
    assert (N.of_nat (length (stream_data (no_errors fi))) < 2 ^ 64) as HP64 by (rewrite HSN; exact HFL).
    pose proof HN as (N1 & N2 & N3 & N4 & N5 & N6 & N7).
    assert (exists sst m rc, (96 <= length (stream_data fi))%nat ->
      checkparams M cfg (lb_smix lb) (v_params e) (x_lim P) (Z.of_N (fh_logN (get_head (stream_data fi)))) (fh_r (get_head (stream_data fi)))
        (fh_p (get_head (stream_data fi))) verbose force = Ok (sst, m, rc)) as (sst & m & rc & HCK).
    { destruct (le_lt_dec 96 (length f)) as [HL|HL]; [|exists (lb_smix lb), None, SCRYPT_OK; rewrite HSD; lia].
      rewrite HSD. destruct (HK HL) as (sst & m & rc & EC & _). eauto. }
    destruct (scryptdec_file_total M cfg lb hp e fi fo passwd P verbose force sst m rc Hs HPW HH HI HP64 HZ HCK N1) as (o & E).
    exists o. split; [exact E|]. pose proof (dec_file_good M cfg lb hp e fi fo passwd P verbose force o HG E) as HGO. rewrite HER in HGO.
    apply scryptdec_file_inv in E; auto. destruct E as (_ & _ & _ & HR). revert HR HGO.
    assert (forall rc, ~ reaches_limits 96 f -> dec_class_stream M passwd f rc -> limited 96 f (dec_class_stream M passwd f) v rc) as LR by (intros; apply L_class; auto).
    generalize (oc_rc o) (oc_msgs o) (oc_P o) (oc_val o) (oc_heap o). clear o. intros rc0 ms0 P0 [fi0 fo0] hp0. cbn [fst snd]. intros HR HGO.
    destruct HR as [A1|rc1 hd fi' hp' A1 A2 A3 A4|rc1 fi' ms lb' dk hp' A1 A2 A3 A4 A5|rc1 fi1 ms lb' dk hp' A1 A2 A3 A4 A5|fi1 ms lb' dk ct hold w fi' fo' hp' A1 A2 A3 A4 A5 A6 A7 A8 A9|fi1 ms lb' dk ct hold fi' fo' hp' A1 A2 A3 A4 A5 A6 A7 A8 A9|fi1 ms lb' dk fi' fo' hp' A1 A2 A3 A4 A5 A6 A7 A8 A9 A10|rc1 fi1 ms lb' dk fi' fo' hp' A1 A2 A3 A4 A5 A6 A7 A8 A9 A10 A11]; try congruence.
    - (* header *)
      split; [|split; [congruence|reflexivity]].
      inversion A2 as [fi2 L S1 S2 S3 S4 S5 S6 S7|fi2 L|fi2 L S1|fi2 L S1 S2|fi2 L S1 S2]; subst rc1; rewrite ?HSD, ?HSF in *; try congruence.
      + apply LR; [intros (R1 & _); lia|]. apply DCS_same; [lia|]. apply DC_not_scrypt. auto.
      + apply LR; [intros (_ & R2 & _); contradiction|]. destruct (le_lt_dec 96 (length f)) as [L1|L1]; [destruct (le_lt_dec 128 (length f)) as [L2|L2]|].
        * apply DCS_same; [lia|]. apply DC_not_scrypt. auto.
        * apply DCS_not_scrypt; auto; lia.
        * apply DCS_same; [lia|]. apply DC_not_scrypt. auto.
      + apply LR; [intros (_ & _ & R2 & _); contradiction|]. destruct (le_lt_dec 96 (length f)) as [L1|L1]; [destruct (le_lt_dec 128 (length f)) as [L2|L2]|].
        * apply DCS_same; [lia|]. apply DC_version; auto.
        * apply DCS_version; auto; lia.
        * apply DCS_same; [lia|]. apply DC_version; auto.
      + apply LR; [intros (R1 & _); lia|]. apply DCS_same; [lia|]. apply DC_short; auto. lia.
    - (* set-up *)
      destruct (header_result_ok_inv fi _ fi' A2) as (_ & HL & S1 & S2 & _). rewrite HSD in *.
      split; [|split; [congruence|reflexivity]].
      destruct (dec_setup_checked lb e _ passwd f verbose force v lb' ms dk rc1 HN (HK HL) A3) as [(B1 & ->)|[(B1 & B2 & ->)|[(B1 & B2 & B3 & ->)|[(B1 & B2 & B3 & B4 & ->)|[(B1 & B2 & B3 & B4 & B5 & ->)|(B1 & B2 & B3 & B4 & B5 & B6)]]]]].
      3:{ apply L_refused; [exact B3|]. unfold reaches_limits; auto 8. }
      5:{ congruence. }
      + apply LR; [intros (_ & _ & _ & R4 & _); contradiction|]. destruct (le_lt_dec 128 (length f)) as [L2|L2]; [apply DCS_same; [lia|]|]; eauto using dec_class, dec_class_stream.
      + apply LR; [intros (_ & _ & _ & _ & R4); contradiction|]. destruct (le_lt_dec 128 (length f)) as [L2|L2]; [apply DCS_same; [lia|]|]; eauto using dec_class, dec_class_stream.
      + apply L_class; [auto|]. destruct (le_lt_dec 128 (length f)) as [L2|L2]; [apply DCS_same; [lia|]|]; eauto using dec_class, dec_class_stream.
      + apply L_class; [auto|]. destruct (le_lt_dec 128 (length f)) as [L2|L2]; [apply DCS_same; [lia|]|]; eauto using dec_class, dec_class_stream.
    - destruct A5; congruence.
    - (* too short *)
      destruct (header_result_ok_inv fi _ fi1 A2) as (_ & HL & S1 & S2 & _). rewrite HSD in *.
      destruct (dec_setup_checked lb e _ passwd f verbose force v lb' ms dk SCRYPT_OK HN (HK HL) A3) as [(B1 & B0)|[(B1 & B2 & B0)|[(B1 & B2 & B3 & B0)|[(B1 & B2 & B3 & B4 & B0)|[(B1 & B2 & B3 & B4 & B5 & B0)|(B1 & B2 & B3 & B4 & B5 & B0)]]]]]; try discriminate; try congruence.
      split; [apply L_class; [auto|]; apply DCS_short; auto|]. split; [congruence|]. intros _. exact A10.
    - destruct (header_result_ok_inv fi _ fi1 A2) as (_ & HL & S1 & S2 & _). rewrite HSD in *.
      destruct (dec_setup_checked lb e _ passwd f verbose force v lb' ms dk SCRYPT_OK HN (HK HL) A3) as [(B1 & B0)|[(B1 & B2 & B0)|[(B1 & B2 & B3 & B0)|[(B1 & B2 & B3 & B4 & B0)|[(B1 & B2 & B3 & B4 & B5 & B0)|(B1 & B2 & B3 & B4 & B5 & B0)]]]]]; try discriminate; try congruence.
      split; [|split; [intros _; split; [exact A10|reflexivity]|lia]].
      apply L_class; [auto|]. apply DCS_same; [lia|]. destruct A11 as [(-> & A11)|(-> & A11)]; [apply DC_ok|apply DC_trailer]; auto.
  Qed.
End Checked.
