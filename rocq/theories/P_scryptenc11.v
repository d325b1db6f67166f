(** Proofs about the scryptenc.c model: stream decryption without failures. *)
From Verif Require Import Base SpecBytes SpecSHA SpecScrypt SpecScryptAPI SpecAES SpecDRBG SpecFormat SpecStream
  M_endian P_endian M_sha256_tr M_simd M_sha256_hw M_sha256 P_sha256 M_smix M_aes_hw M_aesctr P_aes P_aesctr P_scrypt P_scrypt_ref
  M_scrypt_sel P_scrypt_sel Prop_scrypt M_verify P_verify M_entropy P_entropy M_machine M_double M_memlimit M_cpuperf
  M_humansize P_humansize M_params M_stdio P_stdio M_scryptenc SpecScryptenc P_scryptenc P_scryptenc2 P_scryptenc3 P_scryptenc4 P_scryptenc5
  P_scryptenc6 P_scryptenc7 P_scryptenc8 P_scryptenc9 P_scryptenc10.
Local Opaque ENCBLOCK.

Section Force.
  Context (M : machine) (cfg : clk_cfg).
  Lemma dec_file_force lb hp e f fi fo passwd P verbose :
    size_bits (m_szb M) -> bytes_ok passwd -> heap_ok hp -> bytes_ok f -> N.of_nat (length f) < 2 ^ 64 ->
    delivered f fi -> out_good fo -> o_err fo = false -> all_zero P = true -> no_failure e ->
    exists o, scryptdec_file M cfg lb hp e fi fo passwd P verbose true = Ok o /\ dec_class_stream M passwd f (oc_rc o) /\
      (oc_rc o = SCRYPT_OK -> o_data (snd (oc_val o)) = o_data fo ++ aes_ctr (key_enc kdf passwd (get_head f)) 0 0 (sub f 96 (length f - 128)) /\
         oc_P o = P_of (x_lim P) (get_head f)) /\
      ((length f < 128)%nat -> o_data (snd (oc_val o)) = o_data fo).
  Proof.
    intros Hs HPW HH HFO HFL HDE HG HER HZ HN.
    destruct (delivered_ok f fi HFO HDE) as (HI & HSD & HSF & HSN).
    assert (N.of_nat (length (stream_data (no_errors fi))) < 2 ^ 64) as HP64 by (rewrite HSN; exact HFL).
    pose proof HN as (N1 & N2 & N3 & N4 & N5 & N6 & N7).
    assert (exists m rc, (96 <= length (stream_data fi))%nat ->
      checkparams M cfg (lb_smix lb) (v_params e) (x_lim P) (Z.of_N (fh_logN (get_head (stream_data fi)))) (fh_r (get_head (stream_data fi)))
        (fh_p (get_head (stream_data fi))) verbose true = Ok (lb_smix lb, m, rc)) as (m & rc & HCK).
    { destruct (le_lt_dec 96 (length f)) as [HL|HL]; [|exists None, SCRYPT_OK; rewrite HSD; lia].
      rewrite HSD. destruct (checkparams_force M cfg (lb_smix lb) (v_params e) (x_lim P) (Z.of_N (fh_logN (get_head f))) (fh_r (get_head f)) (fh_p (get_head f)) verbose) as (m & [(E & _)|(E & _)]); eauto.
      - unfold get_head. cbn [fh_r]. apply be32dec_be_val; [exact HFO|lia].
      - unfold get_head. cbn [fh_p]. apply be32dec_be_val; [exact HFO|lia]. }
    destruct (scryptdec_file_total M cfg lb hp e fi fo passwd P verbose true (lb_smix lb) m rc Hs HPW HH HI HP64 HZ HCK N1) as (o & E).
    exists o. split; [exact E|]. pose proof (dec_file_good M cfg lb hp e fi fo passwd P verbose true o HG E) as HGO. rewrite HER in HGO.
    apply scryptdec_file_inv in E; auto. destruct E as (_ & _ & _ & HR). revert HR HGO.
    generalize (oc_rc o) (oc_msgs o) (oc_P o) (oc_val o) (oc_heap o). clear o. intros rc0 ms0 P0 [fi0 fo0] hp0. cbn [fst snd]. intros HR HGO.
    destruct HR as [A1|rc1 hd fi' hp' A1 A2 A3 A4|rc1 fi' ms lb' dk hp' A1 A2 A3 A4 A5|rc1 fi1 ms lb' dk hp' A1 A2 A3 A4 A5|fi1 ms lb' dk ct hold w fi' fo' hp' A1 A2 A3 A4 A5 A6 A7 A8 A9|fi1 ms lb' dk ct hold fi' fo' hp' A1 A2 A3 A4 A5 A6 A7 A8 A9|fi1 ms lb' dk fi' fo' hp' A1 A2 A3 A4 A5 A6 A7 A8 A9 A10|rc1 fi1 ms lb' dk fi' fo' hp' A1 A2 A3 A4 A5 A6 A7 A8 A9 A10 A11]; try congruence.
    - (* header *)
      split; [|split; [congruence|reflexivity]].
      inversion A2 as [fi2 L S1 S2 S3 S4 S5 S6 S7|fi2 L|fi2 L S1|fi2 L S1 S2|fi2 L S1 S2]; subst rc1; rewrite ?HSD, ?HSF in *; try congruence.
      + apply DCS_same; [lia|]. apply DC_not_scrypt. auto.
      + destruct (le_lt_dec 96 (length f)) as [L1|L1]; [destruct (le_lt_dec 128 (length f)) as [L2|L2]|].
        * apply DCS_same; [lia|]. apply DC_not_scrypt. auto.
        * apply DCS_not_scrypt; auto; lia.
        * apply DCS_same; [lia|]. apply DC_not_scrypt. auto.
      + destruct (le_lt_dec 96 (length f)) as [L1|L1]; [destruct (le_lt_dec 128 (length f)) as [L2|L2]|].
        * apply DCS_same; [lia|]. apply DC_version; auto.
        * apply DCS_version; auto; lia.
        * apply DCS_same; [lia|]. apply DC_version; auto.
      + apply DCS_same; [lia|]. apply DC_short; auto. lia.
    - (* set-up *)
      destruct (header_result_ok_inv fi _ fi' A2) as (_ & HL & S1 & S2 & _). rewrite HSD in *.
      split; [|split; [congruence|reflexivity]].
      destruct (dec_setup_force M cfg lb e _ passwd f verbose lb' ms dk rc1 HFO HL HN A3) as [(B1 & ->)|[(B1 & B2 & ->)|[(B1 & B2 & B3 & ->)|[(B1 & B2 & B3 & B4 & ->)|(B1 & B2 & B3 & B4 & ->)]]]]; [| | | |congruence];
        (destruct (le_lt_dec 128 (length f)) as [L2|L2]; [apply DCS_same; [lia|]|]).
      all: eauto using dec_class, dec_class_stream, Nat.le_lt_trans.
    - destruct A5; congruence.
    - (* too short *)
      destruct (header_result_ok_inv fi _ fi1 A2) as (_ & HL & S1 & S2 & _). rewrite HSD in *.
      destruct (dec_setup_force M cfg lb e _ passwd f verbose lb' ms dk SCRYPT_OK HFO HL HN A3) as [(B1 & B0)|[(B1 & B2 & B0)|[(B1 & B2 & B3 & B0)|[(B1 & B2 & B3 & B4 & B0)|(B1 & B2 & B3 & B4 & B0)]]]]; try discriminate.
      split; [apply DCS_short; auto|]. split; [congruence|]. intros _. exact A10.
    - destruct (header_result_ok_inv fi _ fi1 A2) as (_ & HL & S1 & S2 & _). rewrite HSD in *.
      destruct (dec_setup_force M cfg lb e _ passwd f verbose lb' ms dk SCRYPT_OK HFO HL HN A3) as [(B1 & B0)|[(B1 & B2 & B0)|[(B1 & B2 & B3 & B0)|[(B1 & B2 & B3 & B4 & B0)|(B1 & B2 & B3 & B4 & B0)]]]]; try discriminate.
      split; [|split; [intros _; split; [exact A10|reflexivity]|lia]].
      apply DCS_same; [lia|]. destruct A11 as [(-> & A11)|(-> & A11)]; [apply DC_ok|apply DC_trailer]; auto.
  Qed.
End Force.
