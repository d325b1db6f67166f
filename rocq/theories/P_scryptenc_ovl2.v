(** Proofs about M_scryptenc_ovl: encryption of a buffer onto itself. *)
From Verif Require Import Base SpecBytes SpecSHA SpecScrypt SpecScryptAPI SpecAES SpecDRBG SpecFormat
  M_endian P_endian M_sha256 P_sha256 M_smix M_aes_hw M_aesctr P_aesctr P_scrypt P_scrypt_ref
  M_scrypt_sel P_scrypt_sel Prop_scrypt M_verify P_verify M_entropy P_entropy M_machine M_double M_memlimit M_cpuperf
  M_humansize M_params M_stdio P_stdio M_scryptenc SpecScryptenc P_scryptenc P_scryptenc2 P_scryptenc3 P_scryptenc4
  M_aesctr_mem P_aesctr_mem P_aesctr_ovl M_scryptenc_ovl P_scryptenc_ovl.

Section Self.
  Context (M : machine) (cfg : clk_cfg).
  Lemma ovl_enc_self lb hp e data outbuf m1 m2 inp n outp passwd P verbose force o :
    size_bits (m_szb M) -> xp_ok P -> bytes_ok passwd -> env_bytes (v_ent e) -> drbg_inv (lb_drbg lb) -> heap_ok hp ->
    bytes_ok m1 -> N.of_nat n < 2 ^ 64 -> (outp + (n + 128) <= length m1)%nat ->
    (outp <= inp <= outp + 80)%nat -> alike_but m1 m2 outp (inp + n) -> bytes_ok m2 ->
    length data = n -> bytes_ok data -> length outbuf = (n + 128)%nat ->
    scryptenc_buf M cfg lb hp e data outbuf passwd P verbose force = Ok o -> oc_rc o = SCRYPT_OK ->
    exists o', ovl_scryptenc_buf M cfg lb hp e m1 inp n outp passwd P verbose force = Ok o' /\
      ovl_scryptenc_buf M cfg lb hp e m2 inp n outp passwd P verbose force = Ok o' /\ oc_rc o' = SCRYPT_OK /\
      oc_lib o' = oc_lib o /\ oc_msgs o' = oc_msgs o /\ oc_P o' = oc_P o /\ oc_dk o' = oc_dk o /\ oc_heap o' = oc_heap o /\
      exists h data', fhead_ok h /\ computable M h /\ bytes_ok data' /\ length data' = n /\ sub (oc_val o') outp (n + 128) = fmt_file kdf passwd h data'.
  Proof.
    intros Hs HXP HPW HE HD HH HM1 Hn HO HP HAL HM2 LI HDO LO E ER. unfold scryptenc_buf in E. unfold ovl_scryptenc_buf.
    pose proof (proj1 HAL) as HLM.
    apply bind_inv in E. destruct E as (u & EA & E). rewrite EA, !bind_Ok. clear EA u.
    apply bind_inv in E. destruct E as ([[[[[lb1 ms] P1] hd] dk] rc] & ES & E). rewrite ES, !bind_Ok. cbv beta iota zeta in E |- *.
    eapply scryptenc_setup_inv in ES; auto using scratch_bytes_ok, scratch_bytes_length.
    destruct ES as (_ & LD & _ & _ & _ & HOK).
    destruct (is_ok rc) eqn:EO; cbn [negb] in E |- *.
    2:{ apply is_ok_false in EO. rewrite zero_dk_ok, bind_Ok in E by exact LD. injection E as <-. cbn [oc_rc] in ER. contradiction. }
    apply is_ok_spec in EO. subst rc. destruct (HOK eq_refl) as (h & d & Hh & Hc & _ & _ & EDK & EHD). clear HOK.
    assert (length hd = 96%nat) as L96 by (rewrite EHD; apply fmt_96_length; apply Hh).
    assert (bytes_ok dk) as OD by (rewrite EDK; apply keys_ok).
    assert (bytes_ok hd) as O96 by (rewrite EHD; apply fmt_96_ok; [destruct Hh; lia|apply Hh]).
    rewrite wr_ok in E by lia. rewrite bind_Ok in E. rewrite !wr_ok by lia. rewrite !bind_Ok.
    set (out1 := upd outbuf 0 hd) in *. assert (length out1 = (n + 128)%nat) as LO1 by (unfold out1; rewrite upd_length; lia).
    destruct (start_aes_cases M e hp dk LD OD HH) as [(K1 & ES)|[(K1 & K2 & ES)|(K1 & K2 & key & AES & ES & HK & HS)]];
      rewrite ES, bind_Ok in E; rewrite ES, !bind_Ok; cbv beta iota in E |- *.
    1,2: rewrite zero_dk_ok, bind_Ok in E by exact LD; injection E as <-; discriminate ER.
    pose proof (alike_upd m1 m2 outp (inp + n) hd HAL ltac:(lia)) as HA1. rewrite L96 in HA1.
    destruct (stream_pair (m_aes M) (m_hi M) (firstn 32 dk) 0 0 AES data (upd m1 outp hd) (upd m2 outp hd) inp (outp + 96) n (inp + n) LI HS HA1
      ltac:(lia) ltac:(rewrite upd_length; lia) ltac:(lia)) as (ct & x1 & x2 & AES1 & E1 & EX1 & EX2 & HA2 & LX & OX1 & FX & _).
    { apply upd_bytes; assumption. } { exact HDO. }
    { apply aes_ctr_ok; [right; rewrite firstn_length; lia|apply bytes_ok_firstn, OD|exact HDO]. }
    rewrite upd_length in LX by lia.
    assert (x1 = x2) as <- by (apply (alike_all _ _ _ _ HA2); lia).
    rewrite E1, bind_Ok in E. rewrite EX1, EX2, !bind_Ok. cbv beta iota in E |- *. clear E1 EX1 EX2.
    apply bind_inv in E. destruct E as (h1 & EH1 & E). rewrite EH1, !bind_Ok.
    apply bind_inv in E. destruct E as (out2 & EO2 & E).
    apply bind_inv in E. destruct E as (h2 & EH2 & E). rewrite EH2, !bind_Ok.
    apply bind_inv in E. destruct E as (h3 & EH3 & E). rewrite EH3, !bind_Ok.
    rewrite rd_ok in E by lia. rewrite bind_Ok in E. rewrite rd_ok by lia. rewrite !bind_Ok.
    apply bind_inv in E. destruct E as (y & EY & E). apply bind_inv in E. destruct E as (tag & ET & E).
    apply bind_inv in E. destruct E as (out3 & EW & E).
    rewrite rd_ok by lia. rewrite !bind_Ok.
    rewrite hmac_once_ok by (apply bytes_ok_sub; assumption). rewrite !bind_Ok.
    rewrite wr_ok by (rewrite hmac_length; lia). rewrite !bind_Ok.
    rewrite zero_dk_ok, bind_Ok in E by exact LD. injection E as <-. rewrite zero_dk_ok, !bind_Ok by exact LD.
    eexists. split; [reflexivity|]. split; [reflexivity|]. cbn [oc_rc oc_lib oc_msgs oc_P oc_dk oc_heap oc_val].
    do 6 (split; [reflexivity|]).
    assert (sub x1 outp 96 = hd) as EX96.
    { replace (sub x1 outp 96) with (sub (firstn (outp + 96) x1) outp 96).
      2:{ unfold sub. rewrite skipn_firstn_comm, firstn_firstn. f_equal. lia. }
      rewrite FX. unfold sub. rewrite skipn_firstn_comm, firstn_firstn.
      replace (Nat.min 96 (outp + 96 - outp)) with 96%nat by lia.
      pose proof (sub_upd_in m1 hd outp 0 96 ltac:(lia) ltac:(lia)) as ES96. rewrite Nat.add_0_r in ES96.
      change (sub (upd m1 outp hd) outp 96 = hd). rewrite ES96. unfold sub. cbn [skipn]. apply firstn_all2. lia. }
    set (ct1 := sub x1 (outp + 96) n). assert (length ct1 = n) as LCT by (apply sub_length; lia).
    assert (bytes_ok ct1) as OCT by (apply bytes_ok_sub, OX1).
    exists h, (aes_ctr (key_enc kdf passwd h) 0 0 ct1). split; [exact Hh|]. split; [exact Hc|].
    split; [apply aes_ctr_ok; [right; apply key_enc_length|apply key_enc_ok|exact OCT]|]. split; [rewrite aes_ctr_length; exact LCT|].
    assert (sub x1 outp (96 + n) = hd ++ ct1) as EHC.
    { rewrite <- EX96. unfold ct1, sub. rewrite <- (firstn_skipn 96 (skipn outp x1)) at 1. rewrite firstn_app, firstn_firstn, firstn_length, skipn_length.
      replace (Nat.min (96 + n) 96) with 96%nat by lia. f_equal. rewrite skipn_skipn. replace (96 + n - Nat.min 96 (length x1 - outp))%nat with n by lia.
      f_equal. f_equal. lia. }
    rewrite EHC. unfold fmt_file, fmt_body. rewrite aes_ctr_involutive, <- EHD.
    assert (sub dk 32 32 = key_hmac kdf passwd h) as EK2.
    { rewrite EDK. unfold sub, key_hmac. apply firstn_all2. rewrite skipn_length, keys_length. lia. }
    rewrite EK2. set (tag1 := hmac (key_hmac kdf passwd h) (hd ++ ct1)). assert (length tag1 = 32%nat) as LT1 by apply hmac_length.
    clearbody tag1. rewrite <- (upd_sub x1 outp (96 + n)) at 1 by lia. rewrite EHC.
    assert (length (hd ++ ct1) = (96 + n)%nat) as LHC by (rewrite app_length; lia).
    replace (outp + (96 + n))%nat with (outp + length (hd ++ ct1))%nat by lia. rewrite upd_adjacent by lia.
    pose proof (sub_upd_in x1 ((hd ++ ct1) ++ tag1) outp 0 (n + 128) ltac:(rewrite app_length; lia) ltac:(rewrite app_length; lia)) as EF.
    rewrite Nat.add_0_r in EF. rewrite EF. unfold sub. cbn [skipn]. apply firstn_all2. rewrite app_length. lia.
  Qed.
End Self.
