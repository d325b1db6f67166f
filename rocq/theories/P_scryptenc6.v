(** Proofs about the scryptenc.c model: scryptdec_buf. *)
From Verif Require Import Base SpecBytes SpecSHA SpecScrypt SpecScryptAPI SpecAES SpecDRBG SpecFormat SpecStream
  M_endian P_endian M_sha256_tr M_simd M_sha256_hw M_sha256 P_sha256 M_smix M_aes_hw M_aesctr P_aes P_aesctr P_scrypt P_scrypt_ref
  M_scrypt_sel P_scrypt_sel Prop_scrypt M_verify P_verify M_entropy P_entropy M_machine M_double M_memlimit M_cpuperf
  M_humansize P_humansize M_params M_stdio P_stdio M_scryptenc SpecScryptenc P_scryptenc P_scryptenc2 P_scryptenc4 P_scryptenc5.

Section DecBuf.
  Context (M : machine) (cfg : clk_cfg).

  Inductive dec_buf_result (lb : lib) (e : call_env) (P : xparams) (passwd f outbuf : bytes) (outlen : N) (verbose force : bool)
    : rcode -> list msg -> xparams -> bytes * N -> Prop :=
  | DB_not_scrypt : (length f < 7)%nat \/ firstn 6 f <> fmt_magic ->
      dec_buf_result lb e P passwd f outbuf outlen verbose force SCRYPT_EINVAL [] P (outbuf, outlen)
  | DB_version : (7 <= length f)%nat -> firstn 6 f = fmt_magic -> nth 6 f 0 <> 0 ->
      dec_buf_result lb e P passwd f outbuf outlen verbose force SCRYPT_EVERSION [] P (outbuf, outlen)
  | DB_short : (7 <= length f < 128)%nat -> firstn 6 f = fmt_magic -> nth 6 f 0 = 0 ->
      dec_buf_result lb e P passwd f outbuf outlen verbose force SCRYPT_EINVAL [] P (outbuf, outlen)
  | DB_setup rc lb' ms dk : (128 <= length f)%nat -> firstn 6 f = fmt_magic -> nth 6 f 0 = 0 ->
      rc <> SCRYPT_OK -> dec_setup_result M cfg lb e (x_lim P) passwd f verbose force lb' ms dk rc ->
      dec_buf_result lb e P passwd f outbuf outlen verbose force rc ms (P_of (x_lim P) (get_head f)) (outbuf, outlen)
  | DB_aes rc lb' ms dk : (128 <= length f)%nat -> firstn 6 f = fmt_magic -> nth 6 f 0 = 0 ->
      dec_setup_result M cfg lb e (x_lim P) passwd f verbose force lb' ms dk SCRYPT_OK ->
      rc = aes_rc e -> (v_key_mem e = false \/ v_ctr_mem e = false) ->
      dec_buf_result lb e P passwd f outbuf outlen verbose force rc ms (P_of (x_lim P) (get_head f)) (outbuf, outlen)
  | DB_body rc lb' ms dk : (128 <= length f)%nat -> firstn 6 f = fmt_magic -> nth 6 f 0 = 0 ->
      dec_setup_result M cfg lb e (x_lim P) passwd f verbose force lb' ms dk SCRYPT_OK ->
      v_key_mem e = true -> v_ctr_mem e = true ->
      ((rc = SCRYPT_OK /\ trailer_ok passwd f) \/ (rc = SCRYPT_EINVAL /\ ~ trailer_ok passwd f)) ->
      dec_buf_result lb e P passwd f outbuf outlen verbose force rc ms (P_of (x_lim P) (get_head f))
        (aes_ctr (key_enc kdf passwd (get_head f)) 0 0 (sub f 96 (length f - 128)) ++ skipn (length f - 128) outbuf,
         N.of_nat (length f - 128)).

  Definition dec_buf_rest (h : kheap) (e : call_env) (inbuf outbuf : bytes) (outlen : N) lb ms P dk rc : res (outcome (bytes * N)) :=
    if negb (is_ok rc) then dk <- zero_dk dk ;; Ok (mk_oc rc lb ms P dk h (outbuf, outlen)) else
    ' (h, a) <- start_aes M e h dk ;;
    match a with
    | inl rc => dk <- zero_dk dk ;; Ok (mk_oc rc lb ms P dk h (outbuf, outlen))
    | inr (ki, si, AES) =>
        ct <- rd inbuf 96 (length inbuf - 128) ;;
        ' (pt, AES) <- crypto_aesctr_stream (m_aes M) (m_hi M) AES ct ;;
        h <- kh_set si (Some (S_stream AES)) h ;;
        outbuf <- wr outbuf 0 pt ;;
        h <- crypto_aesctr_free si h ;;
        h <- crypto_aes_key_free ki h ;;
        let outlen := N.of_nat (length inbuf - 128) in
        key_hmac <- rd dk 32 32 ;;
        m <- rd inbuf 0 (length inbuf - 32) ;;
        hbuf <- hmac_once M key_hmac m ;;
        sig <- rd inbuf (length inbuf - 32) 32 ;;
        v <- crypto_verify_bytes hbuf sig 32 ;;
        let rc := if negb (v =? 0) then SCRYPT_EINVAL else SCRYPT_OK in
        dk <- zero_dk dk ;;
        Ok (mk_oc rc lb ms P dk h (outbuf, outlen))
    end.
  Lemma dec_buf_rest_fail h e f outbuf outlen lb ms P dk rc : rc <> SCRYPT_OK -> length dk = 64%nat ->
    dec_buf_rest h e f outbuf outlen lb ms P dk rc = Ok (mk_oc rc lb ms P (repeat 0 64) h (outbuf, outlen)).
  Proof. intros H1 H2. unfold dec_buf_rest. apply is_ok_false in H1. rewrite H1. cbn [negb]. rewrite zero_dk_ok by exact H2. reflexivity. Qed.
  Lemma dec_buf_rest_ok hp e f outbuf outlen lb ms P passwd :
    heap_ok hp -> bytes_ok f -> (128 <= length f)%nat -> N.of_nat (length f) < 2 ^ 64 -> (length f - 128 <= length outbuf)%nat ->
    exists rc hp' out, dec_buf_rest hp e f outbuf outlen lb ms P (fmt_keys kdf passwd (get_head f)) SCRYPT_OK
       = Ok (mk_oc rc lb ms P (repeat 0 64) hp' out) /\ heap_clean hp hp' /\
      ((rc = aes_rc e /\ (v_key_mem e = false \/ v_ctr_mem e = false) /\ out = (outbuf, outlen)) \/
       (v_key_mem e = true /\ v_ctr_mem e = true /\
        ((rc = SCRYPT_OK /\ trailer_ok passwd f) \/ (rc = SCRYPT_EINVAL /\ ~ trailer_ok passwd f)) /\
        out = (aes_ctr (key_enc kdf passwd (get_head f)) 0 0 (sub f 96 (length f - 128)) ++ skipn (length f - 128) outbuf,
               N.of_nat (length f - 128)))).
  Proof.
    intros HH HFO HFL HF64 HOB. unfold dec_buf_rest. cbn [is_ok rcode_eqb negb]. set (h := get_head f).
    destruct (start_aes_cases M e hp (fmt_keys kdf passwd h) (keys_length passwd h) (keys_ok passwd h) HH)
      as [(K1 & ->)|[(K1 & K2 & ->)|(K1 & K2 & key & AES & -> & HK & HS)]]; rewrite bind_Ok.
    - rewrite zero_dk_ok, bind_Ok by apply keys_length. do 3 eexists. split; [reflexivity|]. split; [apply heap_clean_refl, HH|].
      left. split; [unfold aes_rc; rewrite K1; reflexivity|]. auto.
    - rewrite zero_dk_ok, bind_Ok by apply keys_length. do 3 eexists. split; [reflexivity|].
      split; [apply (heap_clean_mk hp _ 1); [exact HH|lia]|]. left. split; [unfold aes_rc; rewrite K1; reflexivity|]. auto.
    - rewrite rd_ok by lia. rewrite bind_Ok. set (ct := sub f 96 (length f - 128)).
      assert (length ct = (length f - 128)%nat) as LC by (apply sub_length; lia).
      destruct (stream_ok (m_aes M) (m_hi M) (firstn 32 (fmt_keys kdf passwd h)) 0 0 AES ct HS ltac:(lia)) as (AES1 & -> & HS1). rewrite bind_Ok.
      fold (key_enc kdf passwd h). set (pt := aes_ctr (key_enc kdf passwd h) 0 0 ct).
      assert (length pt = (length f - 128)%nat) as LP by (unfold pt; rewrite aes_ctr_length; exact LC).
      pose proof (heap_fresh hp (kh_next hp) HH ltac:(lia)) as F0.
      assert (fresh (S (kh_next hp)) ((kh_next hp, Some (S_key key)) :: kh_live hp)) as F1.
      { constructor; [cbn; lia|]. apply heap_fresh; [exact HH|lia]. }
      rewrite kh_set_head, bind_Ok by exact F1.
      pose proof (wr_grow [] outbuf pt 0 eq_refl ltac:(lia)) as EW. cbn [app] in EW. rewrite EW, bind_Ok, LP. clear EW.
      unfold crypto_aesctr_free, crypto_aes_key_free. rewrite zero_free_head, bind_Ok by exact F1. rewrite zero_free_head, bind_Ok by exact F0.
      cbv zeta. rewrite key_hmac_rd, bind_Ok. rewrite rd_ok by lia. rewrite bind_Ok.
      rewrite hmac_once_ok by (auto using key_hmac_ok, bytes_ok_sub). rewrite bind_Ok. rewrite rd_ok by lia. rewrite bind_Ok.
      change (sub f 0 (length f - 32)) with (firstn (length f - 32) f).
      assert (sub f (length f - 32) 32 = skipn (length f - 32) f) as ES by (unfold sub; apply firstn_all2; rewrite skipn_length; lia).
      rewrite ES.
      destruct (verify_prefix (hmac (key_hmac kdf passwd h) (firstn (length f - 32) f)) (skipn (length f - 32) f) 32) as (v & -> & HV).
      { apply hmac_ok. } { apply bytes_ok_skipn, HFO. } { rewrite hmac_length; lia. } { rewrite skipn_length; lia. }
      rewrite (firstn_all2 (hmac _ _)) in HV by (rewrite hmac_length; lia). rewrite (firstn_all2 (skipn _ _)) in HV by (rewrite skipn_length; lia).
      rewrite bind_Ok, HV. rewrite zero_dk_ok, bind_Ok by apply keys_length.
      do 3 eexists. split; [reflexivity|].
      split; [apply (heap_clean_mk hp _ 2); [exact HH|lia]|]. right. split; [exact K1|]. split; [exact K2|]. split; [|reflexivity].
      unfold trailer_ok. fold h.
      destruct (list_eqb (hmac (key_hmac kdf passwd h) (firstn (length f - 32) f)) (skipn (length f - 32) f)) eqn:EL; cbn [negb].
      + apply list_eqb_spec in EL. left. auto.
      + apply list_eqb_false in EL. right. auto.
  Qed.

  Lemma scryptdec_buf_cases lb hp e f outbuf outlen passwd P verbose force : bytes_ok f ->
    scryptdec_buf M cfg lb hp e f outbuf outlen passwd P verbose force =
    (_ <- assert_ (all_zero P) ;;
     if Nat.ltb (length f) 7 then Ok (mk_oc SCRYPT_EINVAL lb [] P (scratch_bytes (jk M) 64) hp (outbuf, outlen)) else
     if negb (list_eqb (firstn 6 f) fmt_magic) then Ok (mk_oc SCRYPT_EINVAL lb [] P (scratch_bytes (jk M) 64) hp (outbuf, outlen)) else
     if negb (nth 6 f 0 =? 0) then Ok (mk_oc SCRYPT_EVERSION lb [] P (scratch_bytes (jk M) 64) hp (outbuf, outlen)) else
     if Nat.ltb (length f) 128 then Ok (mk_oc SCRYPT_EINVAL lb [] P (scratch_bytes (jk M) 64) hp (outbuf, outlen)) else
     ' (lb, ms, P, dk, rc) <- scryptdec_setup M cfg lb e P f (scratch_bytes (jk M) 64) passwd verbose force ;;
     dec_buf_rest hp e f outbuf outlen lb ms P dk rc).
  Proof.
    intros HO. unfold scryptdec_buf. destruct (assert_ (all_zero P)); [|reflexivity|reflexivity]. rewrite !bind_Ok. cbv zeta.
    destruct (Nat.ltb_spec (length f) 7) as [|H7]; [reflexivity|].
    rewrite rd_ok by lia. rewrite bind_Ok. change (sub f 0 6) with (firstn 6 f). change magic with fmt_magic.
    destruct (list_eqb (firstn 6 f) fmt_magic); [|reflexivity]. cbn [negb]. rewrite rd1 by lia. rewrite bind_Ok.
    unfold sel. cbn [nth]. reflexivity.
  Qed.
  Lemma scryptdec_buf_inv lb hp e f outbuf outlen passwd P verbose force o :
    size_bits (m_szb M) -> bytes_ok passwd -> heap_ok hp ->
    bytes_ok f -> N.of_nat (length f) < 2 ^ 64 -> (length f - 128 <= length outbuf)%nat ->
    scryptdec_buf M cfg lb hp e f outbuf outlen passwd P verbose force = Ok o ->
    all_zero P = true /\ lb_drbg (oc_lib o) = lb_drbg lb /\
    (oc_dk o = repeat 0 64 \/ (oc_dk o = scratch_bytes (jk M) 64 /\ oc_P o = P)) /\ heap_clean hp (oc_heap o) /\
    dec_buf_result lb e P passwd f outbuf outlen verbose force (oc_rc o) (oc_msgs o) (oc_P o) (oc_val o).
  Proof.
    intros Hs HPW HH HFO HF64 HOB E. rewrite scryptdec_buf_cases in E by exact HFO.
    apply bind_inv in E. destruct E as (u & EA & E).
    split. { unfold assert_ in EA. destruct (all_zero P); auto; discriminate. }
    clear u EA.
    destruct (Nat.ltb_spec (length f) 7) as [H7|H7].
    { injection E as <-. cbn [oc_lib oc_dk oc_heap oc_P oc_rc oc_val oc_msgs]. split; [reflexivity|]. split; [auto|]. split; [apply heap_clean_refl, HH|]. apply DB_not_scrypt. auto. }
    destruct (list_eqb (firstn 6 f) fmt_magic) eqn:EM; cbn [negb] in E.
    2:{ apply list_eqb_false in EM. injection E as <-. cbn [oc_lib oc_dk oc_heap oc_P oc_rc oc_val oc_msgs]. split; [reflexivity|]. split; [auto|]. split; [apply heap_clean_refl, HH|]. apply DB_not_scrypt. auto. }
    apply list_eqb_spec in EM.
    destruct (N.eqb_spec (nth 6 f 0) 0) as [EV|EV]; cbn [negb] in E.
    2:{ injection E as <-. cbn [oc_lib oc_dk oc_heap oc_P oc_rc oc_val oc_msgs]. split; [reflexivity|]. split; [auto|]. split; [apply heap_clean_refl, HH|]. apply DB_version; auto. }
    destruct (Nat.ltb_spec (length f) 128) as [H8|H8].
    { injection E as <-. cbn [oc_lib oc_dk oc_heap oc_P oc_rc oc_val oc_msgs]. split; [reflexivity|]. split; [auto|]. split; [apply heap_clean_refl, HH|]. apply DB_short; auto. }
    apply bind_inv in E. destruct E as ([[[[lb1 ms] P1] dk] rc] & ES & E).
    apply scryptdec_setup_inv in ES; auto using scratch_bytes_ok, scratch_bytes_length; [|lia].
    destruct ES as (A1 & A2 & A3 & A4).
    destruct (is_ok rc) eqn:EO.
    2:{ apply is_ok_false in EO. rewrite dec_buf_rest_fail in E by assumption. injection E as <-. cbn [oc_lib oc_dk oc_heap oc_P oc_rc oc_val oc_msgs].
        split; [exact A3|]. split; [auto|]. split; [apply heap_clean_refl, HH|]. subst P1. eapply DB_setup; eauto. }
    apply is_ok_spec in EO. subst rc.
    assert (dk = fmt_keys kdf passwd (get_head f)) as -> by (inversion A4; auto; congruence). subst P1.
    destruct (dec_buf_rest_ok hp e f outbuf outlen lb1 ms (P_of (x_lim P) (get_head f)) passwd HH HFO H8 HF64 HOB) as (rc & hp' & out & E2 & HC & HR).
    rewrite E2 in E. assert (o = mk_oc rc lb1 ms (P_of (x_lim P) (get_head f)) (repeat 0 64) hp' out) as -> by congruence.
    cbn [oc_lib oc_dk oc_heap oc_P oc_rc oc_val oc_msgs]. split; [exact A3|]. split; [auto|]. split; [exact HC|].
    destruct HR as [(R1 & R2 & ->)|(R1 & R2 & R3 & ->)].
    - eapply DB_aes; eauto.
    - eapply DB_body; eauto.
  Qed.

  (** It returns normally whenever the parameter check does. *)
  Lemma scryptdec_buf_total lb hp e f outbuf outlen passwd P verbose force sst m rc :
    size_bits (m_szb M) -> bytes_ok passwd -> heap_ok hp ->
    bytes_ok f -> N.of_nat (length f) < 2 ^ 64 -> (length f - 128 <= length outbuf)%nat -> all_zero P = true ->
    checkparams M cfg (lb_smix lb) (v_params e) (x_lim P) (Z.of_N (fh_logN (get_head f))) (fh_r (get_head f)) (fh_p (get_head f)) verbose force = Ok (sst, m, rc) ->
    all_ok (v_kdf2 e) ->
    exists o, scryptdec_buf M cfg lb hp e f outbuf outlen passwd P verbose force = Ok o.
  Proof.
    intros Hs HPW HH HFO HF64 HOB HZ HC H2. rewrite scryptdec_buf_cases by exact HFO.
    rewrite HZ. cbn [assert_]. rewrite bind_Ok.
    destruct (Nat.ltb (length f) 7); [eauto|]. destruct (list_eqb (firstn 6 f) fmt_magic); cbn [negb]; [|eauto].
    destruct (nth 6 f 0 =? 0); cbn [negb]; [|eauto].
    destruct (Nat.ltb_spec (length f) 128) as [H8|H8]; [eauto|].
    destruct (scryptdec_setup_total M cfg lb e P f (scratch_bytes (jk M) 64) passwd verbose force sst m rc Hs HPW HFO ltac:(lia)
      (scratch_bytes_length _ _) (scratch_bytes_ok _ _) HC H2) as (lb1 & ms & P1 & dk & rc1 & ES).
    rewrite ES, bind_Ok. apply scryptdec_setup_inv in ES; auto using scratch_bytes_ok, scratch_bytes_length; [|lia].
    destruct ES as (A1 & A2 & A3 & A4).
    destruct (is_ok rc1) eqn:EO.
    2:{ apply is_ok_false in EO. rewrite dec_buf_rest_fail by assumption. eauto. }
    apply is_ok_spec in EO. subst rc1.
    assert (dk = fmt_keys kdf passwd (get_head f)) as -> by (inversion A4; auto; congruence).
    destruct (dec_buf_rest_ok hp e f outbuf outlen lb1 ms P1 passwd HH HFO H8 HF64 HOB) as (rc2 & hp' & out & -> & _). eauto.
  Qed.

  (** Resource checks disabled and no failure: the status is determined. *)
  Lemma dec_setup_force lb e lim passwd f verbose lb' ms dk rc : bytes_ok f -> (96 <= length f)%nat -> no_failure e ->
    dec_setup_result M cfg lb e lim passwd f verbose true lb' ms dk rc ->
    (~ checksum_ok f /\ rc = SCRYPT_EINVAL) \/
    (checksum_ok f /\ ~ fhead_ok (get_head f) /\ rc = SCRYPT_EINVAL) \/
    (checksum_ok f /\ fhead_ok (get_head f) /\ ~ computable M (get_head f) /\ rc = SCRYPT_EKEY) \/
    (checksum_ok f /\ fhead_ok (get_head f) /\ computable M (get_head f) /\ ~ passphrase_ok passwd f /\ rc = SCRYPT_EPASS) \/
    (checksum_ok f /\ fhead_ok (get_head f) /\ computable M (get_head f) /\ passphrase_ok passwd f /\ rc = SCRYPT_OK).
  Proof.
    intros HFO HFL (N1 & N2 & _ & _ & _ & N3 & N4) HR.
    assert (fh_r (get_head f) < 2 ^ 32 /\ fh_p (get_head f) < 2 ^ 32) as [Hr Hp].
    { split; [apply (proj2 (be32dec_be_val f 8 HFO ltac:(lia)))|apply (proj2 (be32dec_be_val f 12 HFO ltac:(lia)))]. }
    pose proof (get_head_ok_iff f HFO ltac:(lia)) as HI.
    destruct (checkparams_force M cfg (lb_smix lb) (v_params e) lim (Z.of_N (fh_logN (get_head f))) (fh_r (get_head f)) (fh_p (get_head f)) verbose Hr Hp
      ltac:(intros; split; assumption)) as (m0 & [(EC & HG)|(EC & HG)]).
    - assert (fhead_ok (get_head f)) as HK by (apply HI; lia).
      inversion HR as [dk0 HX|dk0 sst m rc0 HX HY HZ|dk0 sst m lb0 HX HY HZ|sst m lb0 HX HY HZ HW|sst m lb0 HX HY HZ HW]; subst.
      + left. auto.
      + exfalso. congruence.
      + right. right. left. repeat (split; [assumption|]). split; [|reflexivity]. intros HQ. apply HZ; auto.
      + right. right. right. left. auto.
      + right. right. right. right. auto.
    - assert (~ fhead_ok (get_head f)) as HK by (intros HQ; apply HG; apply HI in HQ; lia).
      inversion HR as [dk0 HX|dk0 sst m rc0 HX HY HZ|dk0 sst m lb0 HX HY HZ|sst m lb0 HX HY HZ HW|sst m lb0 HX HY HZ HW]; subst.
      + left. auto.
      + right. left. split; [exact HX|]. split; [exact HK|]. congruence.
      + congruence.
      + congruence.
      + congruence.
  Qed.
  Lemma scryptdec_buf_force lb hp e f outbuf outlen passwd P verbose :
    size_bits (m_szb M) -> bytes_ok passwd -> heap_ok hp ->
    bytes_ok f -> N.of_nat (length f) < 2 ^ 64 -> (length f - 128 <= length outbuf)%nat -> all_zero P = true -> no_failure e ->
    exists o, scryptdec_buf M cfg lb hp e f outbuf outlen passwd P verbose true = Ok o /\ dec_class M passwd f (oc_rc o).
  Proof.
    intros Hs HPW HH HFO HF64 HOB HZ HN.
    assert (exists o, scryptdec_buf M cfg lb hp e f outbuf outlen passwd P verbose true = Ok o) as (o & E).
    { destruct (Nat.ltb_spec (length f) 128) as [H8|H8].
      - rewrite scryptdec_buf_cases by exact HFO. rewrite HZ. cbn [assert_]. rewrite bind_Ok.
        destruct (Nat.ltb (length f) 7); [eauto|]. destruct (negb _); [eauto|]. destruct (negb _); [eauto|].
        assert (Nat.ltb (length f) 128 = true) as -> by (apply Nat.ltb_lt; exact H8). eauto.
      - assert (fh_r (get_head f) < 2 ^ 32 /\ fh_p (get_head f) < 2 ^ 32) as [Hr Hp].
        { split; [apply (proj2 (be32dec_be_val f 8 HFO ltac:(lia)))|apply (proj2 (be32dec_be_val f 12 HFO ltac:(lia)))]. }
        pose proof HN as (N1 & N2 & _ & _ & _ & N3 & N4).
        destruct (checkparams_force M cfg (lb_smix lb) (v_params e) (x_lim P) (Z.of_N (fh_logN (get_head f))) (fh_r (get_head f)) (fh_p (get_head f)) verbose Hr Hp
          ltac:(intros; split; assumption)) as (m0 & [(EC & _)|(EC & _)]); eapply scryptdec_buf_total; eauto. }
    exists o. split; [exact E|]. apply scryptdec_buf_inv in E; auto. destruct E as (_ & _ & _ & _ & HR).
    pose proof HN as (_ & _ & K1 & K2 & _).
    inversion HR as [HX|HX1 HX2 HX3|HX1 HX2 HX3|rc lb' ms dk HX1 HX2 HX3 HX4 HX5|rc lb' ms dk HX1 HX2 HX3 HX4 HX5 HX6|rc lb' ms dk HX1 HX2 HX3 HX4 HX5 HX6 HX7]; subst.
    - apply DC_not_scrypt. assumption.
    - apply DC_version; assumption.
    - apply DC_short; assumption.
    - apply dec_setup_force in HX5; auto; [|lia].
      destruct HX5 as [(A & ->)|[(A & B & ->)|[(A & B & C & ->)|[(A & B & C & D & ->)|(A & B & C & D & EE)]]]].
      + apply DC_checksum; auto.
      + apply DC_params; auto.
      + apply DC_key; auto.
      + apply DC_pass; auto.
      + congruence.
    - destruct HX6; congruence.
    - apply dec_setup_force in HX4; auto; [|lia].
      destruct HX4 as [(A & X)|[(A & B & X)|[(A & B & C & X)|[(A & B & C & D & X)|(A & B & C & D & _)]]]]; try discriminate X.
      destruct HX7 as [(-> & T)|(-> & T)]; [apply DC_ok|apply DC_trailer]; auto.
  Qed.
End DecBuf.
