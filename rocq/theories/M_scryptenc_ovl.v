(** scryptenc_buf and scryptdec_buf on memory: the same code as in M_scryptenc,
    with ${inbuf} and ${outbuf} as address ranges of one memory, so that they may
    overlap.  A pointer into [m] is an offset.  The passphrase, the parameters
    and the functions' local variables lie elsewhere. *)
From Verif Require Import Base SpecBytes M_endian M_sha256 M_aes_hw M_aesctr M_aesctr_mem M_verify M_entropy M_machine M_cpuperf
  M_params M_scryptenc.

Section ScryptencOvl.
  Context (M : machine) (cfg : clk_cfg).
  Notation jk := (jk M).
  (* scryptenc.c:415-473 scryptenc_buf(&m[inbuf], inbuflen, &m[outbuf], ...); the
     output is the memory afterwards *)
  Definition ovl_scryptenc_buf (lb : lib) (h : kheap) (e : call_env) (m : bytes) (inbuf inbuflen outbuf : nat) (passwd : bytes)
    (P : xparams) (verbose force : bool) : res (outcome bytes) :=
    _ <- assert_ (all_zero P || none_zero P) ;;
    ' (lb, ms, P, header, dk, rc) <-
      scryptenc_setup M cfg lb e P (scratch_bytes jk 96) (scratch_bytes jk 64) passwd verbose force ;;
    if negb (is_ok rc) then dk <- zero_dk dk ;; Ok (mk_oc rc lb ms P dk h m) else
    m <- wr m outbuf header ;;                                           (* memcpy(outbuf, header, 96) *)
    ' (h, a) <- start_aes M e h dk ;;
    match a with
    | inl rc => dk <- zero_dk dk ;; Ok (mk_oc rc lb ms P dk h m)
    | inr (ki, si, AES) =>
        ' (m, AES) <- crypto_aesctr_stream_mem (m_aes M) (m_hi M) AES m inbuf (outbuf + 96) inbuflen ;;
        h <- kh_set si (Some (S_stream AES)) h ;;
        h <- crypto_aesctr_free si h ;;
        h <- crypto_aes_key_free ki h ;;
        key_hmac <- rd dk 32 32 ;;
        x <- rd m outbuf (96 + inbuflen) ;;
        hbuf <- hmac_once M key_hmac x ;;
        m <- wr m (outbuf + (96 + inbuflen)) hbuf ;;
        dk <- zero_dk dk ;;
        Ok (mk_oc SCRYPT_OK lb ms P dk h m)
    end.
  (* scryptenc.c:485-564 scryptdec_buf(&m[inbuf], inbuflen, &m[outbuf], &outlen, ...);
     the output is (memory afterwards, outlen).  scryptdec_setup writes nothing to
     [m] and gets the input as it is at that time. *)
  Definition ovl_scryptdec_buf (lb : lib) (h : kheap) (e : call_env) (m : bytes) (inbuf inbuflen outbuf : nat) (outlen : N)
    (passwd : bytes) (P : xparams) (verbose force : bool) : res (outcome (bytes * N)) :=
    _ <- assert_ (all_zero P) ;;
    let dk0 := scratch_bytes jk 64 in
    if Nat.ltb inbuflen 7 then Ok (mk_oc SCRYPT_EINVAL lb [] P dk0 h (m, outlen)) else
    m6 <- rd m inbuf 6 ;;
    if negb (list_eqb m6 magic) then Ok (mk_oc SCRYPT_EINVAL lb [] P dk0 h (m, outlen)) else
    v <- rd m (inbuf + 6) 1 ;;
    if negb (sel v 0 =? 0) then Ok (mk_oc SCRYPT_EVERSION lb [] P dk0 h (m, outlen)) else
    if Nat.ltb inbuflen 128 then Ok (mk_oc SCRYPT_EINVAL lb [] P dk0 h (m, outlen)) else
    x <- rd m inbuf inbuflen ;;
    ' (lb, ms, P, dk, rc) <- scryptdec_setup M cfg lb e P x dk0 passwd verbose force ;;
    if negb (is_ok rc) then dk <- zero_dk dk ;; Ok (mk_oc rc lb ms P dk h (m, outlen)) else
    ' (h, a) <- start_aes M e h dk ;;
    match a with
    | inl rc => dk <- zero_dk dk ;; Ok (mk_oc rc lb ms P dk h (m, outlen))
    | inr (ki, si, AES) =>
        ' (m, AES) <- crypto_aesctr_stream_mem (m_aes M) (m_hi M) AES m (inbuf + 96) outbuf (inbuflen - 128) ;;
        h <- kh_set si (Some (S_stream AES)) h ;;
        h <- crypto_aesctr_free si h ;;
        h <- crypto_aes_key_free ki h ;;
        let outlen := N.of_nat (inbuflen - 128) in
        key_hmac <- rd dk 32 32 ;;
        x <- rd m inbuf (inbuflen - 32) ;;
        hbuf <- hmac_once M key_hmac x ;;
        sig <- rd m (inbuf + (inbuflen - 32)) 32 ;;
        v <- crypto_verify_bytes hbuf sig 32 ;;
        let rc := if negb (v =? 0) then SCRYPT_EINVAL else SCRYPT_OK in
        dk <- zero_dk dk ;;
        Ok (mk_oc rc lb ms P dk h (m, outlen))
    end.
End ScryptencOvl.
