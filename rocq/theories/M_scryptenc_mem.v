(** lib/scryptenc/scryptenc.c again, this time with the automatic variables of
    its functions.

    M_scryptenc models what the functions compute; there the contexts and hash
    buffers they declare are values that come and go.  Here every automatic array
    and context (salt, hbuf, header, buf, ctx, hctx) is a piece of memory: it
    starts out holding whatever the stack held and is part of the result as the
    function left it.  The hash functions are those of M_sha256_mem, so what they
    leave of their own variables is recorded too, in [l], oldest first.

    As in M_scryptenc: dk and header start out as [scratch_bytes]; the expanded
    AES key and the stream are objects of the key heap; crypto_scrypt, the
    entropy generator (its memory: M_entropy_mem) and checkparams are called as
    they are modelled there.  Not modelled: the heap memory of crypto_scrypt. *)
From Verif Require Import Base SpecBytes M_endian M_sha256_tr M_simd M_sha256_hw M_sha256 M_memzero M_verify M_double
  M_stdio M_aesctr M_entropy M_scrypt_sel M_cpuperf M_machine M_params M_scryptenc M_sha256_mem M_entropy_mem.

(** The automatic variables of scryptenc_setup (scryptenc.c:237-244) and of
    scryptdec_setup (scryptenc.c:358-364). *)
Record setup_frame := mk_sf { sf_salt : bytes; sf_hbuf : bytes; sf_ctx : sha_ctx; sf_hctx : hmac_ctx }.
(** Those of scryptenc_buf (scryptenc.c:420-428), scryptdec_buf (scryptenc.c:491-498;
    it has no header), besides dk. *)
Record buf_frame := mk_bf { bf_hbuf : bytes; bf_header : bytes; bf_hctx : hmac_ctx }.
(** Those of scryptenc_file (scryptenc.c:581-591), scryptdec_file_copy
    (scryptenc.c:794-803; it has no header), besides dk. *)
Record file_frame := mk_ff { ff_buf : bytes; ff_hbuf : bytes; ff_header : bytes; ff_hctx : hmac_ctx }.

Section ScryptencMem.
  Context (M : machine) (cfg : clk_cfg).
  Context (leave : list N -> bytes -> list N -> list N) (junk : nat -> nat -> N).
  Notation hw := (shw M).
  Notation jk := (jk M).

  (* sha256.c:423-434 SHA256_Update, called *)
  Definition call_SHA_Update (ctx : sha_ctx) (inp : bytes) (l : list piece) : res (sha_ctx * list piece) :=
    ' (ctx, tmp32) <- mem_Update hw leave ctx inp (found junk l 0 72) ;;
    Ok (ctx, l ++ [(P_hash, tmp32)]).
  (* sha256.c:454-467 SHA256_Final(digest, ctx), called *)
  Definition call_SHA_Final (digest : bytes) (ctx : sha_ctx) (l : list piece) : res (bytes * sha_ctx * list piece) :=
    ' (digest, ctx, tmp32) <- mem_Final hw leave digest ctx (found junk l 0 72) ;;
    Ok (digest, ctx, l ++ [(P_hash, tmp32)]).
  (** SHA256_Init(&ctx); SHA256_Update(&ctx, m, ...); SHA256_Final(hbuf, &ctx)
      (scryptenc.c:301-303, 373-375). *)
  Definition sha_into (hbuf : bytes) (ctx : sha_ctx) (m : bytes) (l : list piece) : res (bytes * sha_ctx * list piece) :=
    ' (ctx, l) <- call_SHA_Update (SHA256_Init ctx) m l ;;
    call_SHA_Final hbuf ctx l.
  (** HMAC_SHA256_Init(&hctx, K, 32); HMAC_SHA256_Update(&hctx, m, ...);
      HMAC_SHA256_Final(hbuf, &hctx) (scryptenc.c:307-309, 393-395, 455-457, 541-543). *)
  Definition hmac_into (hbuf : bytes) (hctx : hmac_ctx) (K m : bytes) (l : list piece) : res (bytes * hmac_ctx * list piece) :=
    ' (hctx, l) <- call_Init hw leave junk hctx K l ;;
    ' (hctx, l) <- call_Update hw leave junk hctx m l ;;
    call_Final hw leave junk hbuf hctx l.

  (* scryptenc.c:292-310: construct the file header *)
  Definition mem_build_header (header dk : bytes) (f : setup_frame) (logN : Z) (r p : N) (l : list piece)
    : res (bytes * setup_frame * list piece) :=
    header <- wr header 0 magic ;;
    header <- wr header 6 [0] ;;
    header <- wr header 7 [N.land (Z.to_N logN) 0xff] ;;
    header <- wr header 8 (be32enc r) ;;
    header <- wr header 12 (be32enc p) ;;
    salt <- rd (sf_salt f) 0 32 ;;
    header <- wr header 16 salt ;;
    m <- rd header 0 48 ;;
    ' (hbuf, ctx, l) <- sha_into (sf_hbuf f) (sf_ctx f) m l ;;
    h16 <- rd hbuf 0 16 ;;
    header <- wr header 48 h16 ;;
    key_hmac <- rd dk 32 32 ;;
    m <- rd header 0 64 ;;
    ' (hbuf, hctx, l) <- hmac_into hbuf (sf_hctx f) key_hmac m l ;;
    h32 <- rd hbuf 0 32 ;;
    header <- wr header 64 h32 ;;
    Ok (header, mk_sf (sf_salt f) hbuf ctx hctx, l).
  (* scryptenc.c:233-313 scryptenc_setup *)
  Definition mem_scryptenc_setup (lb : lib) (e : call_env) (P : xparams) (header dk passwd : bytes) (verbose force : bool)
    (f : setup_frame) (l : list piece)
    : res (lib * list msg * xparams * bytes * bytes * rcode * setup_frame * list piece) :=
    ' (lb, ms, P, rc) <- setup_params M cfg lb e P verbose force ;;
    if negb (is_ok rc) then Ok (lb, ms, P, header, dk, rc, f, l) else
    _ <- assert_ ((0 <? x_logN P)%Z && (x_logN P <? 64)%Z) ;;
    let N_ := w64 (N.shiftl 1 (Z.to_N (x_logN P))) in
    ' (s, d) <- crypto_entropy_read hw jk (v_ent e) (lb_drbg lb) 32 ;;
    let lb := mk_lib (lb_smix lb) d in
    match s with
    | None => Ok (lb, ms, P, header, dk, SCRYPT_ESALT, f, l)
    | Some s =>
        salt <- wr (sf_salt f) 0 s ;;
        let f := mk_sf salt (sf_hbuf f) (sf_ctx f) (sf_hctx f) in
        salt <- rd (sf_salt f) 0 32 ;;
        ' (ok, dk, lb) <- derive M lb e passwd salt N_ (x_r P) (x_p P) dk ;;
        if negb ok then Ok (lb, ms, P, header, dk, SCRYPT_EKEY, f, l) else
        ' (header, f, l) <- mem_build_header header dk f (x_logN P) (x_r P) (x_p P) l ;;
        Ok (lb, ms, P, header, dk, SCRYPT_OK, f, l)
    end.
  (* scryptenc.c:352-402 scryptdec_setup *)
  Definition mem_scryptdec_setup (lb : lib) (e : call_env) (P : xparams) (header dk passwd : bytes) (verbose force : bool)
    (f : setup_frame) (l : list piece)
    : res (lib * list msg * xparams * bytes * rcode * setup_frame * list piece) :=
    b7 <- rd header 7 1 ;;
    b8 <- rd header 8 4 ;;
    b12 <- rd header 12 4 ;;
    let P := mk_xp (x_lim P) (Z.of_N (sel b7 0)) (be32dec b8) (be32dec b12) in
    s <- rd header 16 32 ;;
    salt <- wr (sf_salt f) 0 s ;;
    m <- rd header 0 48 ;;
    ' (hbuf, ctx, l) <- sha_into (sf_hbuf f) (sf_ctx f) m l ;;
    let f := mk_sf salt hbuf ctx (sf_hctx f) in
    c <- rd header 48 16 ;;
    v <- crypto_verify_bytes c hbuf 16 ;;
    if negb (v =? 0) then Ok (lb, [], P, dk, SCRYPT_EINVAL, f, l) else
    ' (sst, m, rc) <- checkparams M cfg (lb_smix lb) (v_params e) (x_lim P) (x_logN P) (x_r P) (x_p P) verbose force ;;
    let lb := mk_lib sst (lb_drbg lb) in
    if negb (is_ok rc) then Ok (lb, opt_msg m, P, dk, rc, f, l) else
    let N_ := w64 (N.shiftl 1 (Z.to_N (x_logN P))) in
    salt <- rd (sf_salt f) 0 32 ;;
    ' (ok, dk, lb) <- derive M lb e passwd salt N_ (x_r P) (x_p P) dk ;;
    if negb ok then Ok (lb, opt_msg m, P, dk, SCRYPT_EKEY, f, l) else
    key_hmac <- rd dk 32 32 ;;
    h64 <- rd header 0 64 ;;
    ' (hbuf, hctx, l) <- hmac_into (sf_hbuf f) (sf_hctx f) key_hmac h64 l ;;
    let f := mk_sf (sf_salt f) hbuf (sf_ctx f) hctx in
    sig <- rd header 64 32 ;;
    v <- crypto_verify_bytes hbuf sig 32 ;;
    if negb (v =? 0) then Ok (lb, opt_msg m, P, dk, SCRYPT_EPASS, f, l) else
    Ok (lb, opt_msg m, P, dk, SCRYPT_OK, f, l).

  (** What a call leaves: the outcome of M_scryptenc (with dk), the frame of the
      function, the frame of the set-up function, and the pieces of the hash functions. *)
  (* scryptenc.c:415-473 scryptenc_buf *)
  Definition mem_scryptenc_buf (lb : lib) (h : kheap) (e : call_env) (inbuf outbuf passwd : bytes) (P : xparams)
    (verbose force : bool) (f : buf_frame) (sf : setup_frame) (l : list piece)
    : res (outcome bytes * buf_frame * setup_frame * list piece) :=
    _ <- assert_ (all_zero P || none_zero P) ;;
    ' (lb, ms, P, header, dk, rc, sf, l) <-
      mem_scryptenc_setup lb e P (bf_header f) (scratch_bytes jk 64) passwd verbose force sf l ;;
    let f := mk_bf (bf_hbuf f) header (bf_hctx f) in
    if negb (is_ok rc) then dk <- zero_dk dk ;; Ok (mk_oc rc lb ms P dk h outbuf, f, sf, l) else
    outbuf <- wr outbuf 0 header ;;
    ' (h, a) <- start_aes M e h dk ;;
    match a with
    | inl rc => dk <- zero_dk dk ;; Ok (mk_oc rc lb ms P dk h outbuf, f, sf, l)
    | inr (ki, si, AES) =>
        ' (ct, AES) <- crypto_aesctr_stream (m_aes M) (m_hi M) AES inbuf ;;
        h <- kh_set si (Some (S_stream AES)) h ;;
        outbuf <- wr outbuf 96 ct ;;
        h <- crypto_aesctr_free si h ;;
        h <- crypto_aes_key_free ki h ;;
        key_hmac <- rd dk 32 32 ;;
        m <- rd outbuf 0 (96 + length inbuf) ;;
        ' (hbuf, hctx, l) <- hmac_into (bf_hbuf f) (bf_hctx f) key_hmac m l ;;
        t <- rd hbuf 0 32 ;;
        outbuf <- wr outbuf (96 + length inbuf) t ;;
        dk <- zero_dk dk ;;
        Ok (mk_oc SCRYPT_OK lb ms P dk h outbuf, mk_bf hbuf header hctx, sf, l)
    end.
  (* scryptenc.c:485-564 scryptdec_buf *)
  Definition mem_scryptdec_buf (lb : lib) (h : kheap) (e : call_env) (inbuf outbuf : bytes) (outlen : N) (passwd : bytes)
    (P : xparams) (verbose force : bool) (f : buf_frame) (sf : setup_frame) (l : list piece)
    : res (outcome (bytes * N) * buf_frame * setup_frame * list piece) :=
    _ <- assert_ (all_zero P) ;;
    let inbuflen := length inbuf in
    let dk0 := scratch_bytes jk 64 in
    if Nat.ltb inbuflen 7 then Ok (mk_oc SCRYPT_EINVAL lb [] P dk0 h (outbuf, outlen), f, sf, l) else
    m6 <- rd inbuf 0 6 ;;
    if negb (list_eqb m6 magic) then Ok (mk_oc SCRYPT_EINVAL lb [] P dk0 h (outbuf, outlen), f, sf, l) else
    v <- rd inbuf 6 1 ;;
    if negb (sel v 0 =? 0) then Ok (mk_oc SCRYPT_EVERSION lb [] P dk0 h (outbuf, outlen), f, sf, l) else
    if Nat.ltb inbuflen 128 then Ok (mk_oc SCRYPT_EINVAL lb [] P dk0 h (outbuf, outlen), f, sf, l) else
    ' (lb, ms, P, dk, rc, sf, l) <- mem_scryptdec_setup lb e P inbuf dk0 passwd verbose force sf l ;;
    if negb (is_ok rc) then dk <- zero_dk dk ;; Ok (mk_oc rc lb ms P dk h (outbuf, outlen), f, sf, l) else
    ' (h, a) <- start_aes M e h dk ;;
    match a with
    | inl rc => dk <- zero_dk dk ;; Ok (mk_oc rc lb ms P dk h (outbuf, outlen), f, sf, l)
    | inr (ki, si, AES) =>
        ct <- rd inbuf 96 (inbuflen - 128) ;;
        ' (pt, AES) <- crypto_aesctr_stream (m_aes M) (m_hi M) AES ct ;;
        h <- kh_set si (Some (S_stream AES)) h ;;
        outbuf <- wr outbuf 0 pt ;;
        h <- crypto_aesctr_free si h ;;
        h <- crypto_aes_key_free ki h ;;
        let outlen := N.of_nat (inbuflen - 128) in
        key_hmac <- rd dk 32 32 ;;
        m <- rd inbuf 0 (inbuflen - 32) ;;
        ' (hbuf, hctx, l) <- hmac_into (bf_hbuf f) (bf_hctx f) key_hmac m l ;;
        sig <- rd inbuf (inbuflen - 32) 32 ;;
        v <- crypto_verify_bytes hbuf sig 32 ;;
        let rc := if negb (v =? 0) then SCRYPT_EINVAL else SCRYPT_OK in
        dk <- zero_dk dk ;;
        Ok (mk_oc rc lb ms P dk h (outbuf, outlen), mk_bf hbuf (bf_header f) hctx, sf, l)
    end.

  (* scryptenc.c:623-636: the loop of scryptenc_file, with buf as the array it is *)
  Fixpoint mem_enc_loop (fuel : nat) (AES : ctr_stream) (hctx : hmac_ctx) (buf : bytes) (fi : instream) (fo : outstream)
    (l : list piece) : res (bool * ctr_stream * hmac_ctx * bytes * instream * outstream * list piece) :=
    match fuel with
    | O => UB
    | S n =>
        let '(d, fi) := fread1 ENCBLOCK fi in
        let readlen := length d in
        if Nat.eqb readlen 0 then Ok (true, AES, hctx, buf, fi, fo, l) else
        buf <- wr buf 0 d ;;                                        (* what fread stored *)
        x <- rd buf 0 readlen ;;
        ' (y, AES) <- crypto_aesctr_stream (m_aes M) (m_hi M) AES x ;;
        buf <- wr buf 0 y ;;                                        (* in place *)
        x <- rd buf 0 readlen ;;
        ' (hctx, l) <- call_Update hw leave junk hctx x l ;;
        let '(ok, fo) := fwrite x fo in
        if negb ok then Ok (false, AES, hctx, buf, fi, fo, l) else
        mem_enc_loop n AES hctx buf fi fo l
    end.
  (* scryptenc.c:576-661 scryptenc_file *)
  Definition mem_scryptenc_file (lb : lib) (h : kheap) (e : call_env) (fi : instream) (fo : outstream) (passwd : bytes)
    (P : xparams) (verbose force : bool) (f : file_frame) (sf : setup_frame) (l : list piece)
    : res (outcome (instream * outstream) * file_frame * setup_frame * list piece) :=
    _ <- assert_ (all_zero P || none_zero P) ;;
    ' (lb, ms, P, header, dk, rc, sf, l) <-
      mem_scryptenc_setup lb e P (ff_header f) (scratch_bytes jk 64) passwd verbose force sf l ;;
    let f := mk_ff (ff_buf f) (ff_hbuf f) header (ff_hctx f) in
    if negb (is_ok rc) then dk <- zero_dk dk ;; Ok (mk_oc rc lb ms P dk h (fi, fo), f, sf, l) else
    key_hmac <- rd dk 32 32 ;;
    ' (hctx, l) <- call_Init hw leave junk (ff_hctx f) key_hmac l ;;
    ' (hctx, l) <- call_Update hw leave junk hctx header l ;;
    let f := mk_ff (ff_buf f) (ff_hbuf f) header hctx in
    let '(ok, fo) := fwrite header fo in
    if negb ok then dk <- zero_dk dk ;; Ok (mk_oc SCRYPT_EWRFILE lb ms P dk h (fi, fo), f, sf, l) else
    ' (h, a) <- start_aes M e h dk ;;
    match a with
    | inl rc => dk <- zero_dk dk ;; Ok (mk_oc rc lb ms P dk h (fi, fo), f, sf, l)
    | inr (ki, si, AES) =>
        ' (eof, AES, hctx, buf, fi, fo, l) <- mem_enc_loop (in_size fi) AES hctx (ff_buf f) fi fo l ;;
        let f := mk_ff buf (ff_hbuf f) header hctx in
        h <- kh_set si (Some (S_stream AES)) h ;;
        if negb eof then
          h <- crypto_aesctr_free si h ;;
          dk <- zero_dk dk ;; Ok (mk_oc SCRYPT_EWRFILE lb ms P dk h (fi, fo), f, sf, l)
        else
        h <- crypto_aesctr_free si h ;;
        h <- crypto_aes_key_free ki h ;;
        if ferror fi then dk <- zero_dk dk ;; Ok (mk_oc SCRYPT_ERDFILE lb ms P dk h (fi, fo), f, sf, l) else
        ' (hbuf, hctx, l) <- call_Final hw leave junk (ff_hbuf f) hctx l ;;
        let f := mk_ff buf hbuf header hctx in
        t <- rd hbuf 0 32 ;;
        let '(ok, fo) := fwrite t fo in
        dk <- zero_dk dk ;;
        Ok (mk_oc (if ok then SCRYPT_OK else SCRYPT_EWRFILE) lb ms P dk h (fi, fo), f, sf, l)
    end.

  (* scryptenc.c:828-855: the loop of scryptdec_file_copy, with buf as the array it is *)
  Fixpoint mem_dec_loop (fuel : nat) (AES : ctr_stream) (hctx : hmac_ctx) (buf : bytes) (buflen : nat) (fi : instream)
    (fo : outstream) (l : list piece)
    : res (bool * ctr_stream * hmac_ctx * bytes * nat * instream * outstream * list piece) :=
    match fuel with
    | O => UB
    | S n =>
        let '(d, fi) := fread1 (ENCBLOCK + 32 - buflen) fi in
        let readlen := length d in
        if Nat.eqb readlen 0 then Ok (true, AES, hctx, buf, buflen, fi, fo, l) else
        buf <- wr buf buflen d ;;                                   (* what fread stored *)
        let buflen := (buflen + readlen)%nat in
        if Nat.leb buflen 32 then mem_dec_loop n AES hctx buf buflen fi fo l else
        a <- rd buf 0 (buflen - 32) ;;
        ' (hctx, l) <- call_Update hw leave junk hctx a l ;;
        ' (y, AES) <- crypto_aesctr_stream (m_aes M) (m_hi M) AES a ;;
        buf <- wr buf 0 y ;;                                        (* in place *)
        x <- rd buf 0 (buflen - 32) ;;
        let '(ok, fo) := fwrite x fo in
        if negb ok then Ok (false, AES, hctx, buf, buflen, fi, fo, l) else
        t <- rd buf (buflen - 32) 32 ;;
        buf <- wr buf 0 t ;;
        mem_dec_loop n AES hctx buf 32 fi fo l
    end.
  (* scryptenc.c:791-884 scryptdec_file_copy *)
  Definition mem_scryptdec_file_copy (h : kheap) (e : call_env) (C : option cookie) (fi : instream) (fo : outstream)
    (f : file_frame) (l : list piece)
    : res (rcode * instream * outstream * kheap * file_frame * list piece) :=
    match C with
    | None => Abort                                  (* assert(C != NULL) *)
    | Some C =>
        key_hmac <- rd (ck_dk C) 32 32 ;;
        ' (hctx, l) <- call_Init hw leave junk (ff_hctx f) key_hmac l ;;
        ' (hctx, l) <- call_Update hw leave junk hctx (ck_header C) l ;;
        let f := mk_ff (ff_buf f) (ff_hbuf f) (ff_header f) hctx in
        ' (h, a) <- start_aes M e h (ck_dk C) ;;
        match a with
        | inl rc => Ok (rc, fi, fo, h, f, l)
        | inr (ki, si, AES) =>
            ' (eof, AES, hctx, buf, buflen, fi, fo, l) <- mem_dec_loop (in_size fi) AES hctx (ff_buf f) 0 fi fo l ;;
            let f := mk_ff buf (ff_hbuf f) (ff_header f) hctx in
            h <- kh_set si (Some (S_stream AES)) h ;;
            if negb eof then h <- crypto_aesctr_free si h ;; Ok (SCRYPT_EWRFILE, fi, fo, h, f, l) else
            h <- crypto_aesctr_free si h ;;
            h <- crypto_aes_key_free ki h ;;
            if ferror fi then Ok (SCRYPT_ERDFILE, fi, fo, h, f, l) else
            if Nat.ltb buflen 32 then Ok (SCRYPT_EINVAL, fi, fo, h, f, l) else
            ' (hbuf, hctx, l) <- call_Final hw leave junk (ff_hbuf f) hctx l ;;
            let f := mk_ff buf hbuf (ff_header f) hctx in
            v <- crypto_verify_bytes hbuf buf 32 ;;
            Ok (if negb (v =? 0) then SCRYPT_EINVAL else SCRYPT_OK, fi, fo, h, f, l)
        end
    end.

  (* scryptenc.c:746-782 scryptdec_file_prep *)
  Definition mem_scryptdec_file_prep (lb : lib) (h : kheap) (e : call_env) (fi : instream) (passwd : bytes) (P : xparams)
    (verbose force : bool) (C0 : option cookie) (sf : setup_frame) (l : list piece)
    : res (outcome (option cookie * instream) * setup_frame * list piece) :=
    _ <- assert_ (all_zero P) ;;
    if negb (v_cookie_mem e) then Ok (mk_oc SCRYPT_ENOMEM lb [] P [] h (C0, fi), sf, l) else
    let '(ci, h) := kh_alloc (S_cookie (scratch_bytes jk 64)) h in
    let '(rc, header, fi) := load_header fi in
    if negb (is_ok rc) then h <- zero_free ci h ;; Ok (mk_oc rc lb [] P [] h (C0, fi), sf, l) else
    ' (lb, ms, P, dk, rc, sf, l) <- mem_scryptdec_setup lb e P header (scratch_bytes jk 64) passwd verbose force sf l ;;
    h <- kh_set ci (Some (S_cookie dk)) h ;;
    if negb (is_ok rc) then h <- zero_free ci h ;; Ok (mk_oc rc lb ms P [] h (C0, fi), sf, l) else
    Ok (mk_oc SCRYPT_OK lb ms P [] h (Some (mk_cookie ci header dk), fi), sf, l).
  (* scryptenc.c:894-925 scryptdec_file *)
  Definition mem_scryptdec_file (lb : lib) (h : kheap) (e : call_env) (fi : instream) (fo : outstream) (passwd : bytes)
    (P : xparams) (verbose force : bool) (f : file_frame) (sf : setup_frame) (l : list piece)
    : res (outcome (instream * outstream) * file_frame * setup_frame * list piece) :=
    _ <- assert_ (all_zero P) ;;
    ' (o, sf, l) <- mem_scryptdec_file_prep lb h e fi passwd P verbose force None sf l ;;
    let '(C, fi) := oc_val o in
    if negb (is_ok (oc_rc o)) then
      Ok (mk_oc (oc_rc o) (oc_lib o) (oc_msgs o) (oc_P o) [] (oc_heap o) (fi, fo), f, sf, l)
    else
    ' (rc, fi, fo, h, f, l) <- mem_scryptdec_file_copy (oc_heap o) e C fi fo f l ;;
    h <- scryptdec_file_cookie_free C h ;;
    Ok (mk_oc rc (oc_lib o) (oc_msgs o) (oc_P o) [] h (fi, fo), f, sf, l).
End ScryptencMem.
