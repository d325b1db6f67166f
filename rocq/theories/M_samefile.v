(** scryptenc_file and scryptdec_file as main calls them when infile and outfile
    name the same file: two FILEs on one file.  The functions are those of
    M_scryptenc with the C library's fread and fwrite acting on that one file.
    Simplified: no read or write error, and no failing open or close. *)
From Verif Require Import Base SpecBytes M_endian M_sha256 M_aes_hw M_aesctr M_verify M_entropy M_machine M_cpuperf
  M_params M_stdio M_scryptenc.

(** The file on disk; the input stream's offset in it and what it has read ahead;
    what the output stream has not written out yet.  The output stream, opened with
    "wb", writes from offset 0 on and nobody else writes: its offset is the length. *)
Record one_file := mk_one { of_disk : bytes; of_pos : nat; of_ahead : bytes; of_pend : bytes }.

Section SameFile.
  (** Size of the read(2) made at an offset; how many bytes the output stream has
      written out when so many were given to it. *)
  Context (chunk flush : nat -> nat).
  (* fopen(name, "rb"): /repo/main.c:70, :124 *)
  Definition open_rb (disk : bytes) : one_file := mk_one disk 0 [] [].
  (* fopen(name, "wb"), /repo/main.c:159: truncates *)
  Definition open_wb (s : one_file) : one_file := mk_one [] (of_pos s) (of_ahead s) [].
  (* fclose of both, /repo/main.c:180-184: what is pending is written out *)
  Definition close_both (s : one_file) : bytes := of_disk s ++ of_pend s.
  (* fread(buf, 1, n, infile) of the C library (scryptenc.c:624, :833; fread(buf, n, 1,
     infile) in :694, :718): what was read ahead, then read(2) until there is enough
     or it returns 0 *)
  Fixpoint of_read (fuel n : nat) (s : one_file) : res (bytes * one_file) :=
    if Nat.leb n (length (of_ahead s)) then
      Ok (firstn n (of_ahead s), mk_one (of_disk s) (of_pos s) (skipn n (of_ahead s)) (of_pend s))
    else
      match fuel with
      | O => UB
      | S f =>
          let c := firstn (Nat.max 1 (chunk (of_pos s))) (skipn (of_pos s) (of_disk s)) in
          if Nat.eqb (length c) 0 then Ok (of_ahead s, mk_one (of_disk s) (of_pos s) [] (of_pend s)) else
          ' (x, s') <- of_read f (n - length (of_ahead s)) (mk_one (of_disk s) (of_pos s + length c) c (of_pend s)) ;;
          Ok (of_ahead s ++ x, s')
      end.
  (* the fread of scryptenc.c:624, :694, :718, :833 *)
  Definition of_fread (n : nat) (s : one_file) : res (bytes * one_file) := of_read (S (S n)) n s.
  (* fwrite(d, n, 1, outfile) of the C library (scryptenc.c:605, :628, :645, :846) *)
  Definition of_fwrite (d : bytes) (s : one_file) : one_file :=
    let all := of_disk s ++ of_pend s ++ d in
    let n := Nat.max (length (of_disk s)) (Nat.min (length all) (flush (length all))) in
    mk_one (firstn n all) (of_pos s) (of_ahead s) (skipn n all).
  (** Bound on the number of freads that yield data (the loops of scryptenc.c:623, :828
      run until fread returns 0). *)
  Definition of_size (s : one_file) : nat := match of_ahead s with [] => 1 | a => S (S (length a)) end.

  Context (M : machine) (cfg : clk_cfg).
  Notation jk := (jk M).
  Notation shw := (shw M).
  (* scryptenc.c:623-636 *)
  Fixpoint sf_enc_loop (fuel : nat) (AES : ctr_stream) (hctx : hmac_ctx) (s : one_file) : res (ctr_stream * hmac_ctx * one_file) :=
    match fuel with
    | O => UB
    | S f =>
        ' (buf, s) <- of_fread ENCBLOCK s ;;
        if Nat.eqb (length buf) 0 then Ok (AES, hctx, s) else
        ' (buf, AES) <- crypto_aesctr_stream (m_aes M) (m_hi M) AES buf ;;
        hctx <- HMAC_SHA256_Update shw jk hctx buf ;;
        sf_enc_loop f AES hctx (of_fwrite buf s)
    end.
  (* scryptenc.c:576-661 scryptenc_file *)
  Definition sf_scryptenc_file (lb : lib) (h : kheap) (e : call_env) (s : one_file) (passwd : bytes) (P : xparams)
    (verbose force : bool) : res (outcome one_file) :=
    _ <- assert_ (all_zero P || none_zero P) ;;
    ' (lb, ms, P, header, dk, rc) <-
      scryptenc_setup M cfg lb e P (scratch_bytes jk 96) (scratch_bytes jk 64) passwd verbose force ;;
    if negb (is_ok rc) then dk <- zero_dk dk ;; Ok (mk_oc rc lb ms P dk h s) else
    key_hmac <- rd dk 32 32 ;;
    hctx <- HMAC_SHA256_Init shw jk (hmac_junk jk) key_hmac ;;
    hctx <- HMAC_SHA256_Update shw jk hctx header ;;
    let s := of_fwrite header s in
    ' (h, a) <- start_aes M e h dk ;;
    match a with
    | inl rc => dk <- zero_dk dk ;; Ok (mk_oc rc lb ms P dk h s)
    | inr (ki, si, AES) =>
        ' (AES, hctx, s) <- sf_enc_loop (of_size s) AES hctx s ;;
        h <- kh_set si (Some (S_stream AES)) h ;;
        h <- crypto_aesctr_free si h ;;
        h <- crypto_aes_key_free ki h ;;
        ' (hbuf, _) <- HMAC_SHA256_Final shw jk hctx ;;
        let s := of_fwrite hbuf s in
        dk <- zero_dk dk ;;
        Ok (mk_oc SCRYPT_OK lb ms P dk h s)
    end.
  (* scryptenc.c:685-734 scryptdec_file_load_header *)
  Definition sf_load_header (s : one_file) : res (rcode * bytes * one_file) :=
    ' (h1, s) <- of_fread 7 s ;;
    if Nat.ltb (length h1) 7 then Ok (SCRYPT_EINVAL, [], s) else
    if negb (list_eqb (firstn 6 h1) magic) then Ok (SCRYPT_EINVAL, [], s) else
    if negb (sel h1 6 =? 0) then Ok (SCRYPT_EVERSION, [], s) else
    ' (h2, s) <- of_fread 89 s ;;
    if Nat.ltb (length h2) 89 then Ok (SCRYPT_EINVAL, [], s) else
    Ok (SCRYPT_OK, h1 ++ h2, s).
  (* scryptenc.c:746-782 scryptdec_file_prep *)
  Definition sf_scryptdec_file_prep (lb : lib) (h : kheap) (e : call_env) (s : one_file) (passwd : bytes) (P : xparams)
    (verbose force : bool) (C0 : option cookie) : res (outcome (option cookie * one_file)) :=
    _ <- assert_ (all_zero P) ;;
    if negb (v_cookie_mem e) then Ok (mk_oc SCRYPT_ENOMEM lb [] P [] h (C0, s)) else
    let '(ci, h) := kh_alloc (S_cookie (scratch_bytes jk 64)) h in
    ' (rc, header, s) <- sf_load_header s ;;
    if negb (is_ok rc) then h <- zero_free ci h ;; Ok (mk_oc rc lb [] P [] h (C0, s)) else
    ' (lb, ms, P, dk, rc) <- scryptdec_setup M cfg lb e P header (scratch_bytes jk 64) passwd verbose force ;;
    h <- kh_set ci (Some (S_cookie dk)) h ;;
    if negb (is_ok rc) then h <- zero_free ci h ;; Ok (mk_oc rc lb ms P [] h (C0, s)) else
    Ok (mk_oc SCRYPT_OK lb ms P [] h (Some (mk_cookie ci header dk), s)).
  (* scryptenc.c:828-855 *)
  Fixpoint sf_dec_loop (fuel : nat) (AES : ctr_stream) (hctx : hmac_ctx) (have : bytes) (s : one_file)
    : res (ctr_stream * hmac_ctx * bytes * one_file) :=
    match fuel with
    | O => UB
    | S f =>
        ' (d, s) <- of_fread (ENCBLOCK + 32 - length have) s ;;
        if Nat.eqb (length d) 0 then Ok (AES, hctx, have, s) else
        let buf := have ++ d in
        if Nat.leb (length buf) 32 then sf_dec_loop f AES hctx buf s else
        a <- rd buf 0 (length buf - 32) ;;
        hctx <- HMAC_SHA256_Update shw jk hctx a ;;
        ' (pt, AES) <- crypto_aesctr_stream (m_aes M) (m_hi M) AES a ;;
        tl <- rd buf (length buf - 32) 32 ;;
        sf_dec_loop f AES hctx tl (of_fwrite pt s)
    end.
  (* scryptenc.c:791-884 scryptdec_file_copy *)
  Definition sf_scryptdec_file_copy (h : kheap) (e : call_env) (C : option cookie) (s : one_file)
    : res (rcode * one_file * kheap) :=
    match C with
    | None => Abort
    | Some C =>
        key_hmac <- rd (ck_dk C) 32 32 ;;
        hctx <- HMAC_SHA256_Init shw jk (hmac_junk jk) key_hmac ;;
        hctx <- HMAC_SHA256_Update shw jk hctx (ck_header C) ;;
        ' (h, a) <- start_aes M e h (ck_dk C) ;;
        match a with
        | inl rc => Ok (rc, s, h)
        | inr (ki, si, AES) =>
            ' (AES, hctx, buf, s) <- sf_dec_loop (of_size s) AES hctx [] s ;;
            h <- kh_set si (Some (S_stream AES)) h ;;
            h <- crypto_aesctr_free si h ;;
            h <- crypto_aes_key_free ki h ;;
            if Nat.ltb (length buf) 32 then Ok (SCRYPT_EINVAL, s, h) else
            ' (hbuf, _) <- HMAC_SHA256_Final shw jk hctx ;;
            v <- crypto_verify_bytes hbuf buf 32 ;;
            Ok (if negb (v =? 0) then SCRYPT_EINVAL else SCRYPT_OK, s, h)
        end
    end.

  (** "scrypt enc f f" once the passphrase is known: the outcome, with the contents
      of the file afterwards.  main.c:124 (fopen infile), :159 (fopen outfile), :169
      scryptenc_file, :180-184 (fclose) *)
  Definition same_file_enc (lb : lib) (h : kheap) (e : call_env) (disk passwd : bytes) (P : xparams) (verbose force : bool) : res (outcome bytes) :=
    o <- sf_scryptenc_file lb h e (open_wb (open_rb disk)) passwd P verbose force ;;
    Ok (mk_oc (oc_rc o) (oc_lib o) (oc_msgs o) (oc_P o) (oc_dk o) (oc_heap o) (close_both (oc_val o))).
  (** "scrypt dec f f": main.c:124, :150 scryptdec_file_prep, :159 (only if that
      succeeded), :167 scryptdec_file_copy, :174 scryptdec_file_cookie_free, :180-184 *)
  Definition same_file_dec (lb : lib) (h : kheap) (e : call_env) (disk passwd : bytes) (P : xparams) (verbose force : bool) : res (outcome bytes) :=
    o <- sf_scryptdec_file_prep lb h e (open_rb disk) passwd P verbose force None ;;
    let '(C, s) := oc_val o in
    if negb (is_ok (oc_rc o)) then Ok (mk_oc (oc_rc o) (oc_lib o) (oc_msgs o) (oc_P o) [] (oc_heap o) (of_disk s)) else
    ' (rc, s, h) <- sf_scryptdec_file_copy (oc_heap o) e C (open_wb s) ;;
    h <- scryptdec_file_cookie_free C h ;;
    Ok (mk_oc rc (oc_lib o) (oc_msgs o) (oc_P o) [] h (close_both s)).
End SameFile.
