(** Model of lib/scryptenc/scryptenc.c:229-925. *)
From Flocq Require Import IEEE754.BinarySingleNaN.
From Verif Require Import Base M_endian M_sha256_tr M_simd M_sha256_hw M_sha256 M_smix M_scrypt_sel M_aes_hw M_aesctr
  M_verify M_entropy M_machine M_double M_memlimit M_cpuperf M_humansize M_params M_stdio.

(** Static state of the library: the selected mixing routine and the random
    number generator. *)
Record lib := mk_lib { lb_smix : smix_state; lb_drbg : drbg }.
(** What the system does during one call: parameter environment, entropy,
    allocations inside crypto_scrypt (two self-tests and the derivation) and of
    the AES key, the AES-CTR stream and the cookie. *)
Record call_env := mk_env {
  v_params : params_env; v_ent : ent_env;
  v_kdf1 : alloc_env; v_kdf2 : alloc_env; v_kdf : alloc_env;
  v_key_mem : bool; v_ctr_mem : bool; v_cookie_mem : bool }.
(* scryptenc.h:58-66 struct scryptenc_params *)
Record xparams := mk_xp { x_lim : limits; x_logN : Z; x_r : N; x_p : N }.
(** Messages printed. *)
Inductive msg := Msg_params (m : params_msg) | Msg_warn_mem | Msg_warn_time.
(* the message of display_params (scryptenc.c:70-99) if it was called *)
Definition opt_msg (o : option params_msg) : list msg := match o with Some m => [Msg_params m] | None => [] end.
(** Heap objects holding key material. *)
Inductive secret := S_key (k : aes_key) | S_stream (st : ctr_stream) | S_cookie (dk : bytes).
(** The part of the heap that holds key material: the live objects (by address;
    None: zeroed contents) and the contents of the objects that were given back
    to the allocator, latest first. *)
Record kheap := mk_kh { kh_next : nat; kh_live : list (nat * option secret); kh_released : list (option secret) }.
(* malloc of an object that will hold a key *)
Definition kh_alloc (s : secret) (h : kheap) : nat * kheap :=
  (kh_next h, mk_kh (S (kh_next h)) ((kh_next h, Some s) :: kh_live h) (kh_released h)).
(* what a live object holds *)
Fixpoint kh_find (i : nat) (l : list (nat * option secret)) : option (option secret) :=
  match l with
  | [] => None
  | (j, c) :: t => if Nat.eqb i j then Some c else kh_find i t
  end.
(** Write to an object: undefined if it is not allocated. *)
Definition kh_set (i : nat) (c : option secret) (h : kheap) : res kheap :=
  match kh_find i (kh_live h) with
  | None => UB
  | Some _ => Ok (mk_kh (kh_next h) (map (fun o => if Nat.eqb i (fst o) then (i, c) else o) (kh_live h)) (kh_released h))
  end.
(** free(): undefined if it is not allocated (double free). *)
Definition kh_free (i : nat) (h : kheap) : res kheap :=
  match kh_find i (kh_live h) with
  | None => UB
  | Some c => Ok (mk_kh (kh_next h) (filter (fun o => negb (Nat.eqb i (fst o))) (kh_live h)) (c :: kh_released h))
  end.
(* libcperciva/crypto/crypto_aes.c:304-336 crypto_aes_key_free, crypto_aes_aesni.c:243-257,
   crypto_aes_arm.c:296-309, crypto_aesctr.c:210-223 crypto_aesctr_free, scryptenc.c:667-682
   scryptdec_file_cookie_free: insecure_memzero(object, size); free(object) *)
Definition zero_free (i : nat) (h : kheap) : res kheap := h <- kh_set i None h ;; kh_free i h.
(* crypto_aes.c:323-336 crypto_aes_key_free *)
Definition crypto_aes_key_free := zero_free.
(* crypto_aesctr.c:206-223 crypto_aesctr_free *)
Definition crypto_aesctr_free := zero_free.

(** How a call ends: status, library state, messages, *params, the contents of
    the stack array dk, the heap, and its output. *)
Record outcome (A : Type) := mk_oc {
  oc_rc : rcode; oc_lib : lib; oc_msgs : list msg; oc_P : xparams;
  oc_dk : bytes; oc_heap : kheap; oc_val : A }.
Arguments mk_oc {A}. Arguments oc_rc {A}. Arguments oc_lib {A}. Arguments oc_msgs {A}. Arguments oc_P {A}.
Arguments oc_dk {A}. Arguments oc_heap {A}. Arguments oc_val {A}.

(* scryptenc.c:52 *)
Definition ENCBLOCK : nat := N.to_nat 65536.
(** "scrypt" *)
Definition magic : bytes := [115; 99; 114; 121; 112; 116].
(* rc == SCRYPT_OK *)
Definition is_ok (rc : rcode) : bool := rcode_eqb rc SCRYPT_OK.
(** ((logN == 0) && (r == 0) && (p == 0)) and its counterpart, as asserted *)
Definition all_zero (P : xparams) : bool := (x_logN P =? 0)%Z && (x_r P =? 0) && (x_p P =? 0).
(* scryptenc.c:431-432, 594-595: assert((P->logN != 0) && (P->r != 0) && (P->p != 0)) *)
Definition none_zero (P : xparams) : bool := negb (x_logN P =? 0)%Z && negb (x_r P =? 0) && negb (x_p P =? 0).

Section Scryptenc.
  Context (M : machine) (cfg : clk_cfg).
  (* the SHA-256 transform in use *)
  Definition shw := m_sha M.
  (* the content of uninitialised memory *)
  Definition jk := m_junk M.
  (** Uninitialised memory for the expanded key and the stream. *)
  Definition key_old : list bytes := repeat (scratch_bytes jk 16) 15.
  (* Uninitialised memory for the stream (crypto_aesctr.c:38-43 pblk/buf) *)
  Definition ctr_old : bytes := scratch_bytes jk 16.

  (** SHA256_Init; SHA256_Update; SHA256_Final on a local context. *)
  Definition sha_once (m : bytes) : res bytes :=
    ctx <- SHA256_Update shw jk (SHA256_Init (sha_junk jk)) m ;;
    ' (h, _) <- SHA256_Final shw jk ctx ;; Ok h.
  (** HMAC_SHA256_Init; HMAC_SHA256_Update; HMAC_SHA256_Final on a local context. *)
  Definition hmac_once (K m : bytes) : res bytes :=
    ctx <- HMAC_SHA256_Init shw jk (hmac_junk jk) K ;;
    ctx <- HMAC_SHA256_Update shw jk ctx m ;;
    ' (h, _) <- HMAC_SHA256_Final shw jk ctx ;; Ok h.

  (* scryptenc.c:245-278: determine parameters *)
  Definition setup_params (lb : lib) (e : call_env) (P : xparams) (verbose force : bool)
    : res (lib * list msg * xparams * rcode) :=
    if negb (x_logN P =? 0)%Z then
      ' (sst, m, rc) <- checkparams M cfg (lb_smix lb) (v_params e) (x_lim P) (x_logN P) (x_r P) (x_p P) verbose force ;;
      let lb := mk_lib sst (lb_drbg lb) in
      let w1 := if rcode_eqb rc SCRYPT_ETOOBIG || rcode_eqb rc SCRYPT_EBIGSLOW then [Msg_warn_mem] else [] in
      let w2 := if rcode_eqb rc SCRYPT_ETOOSLOW || rcode_eqb rc SCRYPT_EBIGSLOW then [Msg_warn_time] else [] in
      let rc := if rcode_eqb rc SCRYPT_ETOOBIG || rcode_eqb rc SCRYPT_ETOOSLOW || rcode_eqb rc SCRYPT_EBIGSLOW
                then SCRYPT_OK else rc in
      let rc := if rcode_eqb rc SCRYPT_EINVAL then SCRYPT_EPARAM else rc in
      Ok (lb, opt_msg m ++ w1 ++ w2, P, rc)
    else
      ' (sst, m, r) <- pickparams M cfg (lb_smix lb) (v_params e) (x_lim P) verbose ;;
      let lb := mk_lib sst (lb_drbg lb) in
      match r with
      | inl rc => Ok (lb, opt_msg m, P, rc)
      | inr (l, r, p) => Ok (lb, opt_msg m, mk_xp (x_lim P) (Z.of_N l) r p, SCRYPT_OK)
      end.
  (** crypto_scrypt(passwd, passwdlen, salt, 32, N, r, p, dk, 64) *)
  Definition derive (lb : lib) (e : call_env) (passwd salt : bytes) (N_ r p : N) (dk : bytes)
    : res (bool * bytes * lib) :=
    ' (rc, dk, sst) <- m_crypto_scrypt M (lb_smix lb)
                         (mk_call (v_kdf1 e) (v_kdf2 e) (v_kdf e) passwd salt N_ r p dk 64) ;;
    Ok (match rc with SC_OK => true | _ => false end, dk, mk_lib sst (lb_drbg lb)).
  (* scryptenc.c:292-309: construct the file header *)
  Definition build_header (header dk salt : bytes) (logN : Z) (r p : N) : res bytes :=
    header <- wr header 0 magic ;;
    header <- wr header 6 [0] ;;
    header <- wr header 7 [N.land (Z.to_N logN) 0xff] ;;
    header <- wr header 8 (be32enc r) ;;
    header <- wr header 12 (be32enc p) ;;
    header <- wr header 16 salt ;;
    m <- rd header 0 48 ;;
    hbuf <- sha_once m ;;
    h16 <- rd hbuf 0 16 ;;
    header <- wr header 48 h16 ;;
    key_hmac <- rd dk 32 32 ;;
    m <- rd header 0 64 ;;
    hbuf <- hmac_once key_hmac m ;;
    wr header 64 hbuf.
  (* scryptenc.c:233-313 scryptenc_setup *)
  Definition scryptenc_setup (lb : lib) (e : call_env) (P : xparams) (header dk passwd : bytes) (verbose force : bool)
    : res (lib * list msg * xparams * bytes * bytes * rcode) :=
    ' (lb, ms, P, rc) <- setup_params lb e P verbose force ;;
    if negb (is_ok rc) then Ok (lb, ms, P, header, dk, rc) else
    _ <- assert_ ((0 <? x_logN P)%Z && (x_logN P <? 64)%Z) ;;
    let N_ := w64 (N.shiftl 1 (Z.to_N (x_logN P))) in
    ' (s, d) <- crypto_entropy_read shw jk (v_ent e) (lb_drbg lb) 32 ;;
    let lb := mk_lib (lb_smix lb) d in
    match s with
    | None => Ok (lb, ms, P, header, dk, SCRYPT_ESALT)
    | Some salt =>
        ' (ok, dk, lb) <- derive lb e passwd salt N_ (x_r P) (x_p P) dk ;;
        if negb ok then Ok (lb, ms, P, header, dk, SCRYPT_EKEY) else
        header <- build_header header dk salt (x_logN P) (x_r P) (x_p P) ;;
        Ok (lb, ms, P, header, dk, SCRYPT_OK)
    end.
  (* scryptenc.c:352-402 scryptdec_setup *)
  Definition scryptdec_setup (lb : lib) (e : call_env) (P : xparams) (header dk passwd : bytes) (verbose force : bool)
    : res (lib * list msg * xparams * bytes * rcode) :=
    b7 <- rd header 7 1 ;;
    b8 <- rd header 8 4 ;;
    b12 <- rd header 12 4 ;;
    let P := mk_xp (x_lim P) (Z.of_N (sel b7 0)) (be32dec b8) (be32dec b12) in
    salt <- rd header 16 32 ;;
    m <- rd header 0 48 ;;
    hbuf <- sha_once m ;;
    c <- rd header 48 16 ;;
    v <- crypto_verify_bytes c hbuf 16 ;;
    if negb (v =? 0) then Ok (lb, [], P, dk, SCRYPT_EINVAL) else
    ' (sst, m, rc) <- checkparams M cfg (lb_smix lb) (v_params e) (x_lim P) (x_logN P) (x_r P) (x_p P) verbose force ;;
    let lb := mk_lib sst (lb_drbg lb) in
    if negb (is_ok rc) then Ok (lb, opt_msg m, P, dk, rc) else
    let N_ := w64 (N.shiftl 1 (Z.to_N (x_logN P))) in
    ' (ok, dk, lb) <- derive lb e passwd salt N_ (x_r P) (x_p P) dk ;;
    if negb ok then Ok (lb, opt_msg m, P, dk, SCRYPT_EKEY) else
    key_hmac <- rd dk 32 32 ;;
    h64 <- rd header 0 64 ;;
    hbuf <- hmac_once key_hmac h64 ;;
    sig <- rd header 64 32 ;;
    v <- crypto_verify_bytes hbuf sig 32 ;;
    if negb (v =? 0) then Ok (lb, opt_msg m, P, dk, SCRYPT_EPASS) else
    Ok (lb, opt_msg m, P, dk, SCRYPT_OK).

  (** crypto_aes_key_expand(key_enc, 32) and crypto_aesctr_init(key_enc_exp, 0) as
      used by all four functions; inr: addresses of the key and of the stream, and the
      stream *)
  Definition start_aes (e : call_env) (h : kheap) (dk : bytes) : res (kheap * (rcode + (nat * nat * ctr_stream))) :=
    key_enc <- rd dk 0 32 ;;
    k <- crypto_aes_key_expand (m_aes M) (v_key_mem e) key_old key_enc 32 ;;
    match k with
    | None => Ok (h, inl SCRYPT_EOPENSSL)
    | Some key_enc_exp =>
        let '(ki, h) := kh_alloc (S_key key_enc_exp) h in
        s <- crypto_aesctr_init (v_ctr_mem e) ctr_old ctr_old key_enc_exp 0 ;;
        match s with
        | None => h <- crypto_aes_key_free ki h ;; Ok (h, inl SCRYPT_ENOMEM)
        | Some AES => let '(si, h) := kh_alloc (S_stream AES) h in Ok (h, inr (ki, si, AES))
        end
    end.
  (** insecure_memzero(dk, 64) *)
  Definition zero_dk (dk : bytes) : res bytes := wr dk 0 (repeat 0 64).

  (* scryptenc.c:415-473 scryptenc_buf *)
  Definition scryptenc_buf (lb : lib) (h : kheap) (e : call_env) (inbuf outbuf passwd : bytes) (P : xparams) (verbose force : bool)
    : res (outcome bytes) :=
    _ <- assert_ (all_zero P || none_zero P) ;;
    ' (lb, ms, P, header, dk, rc) <-
      scryptenc_setup lb e P (scratch_bytes jk 96) (scratch_bytes jk 64) passwd verbose force ;;
    if negb (is_ok rc) then dk <- zero_dk dk ;; Ok (mk_oc rc lb ms P dk h outbuf) else
    outbuf <- wr outbuf 0 header ;;
    ' (h, a) <- start_aes e h dk ;;
    match a with
    | inl rc => dk <- zero_dk dk ;; Ok (mk_oc rc lb ms P dk h outbuf)
    | inr (ki, si, AES) =>
        ' (ct, AES) <- crypto_aesctr_stream (m_aes M) (m_hi M) AES inbuf ;;
        h <- kh_set si (Some (S_stream AES)) h ;;
        outbuf <- wr outbuf 96 ct ;;
        h <- crypto_aesctr_free si h ;;
        h <- crypto_aes_key_free ki h ;;
        key_hmac <- rd dk 32 32 ;;
        m <- rd outbuf 0 (96 + length inbuf) ;;
        hbuf <- hmac_once key_hmac m ;;
        outbuf <- wr outbuf (96 + length inbuf) hbuf ;;
        dk <- zero_dk dk ;;
        Ok (mk_oc SCRYPT_OK lb ms P dk h outbuf)
    end.
  (* scryptenc.c:485-564 scryptdec_buf; the output is (outbuf, *outlen) *)
  Definition scryptdec_buf (lb : lib) (h : kheap) (e : call_env) (inbuf outbuf : bytes) (outlen : N) (passwd : bytes) (P : xparams)
    (verbose force : bool) : res (outcome (bytes * N)) :=
    _ <- assert_ (all_zero P) ;;
    let inbuflen := length inbuf in
    let dk0 := scratch_bytes jk 64 in
    if Nat.ltb inbuflen 7 then Ok (mk_oc SCRYPT_EINVAL lb [] P dk0 h (outbuf, outlen)) else
    m6 <- rd inbuf 0 6 ;;
    if negb (list_eqb m6 magic) then Ok (mk_oc SCRYPT_EINVAL lb [] P dk0 h (outbuf, outlen)) else
    v <- rd inbuf 6 1 ;;
    if negb (sel v 0 =? 0) then Ok (mk_oc SCRYPT_EVERSION lb [] P dk0 h (outbuf, outlen)) else
    if Nat.ltb inbuflen 128 then Ok (mk_oc SCRYPT_EINVAL lb [] P dk0 h (outbuf, outlen)) else
    ' (lb, ms, P, dk, rc) <- scryptdec_setup lb e P inbuf dk0 passwd verbose force ;;
    if negb (is_ok rc) then dk <- zero_dk dk ;; Ok (mk_oc rc lb ms P dk h (outbuf, outlen)) else
    ' (h, a) <- start_aes e h dk ;;
    match a with
    | inl rc => dk <- zero_dk dk ;; Ok (mk_oc rc lb ms P dk h (outbuf, outlen))
    | inr (ki, si, AES) =>
        ct <- rd inbuf 96 (inbuflen - 128) ;;
        ' (pt, AES) <- crypto_aesctr_stream (m_aes M) (m_hi M) AES ct ;;
        h <- kh_set si (Some (S_stream AES)) h ;;
        outbuf <- wr outbuf 0 pt ;;
        h <- crypto_aesctr_free si h ;;
        h <- crypto_aes_key_free ki h ;;
        let outlen := N.of_nat (inbuflen - 128) in
        key_hmac <- rd dk 32 32 ;;
        m <- rd inbuf 0 (inbuflen - 32) ;;
        hbuf <- hmac_once key_hmac m ;;
        sig <- rd inbuf (inbuflen - 32) 32 ;;
        v <- crypto_verify_bytes hbuf sig 32 ;;
        let rc := if negb (v =? 0) then SCRYPT_EINVAL else SCRYPT_OK in
        dk <- zero_dk dk ;;
        Ok (mk_oc rc lb ms P dk h (outbuf, outlen))
    end.

  (* scryptenc.c:623-636: do { ... } while (1).  true: ended by fread returning 0;
     false: by a short write. *)
  Fixpoint enc_loop (fuel : nat) (AES : ctr_stream) (hctx : hmac_ctx) (fi : instream) (fo : outstream)
    : res (bool * ctr_stream * hmac_ctx * instream * outstream) :=
    match fuel with
    | O => UB
    | S f =>
        let '(buf, fi) := fread1 ENCBLOCK fi in
        if Nat.eqb (length buf) 0 then Ok (true, AES, hctx, fi, fo) else
        ' (buf, AES) <- crypto_aesctr_stream (m_aes M) (m_hi M) AES buf ;;
        hctx <- HMAC_SHA256_Update shw jk hctx buf ;;
        let '(ok, fo) := fwrite buf fo in
        if negb ok then Ok (false, AES, hctx, fi, fo) else
        enc_loop f AES hctx fi fo
    end.
  (* scryptenc.c:576-661 scryptenc_file *)
  Definition scryptenc_file (lb : lib) (h : kheap) (e : call_env) (fi : instream) (fo : outstream) (passwd : bytes) (P : xparams)
    (verbose force : bool) : res (outcome (instream * outstream)) :=
    _ <- assert_ (all_zero P || none_zero P) ;;
    ' (lb, ms, P, header, dk, rc) <-
      scryptenc_setup lb e P (scratch_bytes jk 96) (scratch_bytes jk 64) passwd verbose force ;;
    if negb (is_ok rc) then dk <- zero_dk dk ;; Ok (mk_oc rc lb ms P dk h (fi, fo)) else
    key_hmac <- rd dk 32 32 ;;
    hctx <- HMAC_SHA256_Init shw jk (hmac_junk jk) key_hmac ;;
    hctx <- HMAC_SHA256_Update shw jk hctx header ;;
    let '(ok, fo) := fwrite header fo in
    if negb ok then dk <- zero_dk dk ;; Ok (mk_oc SCRYPT_EWRFILE lb ms P dk h (fi, fo)) else
    ' (h, a) <- start_aes e h dk ;;
    match a with
    | inl rc => dk <- zero_dk dk ;; Ok (mk_oc rc lb ms P dk h (fi, fo))
    | inr (ki, si, AES) =>
        ' (eof, AES, hctx, fi, fo) <- enc_loop (in_size fi) AES hctx fi fo ;;
        h <- kh_set si (Some (S_stream AES)) h ;;
        if negb eof then
          h <- crypto_aesctr_free si h ;;
          dk <- zero_dk dk ;; Ok (mk_oc SCRYPT_EWRFILE lb ms P dk h (fi, fo))
        else
        h <- crypto_aesctr_free si h ;;
        h <- crypto_aes_key_free ki h ;;
        if ferror fi then dk <- zero_dk dk ;; Ok (mk_oc SCRYPT_ERDFILE lb ms P dk h (fi, fo)) else
        ' (hbuf, _) <- HMAC_SHA256_Final shw jk hctx ;;
        let '(ok, fo) := fwrite hbuf fo in
        dk <- zero_dk dk ;;
        Ok (mk_oc (if ok then SCRYPT_OK else SCRYPT_EWRFILE) lb ms P dk h (fi, fo))
    end.

  (* scryptenc.c:685-734 scryptdec_file_load_header: status, header read, stream *)
  Definition load_header (fi : instream) : rcode * bytes * instream :=
    let '(h1, ok, fi) := fread_n 7 fi in
    if negb ok then (if ferror fi then SCRYPT_ERDFILE else SCRYPT_EINVAL, [], fi) else
    if negb (list_eqb (firstn 6 h1) magic) then (SCRYPT_EINVAL, [], fi) else
    if negb (sel h1 6 =? 0) then (SCRYPT_EVERSION, [], fi) else
    let '(h2, ok, fi) := fread_n 89 fi in
    if negb ok then (if ferror fi then SCRYPT_ERDFILE else SCRYPT_EINVAL, [], fi) else
    (SCRYPT_OK, h1 ++ h2, fi).
  (* scryptenc.c:319-346 scryptdec_file_printparams *)
  Definition scryptdec_file_printparams (al1 al2 : bool) (fi : instream) : res (rcode * list msg * instream) :=
    let '(rc, header, fi) := load_header fi in
    if negb (is_ok rc) then Ok (rc, [], fi) else
    b7 <- rd header 7 1 ;;
    b8 <- rd header 8 4 ;;
    b12 <- rd header 12 4 ;;
    m <- display_params al1 al2 (Z.of_N (sel b7 0)) (be32dec b8) (be32dec b12) 0 d0 d0 ;;
    Ok (SCRYPT_OK, [Msg_params m], fi).
  (* scryptenc.c:64-68 struct scryptdec_file_cookie (without the FILE pointer), with
     its address *)
  Record cookie := mk_cookie { ck_addr : nat; ck_header : bytes; ck_dk : bytes }.
  (* scryptenc.c:667-682 scryptdec_file_cookie_free; None: NULL *)
  Definition scryptdec_file_cookie_free (C : option cookie) (h : kheap) : res kheap :=
    match C with None => Ok h | Some C => zero_free (ck_addr C) h end.
  (* scryptenc.c:746-782 scryptdec_file_prep.  The output is *cookie ([C0] before)
     and the stream. *)
  Definition scryptdec_file_prep (lb : lib) (h : kheap) (e : call_env) (fi : instream) (passwd : bytes) (P : xparams)
    (verbose force : bool) (C0 : option cookie) : res (outcome (option cookie * instream)) :=
    _ <- assert_ (all_zero P) ;;
    if negb (v_cookie_mem e) then Ok (mk_oc SCRYPT_ENOMEM lb [] P [] h (C0, fi)) else
    let '(ci, h) := kh_alloc (S_cookie (scratch_bytes jk 64)) h in
    let '(rc, header, fi) := load_header fi in
    if negb (is_ok rc) then h <- zero_free ci h ;; Ok (mk_oc rc lb [] P [] h (C0, fi)) else
    ' (lb, ms, P, dk, rc) <- scryptdec_setup lb e P header (scratch_bytes jk 64) passwd verbose force ;;
    h <- kh_set ci (Some (S_cookie dk)) h ;;
    if negb (is_ok rc) then h <- zero_free ci h ;; Ok (mk_oc rc lb ms P [] h (C0, fi)) else
    Ok (mk_oc SCRYPT_OK lb ms P [] h (Some (mk_cookie ci header dk), fi)).
  (* scryptenc.c:828-855: the loop of scryptdec_file_copy.  [have]: the first buflen
     bytes of buf. *)
  Fixpoint dec_loop (fuel : nat) (AES : ctr_stream) (hctx : hmac_ctx) (have : bytes) (fi : instream) (fo : outstream)
    : res (bool * ctr_stream * hmac_ctx * bytes * instream * outstream) :=
    match fuel with
    | O => UB
    | S f =>
        let '(d, fi) := fread1 (ENCBLOCK + 32 - length have) fi in
        if Nat.eqb (length d) 0 then Ok (true, AES, hctx, have, fi, fo) else
        let buf := have ++ d in
        if Nat.leb (length buf) 32 then dec_loop f AES hctx buf fi fo else
        a <- rd buf 0 (length buf - 32) ;;
        hctx <- HMAC_SHA256_Update shw jk hctx a ;;
        ' (pt, AES) <- crypto_aesctr_stream (m_aes M) (m_hi M) AES a ;;
        let '(ok, fo) := fwrite pt fo in
        if negb ok then Ok (false, AES, hctx, buf, fi, fo) else
        tl <- rd buf (length buf - 32) 32 ;;
        dec_loop f AES hctx tl fi fo
    end.
  (* scryptenc.c:791-884 scryptdec_file_copy: status, streams, heap *)
  Definition scryptdec_file_copy (h : kheap) (e : call_env) (C : option cookie) (fi : instream) (fo : outstream)
    : res (rcode * instream * outstream * kheap) :=
    match C with
    | None => Abort                                  (* assert(C != NULL) *)
    | Some C =>
        key_hmac <- rd (ck_dk C) 32 32 ;;
        hctx <- HMAC_SHA256_Init shw jk (hmac_junk jk) key_hmac ;;
        hctx <- HMAC_SHA256_Update shw jk hctx (ck_header C) ;;
        ' (h, a) <- start_aes e h (ck_dk C) ;;
        match a with
        | inl rc => Ok (rc, fi, fo, h)
        | inr (ki, si, AES) =>
            ' (eof, AES, hctx, buf, fi, fo) <- dec_loop (in_size fi) AES hctx [] fi fo ;;
            h <- kh_set si (Some (S_stream AES)) h ;;
            if negb eof then h <- crypto_aesctr_free si h ;; Ok (SCRYPT_EWRFILE, fi, fo, h) else
            h <- crypto_aesctr_free si h ;;
            h <- crypto_aes_key_free ki h ;;
            if ferror fi then Ok (SCRYPT_ERDFILE, fi, fo, h) else
            if Nat.ltb (length buf) 32 then Ok (SCRYPT_EINVAL, fi, fo, h) else
            ' (hbuf, _) <- HMAC_SHA256_Final shw jk hctx ;;
            v <- crypto_verify_bytes hbuf buf 32 ;;
            Ok (if negb (v =? 0) then SCRYPT_EINVAL else SCRYPT_OK, fi, fo, h)
        end
    end.
  (* scryptenc.c:894-925 scryptdec_file *)
  Definition scryptdec_file (lb : lib) (h : kheap) (e : call_env) (fi : instream) (fo : outstream) (passwd : bytes)
    (P : xparams) (verbose force : bool) : res (outcome (instream * outstream)) :=
    _ <- assert_ (all_zero P) ;;
    o <- scryptdec_file_prep lb h e fi passwd P verbose force None ;;
    let '(C, fi) := oc_val o in
    if negb (is_ok (oc_rc o)) then Ok (mk_oc (oc_rc o) (oc_lib o) (oc_msgs o) (oc_P o) [] (oc_heap o) (fi, fo)) else
    ' (rc, fi, fo, h) <- scryptdec_file_copy (oc_heap o) e C fi fo ;;
    (* both paths end with scryptdec_file_cookie_free(C) *)
    h <- scryptdec_file_cookie_free C h ;;
    Ok (mk_oc rc (oc_lib o) (oc_msgs o) (oc_P o) [] h (fi, fo)).
End Scryptenc.
