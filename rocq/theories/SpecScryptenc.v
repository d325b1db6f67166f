(** Vocabulary for the properties of scryptenc.h: when an input is acceptable,
    which codes belong to which failure, what is left in memory. *)
From Verif Require Import Base SpecBytes SpecSHA SpecScrypt SpecScryptAPI SpecAES SpecFormat SpecStream
  M_smix M_scrypt_sel P_scrypt M_sha256 M_entropy P_entropy M_machine M_cpuperf M_params M_stdio M_scryptenc.

(** The key derivation the code uses: RFC 7914 scrypt, up to p = 2^25 (see C19). *)
Notation kdf := scrypt_wrapping.

(** The explicit parameters r, p are C uint32_t. *)
Definition xp_ok (P : xparams) : Prop := x_r P < 2 ^ 32 /\ x_p P < 2 ^ 32.
(** Limits [lim] with the parameters of a header filled in, as reported back. *)
Definition P_of (lim : limits) (h : fhead) : xparams := mk_xp lim (Z.of_N (fh_logN h)) (fh_r h) (fh_p h).
(** The sizes needed by the key derivation are representable on this machine. *)
Definition computable (M : machine) (h : fhead) : Prop :=
  scrypt_valid (m_szb M) (2 ^ fh_logN h) (fh_r h) (fh_p h) 64.

(** The three integrity checks of FORMAT on a byte string. *)
Definition checksum_ok (f : bytes) : Prop := sub f 48 16 = firstn 16 (sha256 (firstn 48 f)).
Definition passphrase_ok (passwd f : bytes) : Prop :=
  sub f 64 32 = hmac (key_hmac kdf passwd (get_head f)) (firstn 64 f).
Definition trailer_ok (passwd f : bytes) : Prop :=
  skipn (length f - 32) f = hmac (key_hmac kdf passwd (get_head f)) (firstn (length f - 32) f).

(** The status of decrypting [f], checks in the documented order (resource
    checks disabled, no system failure) by the buffer form, which demands 128
    bytes up front; the stream form demands 96 up front and 32 at the end. *)
Inductive dec_class (M : machine) (passwd f : bytes) : rcode -> Prop :=
| DC_not_scrypt : (length f < 7)%nat \/ firstn 6 f <> fmt_magic -> dec_class M passwd f SCRYPT_EINVAL
| DC_version : (7 <= length f)%nat -> firstn 6 f = fmt_magic -> nth 6 f 0 <> 0 -> dec_class M passwd f SCRYPT_EVERSION
| DC_short : (7 <= length f < 128)%nat -> firstn 6 f = fmt_magic -> nth 6 f 0 = 0 -> dec_class M passwd f SCRYPT_EINVAL
| DC_checksum : (128 <= length f)%nat -> firstn 6 f = fmt_magic -> nth 6 f 0 = 0 -> ~ checksum_ok f ->
    dec_class M passwd f SCRYPT_EINVAL
| DC_params : (128 <= length f)%nat -> firstn 6 f = fmt_magic -> nth 6 f 0 = 0 -> checksum_ok f ->
    ~ fhead_ok (get_head f) -> dec_class M passwd f SCRYPT_EINVAL
| DC_key : (128 <= length f)%nat -> firstn 6 f = fmt_magic -> nth 6 f 0 = 0 -> checksum_ok f ->
    fhead_ok (get_head f) -> ~ computable M (get_head f) -> dec_class M passwd f SCRYPT_EKEY
| DC_pass : (128 <= length f)%nat -> firstn 6 f = fmt_magic -> nth 6 f 0 = 0 -> checksum_ok f ->
    fhead_ok (get_head f) -> computable M (get_head f) -> ~ passphrase_ok passwd f -> dec_class M passwd f SCRYPT_EPASS
| DC_trailer : (128 <= length f)%nat -> firstn 6 f = fmt_magic -> nth 6 f 0 = 0 -> checksum_ok f ->
    fhead_ok (get_head f) -> computable M (get_head f) -> passphrase_ok passwd f -> ~ trailer_ok passwd f ->
    dec_class M passwd f SCRYPT_EINVAL
| DC_ok : (128 <= length f)%nat -> firstn 6 f = fmt_magic -> nth 6 f 0 = 0 -> checksum_ok f ->
    fhead_ok (get_head f) -> computable M (get_head f) -> passphrase_ok passwd f -> trailer_ok passwd f ->
    dec_class M passwd f SCRYPT_OK.

(** Codes of a failed resource estimate, of exceeded limits, of a failed
    encryption set-up, and of AES set-up. *)
Definition param_codes : list rcode := [SCRYPT_ELIMIT; SCRYPT_ECLOCK; SCRYPT_EKEY].
Definition limit_codes : list rcode := [SCRYPT_ETOOBIG; SCRYPT_ETOOSLOW; SCRYPT_EBIGSLOW].
Definition enc_codes : list rcode := SCRYPT_EPARAM :: SCRYPT_ESALT :: param_codes.
Definition aes_codes : list rcode := [SCRYPT_EOPENSSL; SCRYPT_ENOMEM].
(** Which of the two allocations of the AES set-up fails first. *)
Definition aes_rc (e : call_env) : rcode := if v_key_mem e then SCRYPT_ENOMEM else SCRYPT_EOPENSSL.

(** Addresses of live key objects are below the next one to be handed out. *)
Definition heap_ok (h : kheap) : Prop := Forall (fun o => (fst o < kh_next h)%nat) (kh_live h).
(** [h'] arises from [h] without any key object left live, and everything
    given back to the allocator in between was zeroed first. *)
Definition heap_clean (h h' : kheap) : Prop :=
  heap_ok h' /\ kh_live h' = kh_live h /\ exists k, kh_released h' = repeat None k ++ kh_released h.

(** Nothing in the environment of a call fails. *)
Definition no_failure (e : call_env) : Prop :=
  v_kdf2 e = mk_alloc true true true true /\ v_kdf e = mk_alloc true true true true /\
  v_key_mem e = true /\ v_ctr_mem e = true /\ v_cookie_mem e = true /\
  pv_al1 (v_params e) = true /\ pv_al2 (v_params e) = true.

(** The situation in which an entry point is called: a size_t of 32 or 64
    bits, a passphrase of bytes, a consistent heap; for encryption also an
    environment delivering bytes and an initialised or reset generator. *)
Record dec_ready (M : machine) (hp : kheap) (passwd : bytes) : Prop := mk_dec_ready {
  dr_size : size_bits (m_szb M); dr_passwd : bytes_ok passwd; dr_heap : heap_ok hp }.
Record enc_ready (M : machine) (lb : lib) (hp : kheap) (e : call_env) (passwd : bytes) (P : xparams) : Prop := mk_enc_ready {
  er_dec : dec_ready M hp passwd; er_params : xp_ok P; er_env : env_bytes (v_ent e); er_drbg : drbg_inv (lb_drbg lb) }.
(** Input data that fits into memory / a file. *)
Definition data_ok (d : bytes) : Prop := bytes_ok d /\ N.of_nat (length d) < 2 ^ 64.
(** An input stream whose data (errors disregarded) is such data. *)
Definition instream_ok (fi : instream) : Prop := input_ok fi /\ N.of_nat (length (stream_data (no_errors fi))) < 2 ^ 64.
(** A status is returned because of the environment rather than the input:
    resource limits, or a failing system facility. *)
Definition env_codes : list rcode :=
  [SCRYPT_ELIMIT; SCRYPT_ECLOCK; SCRYPT_EKEY; SCRYPT_EOPENSSL; SCRYPT_ENOMEM; SCRYPT_ETOOBIG; SCRYPT_ETOOSLOW; SCRYPT_EBIGSLOW; SCRYPT_EWRFILE; SCRYPT_ERDFILE].

(** The same for the stream form: it agrees outside 96 .. 127 bytes; there it
    looks at the complete header before it notices that the file is too short. *)
Inductive dec_class_stream (M : machine) (passwd f : bytes) : rcode -> Prop :=
| DCS_same rc : (length f < 96 \/ 128 <= length f)%nat -> dec_class M passwd f rc -> dec_class_stream M passwd f rc
| DCS_not_scrypt : (96 <= length f < 128)%nat -> firstn 6 f <> fmt_magic -> dec_class_stream M passwd f SCRYPT_EINVAL
| DCS_version : (96 <= length f < 128)%nat -> firstn 6 f = fmt_magic -> nth 6 f 0 <> 0 -> dec_class_stream M passwd f SCRYPT_EVERSION
| DCS_checksum : (96 <= length f < 128)%nat -> firstn 6 f = fmt_magic -> nth 6 f 0 = 0 -> ~ checksum_ok f ->
    dec_class_stream M passwd f SCRYPT_EINVAL
| DCS_params : (96 <= length f < 128)%nat -> firstn 6 f = fmt_magic -> nth 6 f 0 = 0 -> checksum_ok f ->
    ~ fhead_ok (get_head f) -> dec_class_stream M passwd f SCRYPT_EINVAL
| DCS_key : (96 <= length f < 128)%nat -> firstn 6 f = fmt_magic -> nth 6 f 0 = 0 -> checksum_ok f ->
    fhead_ok (get_head f) -> ~ computable M (get_head f) -> dec_class_stream M passwd f SCRYPT_EKEY
| DCS_pass : (96 <= length f < 128)%nat -> firstn 6 f = fmt_magic -> nth 6 f 0 = 0 -> checksum_ok f ->
    fhead_ok (get_head f) -> computable M (get_head f) -> ~ passphrase_ok passwd f -> dec_class_stream M passwd f SCRYPT_EPASS
| DCS_short : (96 <= length f < 128)%nat -> firstn 6 f = fmt_magic -> nth 6 f 0 = 0 -> checksum_ok f ->
    fhead_ok (get_head f) -> computable M (get_head f) -> passphrase_ok passwd f -> dec_class_stream M passwd f SCRYPT_EINVAL.
