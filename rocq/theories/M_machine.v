(** The machine and build a model run is about, and the SCRYPT_* codes. *)
From Verif Require Import Base M_endian M_sha256_tr M_simd M_sha256_hw M_sha256 M_smix M_scrypt_sel M_aes_hw M_aesctr.

(** [m_szb]: width of size_t; [m_sha], [m_aes]: which SHA-256 / AES code is in
    use; [m_hi]: the undefined upper half after an 8-byte vector load;
    [m_junk]: contents of uninitialised memory; [m_sse2_built], [m_sse2_cpu]:
    SSE2 compiled in / reported by the CPU. *)
Record machine := mk_machine {
  m_szb : N; m_sha : sha_hw; m_aes : aes_hw; m_hi : bytes; m_junk : nat -> N;
  m_sse2_built : bool; m_sse2_cpu : bool }.

(** crypto_scrypt (lib-platform/crypto/crypto_scrypt.c:246-257) on that machine. *)
Definition m_crypto_scrypt (M : machine) : smix_state -> scrypt_call -> res (scrypt_rc * bytes * smix_state) :=
  crypto_scrypt (m_szb M) (m_sha M) (m_junk M) (m_sse2_built M) (m_sse2_cpu M)
    crypto_scrypt_smix_sse2 crypto_scrypt_smix.

(* lib/scryptenc/scryptenc.h:76-91 *)
Inductive rcode :=
| SCRYPT_OK | SCRYPT_ELIMIT | SCRYPT_ECLOCK | SCRYPT_EKEY | SCRYPT_ESALT | SCRYPT_EOPENSSL
| SCRYPT_ENOMEM | SCRYPT_EINVAL | SCRYPT_EVERSION | SCRYPT_ETOOBIG | SCRYPT_ETOOSLOW
| SCRYPT_EPASS | SCRYPT_EWRFILE | SCRYPT_ERDFILE | SCRYPT_EPARAM | SCRYPT_EBIGSLOW.
(* rc1 == rc2 (scryptenc.h return codes) *)
Definition rcode_eqb (a b : rcode) : bool :=
  match a, b with
  | SCRYPT_OK, SCRYPT_OK | SCRYPT_ELIMIT, SCRYPT_ELIMIT | SCRYPT_ECLOCK, SCRYPT_ECLOCK
  | SCRYPT_EKEY, SCRYPT_EKEY | SCRYPT_ESALT, SCRYPT_ESALT | SCRYPT_EOPENSSL, SCRYPT_EOPENSSL
  | SCRYPT_ENOMEM, SCRYPT_ENOMEM | SCRYPT_EINVAL, SCRYPT_EINVAL | SCRYPT_EVERSION, SCRYPT_EVERSION
  | SCRYPT_ETOOBIG, SCRYPT_ETOOBIG | SCRYPT_ETOOSLOW, SCRYPT_ETOOSLOW | SCRYPT_EPASS, SCRYPT_EPASS
  | SCRYPT_EWRFILE, SCRYPT_EWRFILE | SCRYPT_ERDFILE, SCRYPT_ERDFILE | SCRYPT_EPARAM, SCRYPT_EPARAM
  | SCRYPT_EBIGSLOW, SCRYPT_EBIGSLOW => true
  | _, _ => false
  end.
