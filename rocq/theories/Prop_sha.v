(** Properties C24 - C27 and C32: hashes, MACs, key stretching, codecs. *)
From Verif Require Import Base SpecBytes SpecSHA M_endian P_endian M_sha256_tr M_simd M_sha256_hw
  M_sha256 P_sha256_tr P_sha256_hw P_sha256 P_hist_sha.

(** C24.  Any context memory, any chunking, any transform implementation. *)
Theorem C24_sha256_streaming hw junk ctx0 ds :
  length (c_buf ctx0) = 64%nat -> Forall bytes_ok ds ->
  sha_run hw junk ctx0 ds = Ok (sha256 (concat ds), sha_zero).
Proof. exact (sha_run_correct hw junk ctx0 ds). Qed.
Print Assumptions C24_sha256_streaming.
Theorem C24_sha256_buf hw junk m : bytes_ok m -> SHA256_Buf hw junk m = Ok (sha256 m).
Proof. exact (SHA256_Buf_correct hw junk m). Qed.
Print Assumptions C24_sha256_buf.
Example C24_hyps : length (c_buf (sha_junk (fun i => 7 * N.of_nat i))) = 64%nat /\
  Forall bytes_ok [[1; 2; 3]; []; repeat 200 70].
Proof. split; [reflexivity|]. repeat constructor. Qed.
(** The specification itself gives the FIPS 180-4 example digest of "abc". *)
Example C24_spec_sanity : sha256 [0x61; 0x62; 0x63] =
  be_bytes 32 0xba7816bf8f01cfea414140de5dae2223b00361a396177a9cb410ff61f20015ad.
Proof. vm_compute. reflexivity. Qed.

(** C25. *)
Theorem C25_hmac_streaming hw junk ctx0 K ds :
  length (c_buf (h_ictx ctx0)) = 64%nat -> length (c_buf (h_octx ctx0)) = 64%nat ->
  bytes_ok K -> Forall bytes_ok ds ->
  hmac_run hw junk ctx0 K ds = Ok (hmac K (concat ds), hmac_zero).
Proof. exact (hmac_run_correct hw junk ctx0 K ds). Qed.
Print Assumptions C25_hmac_streaming.
Theorem C25_hmac_buf hw junk K m : bytes_ok K -> bytes_ok m ->
  HMAC_SHA256_Buf hw junk K m = Ok (hmac K m).
Proof. exact (HMAC_SHA256_Buf_correct hw junk K m). Qed.
Print Assumptions C25_hmac_buf.
Example C25_hyps : bytes_ok (repeat 0xaa 131) /\ bytes_ok [] /\
  Forall bytes_ok [[0x48; 0x69]; [0x20]].
Proof. repeat split; repeat constructor. Qed.
(** RFC 4231 test case 6 (131-byte key), as a check of the specification. *)
Example C25_spec_sanity :
  hmac (repeat 0xaa 131)
    (be_bytes 54 0x54657374205573696e67204c6172676572205468616e20426c6f636b2d53697a65204b6579202d2048617368204b6579204669727374)
  = be_bytes 32 0x60e431591ee0b67f0d8a26aacbf5b77f8e0bc6213728c5140546040f0ee37f54.
Proof. vm_compute. reflexivity. Qed.

(** C26.  Exactly dkLen bytes are written, the rest of the buffer is kept. *)
Theorem C26_pbkdf2 hw junk P Sa c buf dkLen :
  bytes_ok P -> bytes_ok Sa -> dkLen <= 32 * (2 ^ 32 - 1) -> (N.to_nat dkLen <= length buf)%nat ->
  PBKDF2_SHA256 hw junk P Sa c buf dkLen =
    Ok (pbkdf2 P Sa c (N.to_nat dkLen) ++ skipn (N.to_nat dkLen) buf).
Proof. exact (PBKDF2_SHA256_correct hw junk P Sa c buf dkLen). Qed.
Print Assumptions C26_pbkdf2.
Theorem C26_pbkdf2_too_long hw junk P Sa c buf dkLen :
  32 * (2 ^ 32 - 1) < dkLen -> PBKDF2_SHA256 hw junk P Sa c buf dkLen = Abort.
Proof. exact (PBKDF2_SHA256_too_long hw junk P Sa c buf dkLen). Qed.
Print Assumptions C26_pbkdf2_too_long.
Example C26_hyps : 100 <= 32 * (2 ^ 32 - 1) /\ (N.to_nat 100 <= length (repeat 0 120))%nat.
Proof. split; [discriminate|]. rewrite repeat_length. lia. Qed.
(** RFC 7914 section 11, first PBKDF2 vector (first 32 of 64 bytes). *)
Example C26_spec_sanity :
  pbkdf2 [0x70;0x61;0x73;0x73;0x77;0x64] [0x73;0x61;0x6c;0x74] 1 32 =
  be_bytes 32 0x55ac046e56e3089fec1691c22544b605f94185216dde0465e68b9d57c20dacbc.
Proof. vm_compute. reflexivity. Qed.

(** C27.  All four block transforms compute the FIPS 180-4 compression. *)
Theorem C27_transforms_agree hw state block W :
  length state = 8%nat -> length block = 64%nat -> bytes_ok block -> length W = 64%nat ->
  SHA256_Transform hw state block W = Ok (compress state block).
Proof.
  intros Hs Hb Hok HW. destruct hw.
  - exact (SHA256_Transform_sw_correct state block W Hs Hb Hok HW).
  - exact (SHA256_Transform_shani_correct state block Hs Hb Hok).
  - exact (SHA256_Transform_sse2_correct state block W Hs Hb Hok HW).
  - exact (SHA256_Transform_arm_correct state block Hs Hb Hok).
Qed.
Print Assumptions C27_transforms_agree.
Example C27_hyps : length (seq 0 8) = 8%nat /\ bytes_ok (map N.of_nat (seq 0 64)).
Proof. split; [reflexivity|]. repeat constructor. Qed.

(** C32.  Positional encodings and round trips. *)
Theorem C32_be16 : (forall x, be16enc x = be_bytes 2 x) /\
  (forall x, x < 2 ^ 16 -> be16dec (be16enc x) = x) /\
  (forall q, length q = 2%nat -> bytes_ok q -> be16enc (be16dec q) = q).
Proof. exact (conj be16enc_spec (be_codec_round 2 _ _ be16enc_spec be16dec_spec)). Qed.
Theorem C32_be32 : (forall x, be32enc x = be_bytes 4 x) /\
  (forall x, x < 2 ^ 32 -> be32dec (be32enc x) = x) /\
  (forall q, length q = 4%nat -> bytes_ok q -> be32enc (be32dec q) = q).
Proof. exact (conj be32enc_spec (be_codec_round 4 _ _ be32enc_spec be32dec_spec)). Qed.
Theorem C32_be64 : (forall x, be64enc x = be_bytes 8 x) /\
  (forall x, x < 2 ^ 64 -> be64dec (be64enc x) = x) /\
  (forall q, length q = 8%nat -> bytes_ok q -> be64enc (be64dec q) = q).
Proof. exact (conj be64enc_spec (be_codec_round 8 _ _ be64enc_spec be64dec_spec)). Qed.
Theorem C32_le16 : (forall x, le16enc x = le_bytes 2 x) /\
  (forall x, x < 2 ^ 16 -> le16dec (le16enc x) = x) /\
  (forall q, length q = 2%nat -> bytes_ok q -> le16enc (le16dec q) = q).
Proof. exact (conj le16enc_spec (le_codec_round 2 _ _ le16enc_spec le16dec_spec)). Qed.
Theorem C32_le32 : (forall x, le32enc x = le_bytes 4 x) /\
  (forall x, x < 2 ^ 32 -> le32dec (le32enc x) = x) /\
  (forall q, length q = 4%nat -> bytes_ok q -> le32enc (le32dec q) = q).
Proof. exact (conj le32enc_spec (le_codec_round 4 _ _ le32enc_spec le32dec_spec)). Qed.
Theorem C32_le64 : (forall x, le64enc x = le_bytes 8 x) /\
  (forall x, x < 2 ^ 64 -> le64dec (le64enc x) = x) /\
  (forall q, length q = 8%nat -> bytes_ok q -> le64enc (le64dec q) = q).
Proof. exact (conj le64enc_spec (le_codec_round 8 _ _ le64enc_spec le64dec_spec)). Qed.
Print Assumptions C32_be64.
Print Assumptions C32_le64.
Example C32_hyps : be32dec [1; 2; 3; 4] = 0x01020304 /\ le32dec [1; 2; 3; 4] = 0x04030201.
Proof. split; vm_compute; reflexivity. Qed.
