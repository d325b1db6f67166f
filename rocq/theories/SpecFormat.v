(** The scrypt encrypted data format (FORMAT in /repo), as a function. *)
From Verif Require Import Base SpecBytes SpecSHA SpecScrypt SpecAES.

(** What a header says: log2(N), r, p and the salt. *)
Record fhead := mk_fh { fh_logN : N; fh_r : N; fh_p : N; fh_salt : bytes }.
(** The constraints in FORMAT (and r, p being positive 32-bit numbers). *)
Definition fhead_ok (h : fhead) : Prop :=
  1 <= fh_logN h <= 63 /\ 0 < fh_r h < 2 ^ 32 /\ 0 < fh_p h < 2 ^ 32 /\ fh_r h * fh_p h < 2 ^ 30 /\
  length (fh_salt h) = 32%nat /\ bytes_ok (fh_salt h).
(** "scrypt" in ASCII *)
Definition fmt_magic : bytes := [115; 99; 114; 121; 112; 116].
(** Bytes 0 .. 47 and 0 .. 63. *)
Definition fmt_48 (h : fhead) : bytes :=
  fmt_magic ++ [0] ++ [fh_logN h] ++ be_bytes 4 (fh_r h) ++ be_bytes 4 (fh_p h) ++ fh_salt h.
Definition fmt_64 (h : fhead) : bytes := fmt_48 h ++ firstn 16 (sha256 (fmt_48 h)).

Section Format.
  (** The key derivation function: scrypt. *)
  Context (kdf : bytes -> bytes -> N -> N -> N -> nat -> bytes).
  Definition fmt_keys (passwd : bytes) (h : fhead) : bytes :=
    kdf passwd (fh_salt h) (2 ^ fh_logN h) (fh_r h) (fh_p h) 64.
  Definition key_enc (passwd : bytes) (h : fhead) : bytes := firstn 32 (fmt_keys passwd h).
  Definition key_hmac (passwd : bytes) (h : fhead) : bytes := skipn 32 (fmt_keys passwd h).
  (** Bytes 0 .. 95; everything before the trailing HMAC; the whole file. *)
  Definition fmt_96 (passwd : bytes) (h : fhead) : bytes :=
    fmt_64 h ++ hmac (key_hmac passwd h) (fmt_64 h).
  Definition fmt_body (passwd : bytes) (h : fhead) (data : bytes) : bytes :=
    fmt_96 passwd h ++ aes_ctr (key_enc passwd h) 0 0 data.
  Definition fmt_file (passwd : bytes) (h : fhead) (data : bytes) : bytes :=
    fmt_body passwd h data ++ hmac (key_hmac passwd h) (fmt_body passwd h data).
End Format.

(** Reading fields out of a byte string. *)
Definition get_head (f : bytes) : fhead :=
  mk_fh (nth 7 f 0) (be_val (sub f 8 4)) (be_val (sub f 12 4)) (sub f 16 32).
