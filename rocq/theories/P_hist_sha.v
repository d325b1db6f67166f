(** Call histories for the hash and MAC APIs, and their correctness. *)
From Verif Require Import Base SpecBytes SpecSHA M_endian P_endian M_sha256_tr M_simd M_sha256_hw
  M_sha256 P_sha256_tr P_sha256_hw P_sha256.

(** SHA256_Init; SHA256_Update for each element of [ds]; SHA256_Final, on a
    caller-supplied context with arbitrary previous contents. *)
Definition sha_run hw junk (ctx0 : sha_ctx) (ds : list bytes) : res (bytes * sha_ctx) :=
  c <- sha_updates hw junk (SHA256_Init ctx0) ds ;; SHA256_Final hw junk c.
Definition hmac_run hw junk (ctx0 : hmac_ctx) (K : bytes) (ds : list bytes) : res (bytes * hmac_ctx) :=
  c <- HMAC_SHA256_Init hw junk ctx0 K ;;
  c <- hmac_updates hw junk c ds ;; HMAC_SHA256_Final hw junk c.

Lemma sha_run_correct hw junk ctx0 ds :
  length (c_buf ctx0) = 64%nat -> Forall bytes_ok ds ->
  sha_run hw junk ctx0 ds = Ok (sha256 (concat ds), sha_zero).
Proof.
  intros H0 Hds. unfold sha_run.
  destruct (sha_updates_inv hw junk ds (SHA256_Init ctx0) [] (SHA256_Init_inv _ H0) Hds) as (c & -> & Hc).
  cbn [bind app] in *. unfold SHA256_Final.
  destruct (SHA256_Final_internal_correct hw junk c _ Hc) as (c' & -> & _). reflexivity.
Qed.
Lemma hmac_run_correct hw junk ctx0 K ds :
  length (c_buf (h_ictx ctx0)) = 64%nat -> length (c_buf (h_octx ctx0)) = 64%nat ->
  bytes_ok K -> Forall bytes_ok ds ->
  hmac_run hw junk ctx0 K ds = Ok (hmac K (concat ds), hmac_zero).
Proof.
  intros Hi Ho HK Hds. unfold hmac_run.
  destruct (HMAC_Init_correct hw junk ctx0 K Hi Ho HK) as (c & -> & Hc). cbn [bind].
  destruct (hmac_updates_inv hw junk ds c K [] Hc Hds) as (c' & -> & Hc'). cbn [bind app] in *.
  apply HMAC_Final_correct; exact Hc'.
Qed.

(** Codec round trips. *)
Lemma be_codec_round n : forall (enc : N -> bytes) (dec : bytes -> N),
  (forall x, enc x = be_bytes n x) ->
  (forall q, length q = n -> bytes_ok q -> dec q = be_val q) ->
  (forall x, x < 256 ^ N.of_nat n -> dec (enc x) = x) /\
  (forall q, length q = n -> bytes_ok q -> enc (dec q) = q).
Proof.
  intros enc dec He Hd. split.
  - intros x Hx. rewrite He, Hd by (apply be_bytes_length || apply be_bytes_ok).
    rewrite be_val_be_bytes. apply N.mod_small. exact Hx.
  - intros q Hq Hok. rewrite Hd, He by auto. rewrite <- Hq. apply be_bytes_be_val. exact Hok.
Qed.
Lemma le_codec_round n : forall (enc : N -> bytes) (dec : bytes -> N),
  (forall x, enc x = le_bytes n x) ->
  (forall q, length q = n -> bytes_ok q -> dec q = le_val q) ->
  (forall x, x < 256 ^ N.of_nat n -> dec (enc x) = x) /\
  (forall q, length q = n -> bytes_ok q -> enc (dec q) = q).
Proof.
  intros enc dec He Hd. split.
  - intros x Hx. rewrite He, Hd by (apply le_bytes_length || apply le_bytes_ok).
    rewrite le_val_le_bytes. apply N.mod_small. exact Hx.
  - intros q Hq Hok. rewrite Hd, He by auto. rewrite <- Hq. apply le_bytes_le_val. exact Hok.
Qed.
