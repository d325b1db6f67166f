(** Proofs about the scryptenc.c model: the format, and the buffer functions. *)
From Verif Require Import Base SpecBytes SpecSHA SpecScrypt SpecScryptAPI SpecAES SpecDRBG SpecFormat SpecStream
  M_endian P_endian M_sha256_tr M_simd M_sha256_hw M_sha256 P_sha256 M_smix M_aes_hw M_aesctr P_aes P_aesctr P_scrypt P_scrypt_ref
  M_scrypt_sel P_scrypt_sel Prop_scrypt M_verify P_verify M_entropy P_entropy M_machine M_double M_memlimit M_cpuperf
  M_humansize M_params M_stdio P_stdio M_scryptenc SpecScryptenc P_scryptenc P_scryptenc2.

(** ** Format *)
Lemma firstn_app_len {A} (a b : list A) n : n = length a -> firstn n (a ++ b) = a.
Proof. intros ->. rewrite firstn_app, Nat.sub_diag, firstn_O, app_nil_r, firstn_all. reflexivity. Qed.
Lemma skipn_app_len {A} (a b : list A) n : n = length a -> skipn n (a ++ b) = b.
Proof. intros ->. rewrite skipn_app, Nat.sub_diag, skipn_all. reflexivity. Qed.
Lemma firstn_app_le {A} (a b : list A) n : (n <= length a)%nat -> firstn n (a ++ b) = firstn n a.
Proof. intros H. rewrite firstn_app. replace (n - length a)%nat with 0%nat by lia. rewrite firstn_O, app_nil_r. reflexivity. Qed.
Lemma sub_app_mid {A} (a b c : list A) o n : o = length a -> n = length b -> sub (a ++ b ++ c) o n = b.
Proof. intros -> ->. unfold sub. rewrite skipn_app_len by reflexivity. apply firstn_app_len. reflexivity. Qed.
Lemma sub_app_le {A} (a b : list A) o n : (o + n <= length a)%nat -> sub (a ++ b) o n = sub a o n.
Proof.
  intros H. unfold sub. rewrite skipn_app. replace (o - length a)%nat with 0%nat by lia. cbn [skipn].
  apply firstn_app_le. rewrite skipn_length. lia.
Qed.
Lemma split_at {A} (l : list A) n : l = firstn n l ++ skipn n l.
Proof. symmetry. apply firstn_skipn. Qed.
Lemma split_sub {A} (l : list A) o n : skipn o l = sub l o n ++ skipn (o + n) l.
Proof. unfold sub. rewrite <- (firstn_skipn n (skipn o l)) at 1. f_equal. rewrite skipn_skipn. f_equal. lia. Qed.

Lemma be_val_bytes4 n : n < 2 ^ 32 -> be_val (be_bytes 4 n) = n.
Proof.
  intros H. rewrite be_val_be_bytes. apply N.mod_small. exact H.
Qed.

Lemma get_head_fmt h rest : fhead_ok h -> get_head (fmt_48 h ++ rest) = h.
Proof.
  intros (H1 & H2 & H3 & _ & H4 & H5). destruct h as [l r p s]. cbn [fh_logN fh_r fh_p fh_salt] in *.
  unfold get_head, fmt_48. cbn [fh_logN fh_r fh_p fh_salt]. rewrite <- !app_assoc.
  f_equal.
  - replace (fmt_magic ++ [0] ++ [l] ++ be_bytes 4 r ++ be_bytes 4 p ++ s ++ rest) with
      ((fmt_magic ++ [0] ++ [l]) ++ be_bytes 4 r ++ be_bytes 4 p ++ s ++ rest) by (rewrite <- !app_assoc; reflexivity).
    rewrite sub_app_mid by (rewrite ?app_length, ?be_bytes_length; reflexivity). apply be_val_bytes4. lia.
  - replace (fmt_magic ++ [0] ++ [l] ++ be_bytes 4 r ++ be_bytes 4 p ++ s ++ rest) with
      ((fmt_magic ++ [0] ++ [l] ++ be_bytes 4 r) ++ be_bytes 4 p ++ s ++ rest) by (rewrite <- !app_assoc; reflexivity).
    rewrite sub_app_mid by (rewrite ?app_length, ?be_bytes_length; reflexivity). apply be_val_bytes4. lia.
  - replace (fmt_magic ++ [0] ++ [l] ++ be_bytes 4 r ++ be_bytes 4 p ++ s ++ rest) with
      ((fmt_magic ++ [0] ++ [l] ++ be_bytes 4 r ++ be_bytes 4 p) ++ s ++ rest) by (rewrite <- !app_assoc; reflexivity).
    apply sub_app_mid; [rewrite ?app_length, ?be_bytes_length; reflexivity|symmetry; exact H4].
Qed.
Lemma fmt_file_length passwd h data : length (fh_salt h) = 32%nat -> length (fmt_file kdf passwd h data) = (length data + 128)%nat.
Proof. intros H. unfold fmt_file, fmt_body. rewrite !app_length, hmac_length, fmt_96_length, aes_ctr_length by exact H. lia. Qed.
Lemma fmt_body_length passwd h data : length (fh_salt h) = 32%nat -> length (fmt_body kdf passwd h data) = (length data + 96)%nat.
Proof. intros H. unfold fmt_body. rewrite !app_length, fmt_96_length, aes_ctr_length by exact H. lia. Qed.
Lemma fmt_file_split passwd h data : fmt_file kdf passwd h data =
  fmt_48 h ++ firstn 16 (sha256 (fmt_48 h)) ++ hmac (key_hmac kdf passwd h) (fmt_64 h) ++
  aes_ctr (key_enc kdf passwd h) 0 0 data ++ hmac (key_hmac kdf passwd h) (fmt_body kdf passwd h data).
Proof. unfold fmt_file at 1, fmt_body at 1, fmt_96, fmt_64 at 1. rewrite <- !app_assoc. reflexivity. Qed.

(** A file made to the format passes all checks ... *)
Lemma fmt_file_checks passwd h data : fhead_ok h ->
  let f := fmt_file kdf passwd h data in
  get_head f = h /\ firstn 6 f = fmt_magic /\ nth 6 f 0 = 0 /\ checksum_ok f /\ passphrase_ok passwd f /\ trailer_ok passwd f /\
  sub f 96 (length f - 128) = aes_ctr (key_enc kdf passwd h) 0 0 data.
Proof.
  intros Hh f. pose proof Hh as (H1 & H2 & H3 & _ & H4 & H5).
  pose proof (fmt_48_length h H4) as L48. pose proof (fmt_64_length h H4) as L64.
  assert (get_head f = h) as EH by (unfold f; rewrite fmt_file_split; apply get_head_fmt, Hh).
  pose proof (fmt_file_length passwd h data H4) as LF. fold f in LF. pose proof (fmt_body_length passwd h data H4) as LB.
  assert (f = fmt_64 h ++ hmac (key_hmac kdf passwd h) (fmt_64 h) ++
    aes_ctr (key_enc kdf passwd h) 0 0 data ++ hmac (key_hmac kdf passwd h) (fmt_body kdf passwd h data)) as E64.
  { unfold f, fmt_file at 1, fmt_body at 1, fmt_96. rewrite <- !app_assoc. reflexivity. }
  split; [exact EH|]. split; [reflexivity|]. split; [reflexivity|].
  assert (length (firstn 16 (sha256 (fmt_48 h))) = 16%nat) as L16 by (rewrite firstn_length, sha256_length; reflexivity).
  split; [|split; [|split]].
  - unfold checksum_ok, f. rewrite fmt_file_split. rewrite sub_app_mid by lia. rewrite firstn_app_len by lia. reflexivity.
  - unfold passphrase_ok. rewrite EH, E64. rewrite sub_app_mid by (rewrite ?hmac_length; lia). rewrite firstn_app_len by lia. reflexivity.
  - unfold trailer_ok. rewrite EH, LF. unfold f, fmt_file.
    rewrite skipn_app_len by lia. rewrite firstn_app_len by lia. reflexivity.
  - rewrite LF. unfold f, fmt_file, fmt_body. rewrite <- !app_assoc.
    rewrite sub_app_mid; [reflexivity|rewrite fmt_96_length by exact H4; reflexivity|rewrite aes_ctr_length; lia].
Qed.
Lemma fmt_file_class M passwd h data : fhead_ok h -> computable M h -> dec_class M passwd (fmt_file kdf passwd h data) SCRYPT_OK.
Proof.
  intros Hh Hc. destruct (fmt_file_checks passwd h data Hh) as (E & A & B & C & D & F & _).
  apply DC_ok; auto; try (rewrite E; assumption).
  rewrite fmt_file_length by apply Hh. lia.
Qed.
(** ... and what passes all checks is such a file. *)
Lemma head_48 f : bytes_ok f -> (48 <= length f)%nat -> firstn 6 f = fmt_magic -> nth 6 f 0 = 0 -> firstn 48 f = fmt_48 (get_head f).
Proof.
  intros HO HL HM HV. unfold fmt_48, get_head. cbn [fh_logN fh_r fh_p fh_salt].
  assert (forall o, (o + 4 <= length f)%nat -> be_bytes 4 (be_val (sub f o 4)) = sub f o 4) as HB.
  { intros o Ho. rewrite <- (sub_length f o 4 Ho) at 1. apply be_bytes_be_val, bytes_ok_sub, HO. }
  rewrite !HB by lia.
  assert (forall n, (n < length f)%nat -> [nth n f 0] = sub f n 1) as HN.
  { intros n Hn. unfold sub. rewrite <- (firstn_skipn n f) at 1. rewrite app_nth2 by (rewrite firstn_length; lia).
    rewrite firstn_length. replace (n - Nat.min n (length f))%nat with 0%nat by lia.
    assert (0 < length (skipn n f))%nat by (rewrite skipn_length; lia). destruct (skipn n f); [cbn in *; lia|reflexivity]. }
  rewrite <- HM. rewrite (HN 7%nat) by lia. replace [0] with (sub f 6 1) by (rewrite <- HN, HV by lia; reflexivity).
  assert (forall o n m, sub f o n ++ sub f (o + n) m = sub f o (n + m)) as HJ.
  { intros o n m. symmetry. apply sub_split. }
  change (firstn 6 f) with (sub f 0 6). change (firstn 48 f) with (sub f 0 48).
  change (sub f 0 48) with (sub f 0 (6 + (1 + (1 + (4 + (4 + 32)))))). rewrite <- !HJ. reflexivity.
Qed.

Lemma get_head_salt f : bytes_ok f -> (48 <= length f)%nat -> length (fh_salt (get_head f)) = 32%nat /\ bytes_ok (fh_salt (get_head f)).
Proof. intros HO HL. split; [apply sub_length; lia|apply bytes_ok_sub, HO]. Qed.
Lemma get_head_ok_iff f : bytes_ok f -> (48 <= length f)%nat ->
  (fhead_ok (get_head f) <-> 1 <= fh_logN (get_head f) <= 63 /\ 0 < fh_r (get_head f) /\ 0 < fh_p (get_head f) /\
    fh_r (get_head f) * fh_p (get_head f) < 2 ^ 30).
Proof.
  intros HO HL. destruct (get_head_salt f HO HL) as [A B].
  pose proof (proj2 (be32dec_be_val f 8 HO ltac:(lia))) as HR. pose proof (proj2 (be32dec_be_val f 12 HO ltac:(lia))) as HP.
  unfold fhead_ok. cbn [get_head fh_r fh_p] in *. split; [intros (H1 & H2 & H3 & H4 & _)|intros (H1 & H2 & H3 & H4)]; repeat split; try tauto; try lia.
Qed.
Lemma well_formed passwd f : bytes_ok f -> (128 <= length f)%nat -> firstn 6 f = fmt_magic -> nth 6 f 0 = 0 ->
  checksum_ok f -> passphrase_ok passwd f -> trailer_ok passwd f ->
  f = fmt_file kdf passwd (get_head f) (aes_ctr (key_enc kdf passwd (get_head f)) 0 0 (sub f 96 (length f - 128))).
Proof.
  intros HO HL HM HV HC HP HT. set (h := get_head f) in *.
  assert (firstn 48 f = fmt_48 h) as E48 by (apply head_48; auto; lia).
  assert (firstn 64 f = fmt_64 h) as E64.
  { unfold fmt_64. rewrite <- E48, <- HC. exact (sub_split f 0 48 16). }
  assert (firstn 96 f = fmt_96 kdf passwd h) as E96.
  { unfold fmt_96. rewrite <- E64. unfold passphrase_ok in HP. fold h in HP. rewrite <- HP.
    exact (sub_split f 0 64 32). }
  assert (firstn (length f - 32) f = fmt_body kdf passwd h (aes_ctr (key_enc kdf passwd h) 0 0 (sub f 96 (length f - 128)))) as EB.
  { unfold fmt_body. rewrite aes_ctr_involutive, <- E96. replace (length f - 32)%nat with (96 + (length f - 128))%nat by lia.
    exact (sub_split f 0 96 (length f - 128)). }
  unfold fmt_file. rewrite <- EB. unfold trailer_ok in HT. fold h in HT. rewrite <- HT. symmetry. apply firstn_skipn.
Qed.

(** ** Heap *)
Lemma heap_clean_refl h : heap_ok h -> heap_clean h h.
Proof. intros H. split; [exact H|]. split; [reflexivity|]. exists 0%nat. reflexivity. Qed.
Lemma heap_clean_mk h n k : heap_ok h -> (kh_next h <= n)%nat -> heap_clean h (mk_kh n (kh_live h) (repeat None k ++ kh_released h)).
Proof.
  intros H Hn. split; [|split; [reflexivity|exists k; reflexivity]]. unfold heap_ok in *. cbn [kh_live kh_next].
  eapply Forall_impl; [|exact H]. cbv beta. intros. lia.
Qed.
Lemma heap_clean_trans a b c : heap_clean a b -> heap_clean b c -> heap_clean a c.
Proof.
  intros (_ & A2 & k & A3) (B1 & B2 & l & B3). split; [exact B1|]. split; [congruence|]. exists (l + k)%nat.
  rewrite B3, A3, repeat_app, app_assoc. reflexivity.
Qed.

(** Freeing stream and key after use. *)
Lemma free_both h a b c d s : heap_ok h ->
  (x <- kh_set (S (kh_next h)) s (mk_kh (S (S (kh_next h))) ((S (kh_next h), a) :: (kh_next h, b) :: kh_live h) (kh_released h)) ;;
   y <- crypto_aesctr_free (S (kh_next h)) x ;; z <- crypto_aes_key_free (kh_next h) y ;; d z) =
  (d (mk_kh (S (S (kh_next h))) (kh_live h) (repeat None 2 ++ kh_released h)) : res c).
Proof.
  intros HH. pose proof (heap_fresh h (kh_next h) HH ltac:(lia)) as F0.
  assert (fresh (S (kh_next h)) ((kh_next h, b) :: kh_live h)) as F1.
  { constructor; [cbn; lia|]. apply heap_fresh; [exact HH|lia]. }
  rewrite kh_set_head, bind_Ok by exact F1. unfold crypto_aesctr_free. rewrite zero_free_head, bind_Ok by exact F1.
  unfold crypto_aes_key_free. rewrite zero_free_head, bind_Ok by exact F0. reflexivity.
Qed.
Lemma free_stream h a b c d s : heap_ok h ->
  (x <- kh_set (S (kh_next h)) s (mk_kh (S (S (kh_next h))) ((S (kh_next h), a) :: (kh_next h, b) :: kh_live h) (kh_released h)) ;;
   y <- crypto_aesctr_free (S (kh_next h)) x ;; d y) =
  (d (mk_kh (S (S (kh_next h))) ((kh_next h, b) :: kh_live h) (repeat None 1 ++ kh_released h)) : res c).
Proof.
  intros HH.
  assert (fresh (S (kh_next h)) ((kh_next h, b) :: kh_live h)) as F1.
  { constructor; [cbn; lia|]. apply heap_fresh; [exact HH|lia]. }
  rewrite kh_set_head, bind_Ok by exact F1. unfold crypto_aesctr_free. rewrite zero_free_head, bind_Ok by exact F1. reflexivity.
Qed.
Lemma zero_dk_ok dk : length dk = 64%nat -> zero_dk dk = Ok (repeat 0 64).
Proof.
  intros H. unfold zero_dk. rewrite wr_ok by (rewrite repeat_length; lia). f_equal. unfold upd.
  rewrite firstn_O. cbn [app]. rewrite repeat_length, skipn_all2 by lia. apply app_nil_r.
Qed.

(** ** scryptenc_buf *)
Section EncBuf.
  Context (M : machine) (cfg : clk_cfg).
  (** The salt is what the library's random number generator delivers. *)
  Definition salted (e : call_env) (lb : lib) (h : fhead) : Prop :=
    exists d, crypto_entropy_read (m_sha M) (m_junk M) (v_ent e) (lb_drbg lb) 32 = Ok (Some (fh_salt h), d).
  Inductive enc_buf_result (lb : lib) (e : call_env) (data outbuf passwd : bytes) (P : xparams)
    : rcode -> xparams -> bytes -> Prop :=
  | EB_setup rc P' : rc <> SCRYPT_OK -> In rc enc_codes -> enc_buf_result lb e data outbuf passwd P rc P' outbuf
  | EB_aes rc h : rc = aes_rc e -> fhead_ok h -> computable M h -> salted e lb h ->
      enc_buf_result lb e data outbuf passwd P rc (P_of (x_lim P) h) (fmt_96 kdf passwd h ++ skipn 96 outbuf)
  | EB_ok h : fhead_ok h -> computable M h -> salted e lb h ->
      enc_buf_result lb e data outbuf passwd P SCRYPT_OK (P_of (x_lim P) h)
        (fmt_file kdf passwd h data ++ skipn (length data + 128) outbuf).

  (** Everything after the set-up step. *)
  Definition enc_buf_rest (h : kheap) (e : call_env) (inbuf outbuf : bytes) lb ms P header dk rc : res (outcome bytes) :=
    if negb (is_ok rc) then dk <- zero_dk dk ;; Ok (mk_oc rc lb ms P dk h outbuf) else
    outbuf <- wr outbuf 0 header ;;
    ' (h, a) <- start_aes M e h dk ;;
    match a with
    | inl rc => dk <- zero_dk dk ;; Ok (mk_oc rc lb ms P dk h outbuf)
    | inr (ki, si, AES) =>
        ' (ct, AES) <- crypto_aesctr_stream (m_aes M) (m_hi M) AES inbuf ;;
        h <- kh_set si (Some (S_stream AES)) h ;;
        outbuf <- wr outbuf 96 ct ;;
        h <- crypto_aesctr_free si h ;;
        h <- crypto_aes_key_free ki h ;;
        key_hmac <- rd dk 32 32 ;;
        m <- rd outbuf 0 (96 + length inbuf) ;;
        hbuf <- hmac_once M key_hmac m ;;
        outbuf <- wr outbuf (96 + length inbuf) hbuf ;;
        dk <- zero_dk dk ;;
        Ok (mk_oc SCRYPT_OK lb ms P dk h outbuf)
    end.
  Lemma enc_buf_rest_fail h e data outbuf lb ms P header dk rc : rc <> SCRYPT_OK -> length dk = 64%nat ->
    enc_buf_rest h e data outbuf lb ms P header dk rc = Ok (mk_oc rc lb ms P (repeat 0 64) h outbuf).
  Proof. intros H1 H2. unfold enc_buf_rest. apply is_ok_false in H1. rewrite H1. cbn [negb]. rewrite zero_dk_ok by exact H2. reflexivity. Qed.
  Lemma enc_buf_rest_ok hp e data outbuf lb ms P passwd h :
    heap_ok hp -> fhead_ok h -> bytes_ok data -> N.of_nat (length data) < 2 ^ 64 -> (length data + 128 <= length outbuf)%nat ->
    exists rc hp' out, enc_buf_rest hp e data outbuf lb ms P (fmt_96 kdf passwd h) (fmt_keys kdf passwd h) SCRYPT_OK
       = Ok (mk_oc rc lb ms P (repeat 0 64) hp' out) /\ heap_clean hp hp' /\ ((rc = aes_rc e /\ (v_key_mem e = false \/ v_ctr_mem e = false) /\ out = fmt_96 kdf passwd h ++ skipn 96 outbuf) \/
       (rc = SCRYPT_OK /\ v_key_mem e = true /\ v_ctr_mem e = true /\ out = fmt_file kdf passwd h data ++ skipn (length data + 128) outbuf)).
  Proof.
    intros HH Hh HDO HDL HOB. unfold enc_buf_rest. cbn [is_ok rcode_eqb negb].
    pose proof Hh as (_ & _ & _ & _ & HSL & HSO). pose proof (fmt_96_length kdf passwd h HSL) as L96.
    pose proof (wr_grow [] outbuf (fmt_96 kdf passwd h) 0 eq_refl ltac:(lia)) as EW. cbn [app] in EW. rewrite EW, bind_Ok, L96. clear EW.
    destruct (start_aes_cases M e hp (fmt_keys kdf passwd h) (keys_length passwd h) (keys_ok passwd h) HH)
      as [(K1 & ->)|[(K1 & K2 & ->)|(K1 & K2 & key & AES & -> & HK & HS)]]; rewrite bind_Ok.
    - rewrite zero_dk_ok, bind_Ok by apply keys_length. do 3 eexists. split; [reflexivity|]. split; [apply heap_clean_refl, HH|].
      left. split; [unfold aes_rc; rewrite K1; reflexivity|]. auto.
    - rewrite zero_dk_ok, bind_Ok by apply keys_length. do 3 eexists. split; [reflexivity|].
      split; [apply (heap_clean_mk hp _ 1); [exact HH|lia]|]. left. split; [unfold aes_rc; rewrite K1; reflexivity|]. auto.
    - destruct (stream_ok (m_aes M) (m_hi M) (firstn 32 (fmt_keys kdf passwd h)) 0 0 AES data HS ltac:(lia)) as (AES1 & -> & HS1). rewrite bind_Ok.
      fold (key_enc kdf passwd h). set (ct := aes_ctr (key_enc kdf passwd h) 0 0 data).
      assert (length ct = length data) as LC by apply aes_ctr_length.
      assert (bytes_ok ct) as OC by (apply aes_ctr_ok; [right; apply key_enc_length|apply key_enc_ok|exact HDO]).
      assert (wr (fmt_96 kdf passwd h ++ skipn 96 outbuf) 96 ct = Ok ((fmt_96 kdf passwd h ++ ct) ++ skipn (length data) (skipn 96 outbuf))) as EW.
      { rewrite wr_grow by (rewrite ?skipn_length; lia). rewrite LC. reflexivity. }
      assert (fmt_96 kdf passwd h ++ ct = fmt_body kdf passwd h data) as EB by reflexivity. rewrite EB in EW.
      pose proof (fmt_body_length passwd h data HSL) as LB.
      assert (bytes_ok (fmt_body kdf passwd h data)) as OB by (apply bytes_ok_app; split; [apply fmt_96_ok; [destruct Hh; lia|exact HSO]|exact OC]).
      pose proof (heap_fresh hp (kh_next hp) HH ltac:(lia)) as F0.
      assert (fresh (S (kh_next hp)) ((kh_next hp, Some (S_key key)) :: kh_live hp)) as F1.
      { constructor; [cbn; lia|]. apply heap_fresh; [exact HH|lia]. }
      rewrite kh_set_head, bind_Ok by exact F1. rewrite EW, bind_Ok.
      unfold crypto_aesctr_free, crypto_aes_key_free. rewrite zero_free_head, bind_Ok by exact F1. rewrite zero_free_head, bind_Ok by exact F0.
      rewrite key_hmac_rd, bind_Ok. rewrite rd_prefix by lia. rewrite bind_Ok.
      rewrite hmac_once_ok by (auto using key_hmac_ok). rewrite bind_Ok.
      rewrite wr_grow by (rewrite ?hmac_length, ?skipn_length; lia). rewrite bind_Ok, hmac_length.
      rewrite zero_dk_ok, bind_Ok by apply keys_length.
      do 3 eexists. split; [reflexivity|].
      split; [apply (heap_clean_mk hp _ 2); [exact HH|lia]|]. right. split; [reflexivity|]. split; [exact K1|]. split; [exact K2|].
      unfold fmt_file. f_equal. rewrite !skipn_skipn. f_equal. lia.
  Qed.
End EncBuf.
