(** Proofs about the scryptenc.c model: the pieces. *)
From Verif Require Import Base SpecBytes SpecSHA SpecScrypt SpecScryptAPI SpecAES SpecDRBG SpecFormat
  M_endian P_endian M_sha256_tr M_simd M_sha256_hw M_sha256 P_sha256 M_smix M_aes_hw M_aesctr P_aesctr P_scrypt P_scrypt_ref
  M_scrypt_sel P_scrypt_sel Prop_scrypt M_verify P_verify M_entropy P_entropy M_machine M_double M_memlimit M_cpuperf
  M_humansize M_params M_stdio M_scryptenc SpecScryptenc.

Lemma bytes_ok_sub l o n : bytes_ok l -> bytes_ok (sub l o n).
Proof. apply Forall_sub. Qed.
Lemma bytes_ok_firstn l n : bytes_ok l -> bytes_ok (firstn n l).
Proof. apply Forall_firstn. Qed.
Lemma bytes_ok_skipn l n : bytes_ok l -> bytes_ok (skipn n l).
Proof. apply Forall_skipn. Qed.
Lemma scratch_bytes_ok junk n : bytes_ok (scratch_bytes junk n).
Proof. unfold scratch_bytes. apply Forall_map, Forall_forall. intros i _. apply w8_lt. Qed.
Lemma verify_prefix a b n : bytes_ok a -> bytes_ok b -> (n <= length a)%nat -> (n <= length b)%nat ->
  exists v, crypto_verify_bytes a b n = Ok v /\ (v =? 0) = list_eqb (firstn n a) (firstn n b).
Proof.
  intros Ha Hb HA HB.
  destruct (verify_loop_spec n 0 a b 0 Ha Hb ltac:(lia) ltac:(lia) ltac:(lia)) as (v & E & _ & Hiff & _).
  exists v. split; [exact E|]. unfold sub in Hiff. cbn [skipn] in Hiff.
  destruct (list_eqb (firstn n a) (firstn n b)) eqn:EL.
  - apply list_eqb_spec in EL. apply N.eqb_eq. tauto.
  - apply list_eqb_false in EL. apply N.eqb_neq. tauto.
Qed.
Lemma rcode_eqb_spec a b : rcode_eqb a b = true <-> a = b.
Proof. destruct a, b; cbn; split; intros; congruence. Qed.
Lemma is_ok_spec rc : is_ok rc = true <-> rc = SCRYPT_OK.
Proof. apply rcode_eqb_spec. Qed.
Lemma is_ok_false rc : is_ok rc = false <-> rc <> SCRYPT_OK.
Proof. rewrite <- is_ok_spec. destruct (is_ok rc); split; congruence. Qed.

Lemma wrapping_length P Sa N_ r p n : length (scrypt_wrapping P Sa N_ r p n) = n.
Proof. apply pbkdf2_length. Qed.
Lemma wrapping_ok P Sa N_ r p n : bytes_ok (scrypt_wrapping P Sa N_ r p n).
Proof. apply pbkdf2_ok. Qed.

Lemma bind_inv {A B} (m : res A) (k : A -> res B) b : bind m k = Ok b -> exists a, m = Ok a /\ k a = Ok b.
Proof. destruct m; cbn [bind]; intros H; try discriminate. eauto. Qed.

Section Pieces.
  Context (M : machine) (cfg : clk_cfg).

  Lemma sha_once_ok m : bytes_ok m -> sha_once M m = Ok (sha256 m).
  Proof.
    intros Hm. unfold sha_once.
    destruct (SHA256_Update_inv (shw M) (jk M) (SHA256_Init (sha_junk (jk M))) [] m) as (c & -> & Hc); auto.
    { apply SHA256_Init_inv, sha_junk_buf. }
    rewrite bind_Ok. unfold SHA256_Final.
    destruct (SHA256_Final_internal_correct (shw M) (jk M) c _ Hc) as (c' & -> & _). reflexivity.
  Qed.
  Lemma hmac_once_ok K m : bytes_ok K -> bytes_ok m -> hmac_once M K m = Ok (hmac K m).
  Proof.
    intros HK Hm. unfold hmac_once.
    destruct (hmac_junk_init (shw M) (jk M) K HK) as (c & -> & Hc). rewrite bind_Ok.
    destruct (HMAC_Update_correct (shw M) (jk M) c K [] m Hc Hm) as (c2 & -> & H2). rewrite bind_Ok.
    rewrite (HMAC_Final_correct (shw M) (jk M) c2 _ _ H2). reflexivity.
  Qed.

  (** *** Key derivation *)
  Lemma derive_inv lb e passwd salt N_ r p dk ok dk' lb' :
    size_bits (m_szb M) -> bytes_ok passwd -> bytes_ok salt -> N_ < 2 ^ 64 -> r < 2 ^ 32 -> p < 2 ^ 32 ->
    length dk = 64%nat -> bytes_ok dk ->
    derive M lb e passwd salt N_ r p dk = Ok (ok, dk', lb') ->
    lb_drbg lb' = lb_drbg lb /\ length dk' = 64%nat /\ bytes_ok dk' /\
    (ok = true -> scrypt_valid (m_szb M) N_ r p 64 /\ dk' = scrypt_wrapping passwd salt N_ r p 64) /\
    (ok = false -> scrypt_valid (m_szb M) N_ r p 64 -> v_kdf e <> mk_alloc true true true true).
  Proof.
    intros Hs HP HSa HN Hr Hp HL HO E. unfold derive in E.
    apply bind_inv in E. destruct E as ([[rc b] s] & E & E2). injection E2 as E21 E22 E23. subst dk' lb'.
    unfold m_crypto_scrypt, crypto_scrypt in E. cbn [k_env1 k_env2 k_env k_passwd k_salt k_N k_r k_p k_buf k_buflen] in E.
    apply bind_inv in E. destruct E as (c & _ & E).
    apply bind_inv in E. destruct E as ([rc' b'] & E & E3).
    assert (rc' = rc /\ b' = b /\ Some c = s) as (-> & -> & <-) by (injection E3; auto). clear E3.
    split; [reflexivity|].
    assert (64 < 2 ^ m_szb M) as H64 by (destruct Hs as [-> | ->]; reflexivity).
    pose proof (scrypt_checks_spec (m_szb M) N_ r p 64 Hs HN Hr Hp H64) as HC.
    destruct (scrypt_checks (m_szb M) N_ r p 64) as [er|] eqn:EC.
    - assert (crypto_scrypt_internal (m_szb M) (m_sha M) (m_junk M) (smix_of crypto_scrypt_smix_sse2 crypto_scrypt_smix c)
        (v_kdf e) passwd salt N_ r p dk 64 = Ok (er, dk)) as E4 by (unfold crypto_scrypt_internal; rewrite EC; reflexivity).
      assert (er <> SC_OK) as Her.
      { intros ->. unfold scrypt_checks in EC.
        repeat match type of EC with context [if ?b then _ else _] => destruct b; try discriminate EC end. }
      rewrite E4 in E. injection E as <- <-.
      split; [exact HL|]. split; [exact HO|]. split; [destruct er; congruence|].
      intros _ HV. apply HC in HV. discriminate.
    - apply proj1 in HC. specialize (HC eq_refl).
      destruct (v_kdf e) as [b1 b2 b3 b4] eqn:EV.
      destruct (b1 && b2 && b3) eqn:EB.
      + destruct b1, b2, b3; try discriminate EB.
        assert (N.to_nat 64 <= length dk)%nat as Hle by (rewrite HL; reflexivity).
        pose proof (crypto_scrypt_internal_exact (m_szb M) (m_sha M) (m_junk M) (smix_of crypto_scrypt_smix_sse2 crypto_scrypt_smix c)
          passwd salt N_ r p dk 64 b4 (routine_correct c) Hs Hp HC HP HSa Hle) as X.
        change (N.to_nat 64) with 64%nat in X. rewrite (skipn_all2 dk), app_nil_r in X by lia. rewrite X in E.
        assert (rc = (if b4 then SC_OK else SC_MUNMAP) /\ b = scrypt_wrapping passwd salt N_ r p 64) as (-> & ->) by (split; congruence).
        split; [apply wrapping_length|]. split; [apply wrapping_ok|].
        split; [auto|]. intros Hf _. destruct b4; congruence.
      + assert (crypto_scrypt_internal (m_szb M) (m_sha M) (m_junk M) (smix_of crypto_scrypt_smix_sse2 crypto_scrypt_smix c)
          (mk_alloc b1 b2 b3 b4) passwd salt N_ r p dk 64 = Ok (SC_ENOMEM, dk)) as E4.
        { unfold crypto_scrypt_internal. rewrite EC. cbn [al_B al_XY al_V]. destruct b1, b2, b3; try discriminate EB; reflexivity. }
        rewrite E4 in E. injection E as <- <-.
        split; [exact HL|]. split; [exact HO|]. split; [congruence|].
        intros _ _ HX. assert (b1 && b2 && b3 = true) by (injection HX as -> -> -> _; reflexivity). congruence.
  Qed.
  (** No system failure: it terminates normally, successfully iff the parameters are valid. *)
  Lemma derive_total lb e passwd salt N_ r p dk :
    size_bits (m_szb M) -> bytes_ok passwd -> bytes_ok salt -> N_ < 2 ^ 64 -> r < 2 ^ 32 -> p < 2 ^ 32 ->
    length dk = 64%nat -> bytes_ok dk ->
    (lb_smix lb = None -> all_ok (v_kdf2 e)) ->
    exists ok dk' lb', derive M lb e passwd salt N_ r p dk = Ok (ok, dk', lb').
  Proof.
    intros Hs HP HSa HN Hr Hp HL HO H2. unfold derive, m_crypto_scrypt, crypto_scrypt.
    set (k := mk_call (v_kdf1 e) (v_kdf2 e) (v_kdf e) passwd salt N_ r p dk 64).
    assert (exists c, match lb_smix lb with Some c => Ok c | None =>
      selectsmix (m_szb M) (m_sha M) (m_junk M) (m_sse2_built M) (m_sse2_cpu M) crypto_scrypt_smix_sse2 crypto_scrypt_smix (k_env1 k) (k_env2 k) end = Ok c) as [c ->].
    { destruct (lb_smix lb) as [c|]; [eauto|]. apply first_select; auto. }
    rewrite bind_Ok.
    destruct (call_total (m_szb M) (m_sha M) (m_junk M) c k) as (rc & b & ->); auto.
    { unfold call_ok, k. cbn [k_passwd k_salt k_buflen k_buf k_N k_r k_p].
      split; [exact HP|]. split; [exact HSa|]. split; [rewrite HL; reflexivity|]. split; [exact HN|].
      split; [exact Hr|]. split; [exact Hp|]. destruct Hs as [-> | ->]; reflexivity. }
    rewrite !bind_Ok. eauto.
  Qed.
End Pieces.

Lemma wr_grow {A} (pre rest d : list A) o : o = length pre -> (length d <= length rest)%nat ->
  wr (pre ++ rest) o d = Ok ((pre ++ d) ++ skipn (length d) rest).
Proof.
  intros -> H. rewrite wr_ok by (rewrite app_length; lia). f_equal. unfold upd.
  rewrite firstn_app, Nat.sub_diag, firstn_O, app_nil_r, firstn_all, <- app_assoc. do 2 f_equal.
  rewrite skipn_app, skipn_all2 by lia. cbn [app]. f_equal. lia.
Qed.
Lemma rd_prefix {A} (pre rest : list A) n : n = length pre -> rd (pre ++ rest) 0 n = Ok pre.
Proof.
  intros ->. rewrite rd_ok by (rewrite app_length; lia). f_equal. unfold sub. cbn [skipn].
  rewrite firstn_app, Nat.sub_diag, firstn_O, app_nil_r, firstn_all. reflexivity.
Qed.
Lemma fmt_48_length h : length (fh_salt h) = 32%nat -> length (fmt_48 h) = 48%nat.
Proof. intros H. unfold fmt_48. rewrite !app_length, !be_bytes_length, H. reflexivity. Qed.
Lemma fmt_64_length h : length (fh_salt h) = 32%nat -> length (fmt_64 h) = 64%nat.
Proof. intros H. unfold fmt_64. rewrite app_length, fmt_48_length, firstn_length, sha256_length by exact H. reflexivity. Qed.
Lemma fmt_96_length kdf passwd h : length (fh_salt h) = 32%nat -> length (fmt_96 kdf passwd h) = 96%nat.
Proof. intros H. unfold fmt_96. rewrite app_length, fmt_64_length, hmac_length by exact H. reflexivity. Qed.
Lemma fmt_48_ok h : fh_logN h < 256 -> bytes_ok (fh_salt h) -> bytes_ok (fmt_48 h).
Proof.
  intros HL HS. unfold fmt_48.
  apply bytes_ok_app; split; [unfold fmt_magic; repeat constructor|].
  apply bytes_ok_app; split; [repeat constructor|].
  apply bytes_ok_app; split; [constructor; [exact HL|constructor]|].
  apply bytes_ok_app; split; [apply be_bytes_ok|].
  apply bytes_ok_app; split; [apply be_bytes_ok|exact HS].
Qed.
Lemma fmt_64_ok h : fh_logN h < 256 -> bytes_ok (fh_salt h) -> bytes_ok (fmt_64 h).
Proof. intros. apply bytes_ok_app. split; [apply fmt_48_ok; auto|apply bytes_ok_firstn, sha256_ok]. Qed.
Lemma fmt_96_ok kdf passwd h : fh_logN h < 256 -> bytes_ok (fh_salt h) -> bytes_ok (fmt_96 kdf passwd h).
Proof. intros. apply bytes_ok_app. split; [apply fmt_64_ok; auto|apply hmac_ok]. Qed.

Lemma keys_length passwd h : length (fmt_keys kdf passwd h) = 64%nat.
Proof. apply wrapping_length. Qed.
Lemma keys_ok passwd h : bytes_ok (fmt_keys kdf passwd h).
Proof. apply wrapping_ok. Qed.
Lemma key_hmac_rd passwd h : rd (fmt_keys kdf passwd h) 32 32 = Ok (key_hmac kdf passwd h).
Proof.
  rewrite rd_ok by (rewrite keys_length; lia). f_equal. unfold sub, key_hmac. apply firstn_all2.
  rewrite skipn_length, keys_length. lia.
Qed.
Lemma key_enc_rd passwd h : rd (fmt_keys kdf passwd h) 0 32 = Ok (key_enc kdf passwd h).
Proof. rewrite rd_ok by (rewrite keys_length; lia). reflexivity. Qed.
Lemma key_hmac_ok passwd h : bytes_ok (key_hmac kdf passwd h).
Proof. apply bytes_ok_skipn, keys_ok. Qed.
Lemma key_enc_ok passwd h : bytes_ok (key_enc kdf passwd h).
Proof. apply bytes_ok_firstn, keys_ok. Qed.
Lemma key_enc_length passwd h : length (key_enc kdf passwd h) = 32%nat.
Proof. unfold key_enc. rewrite firstn_length, keys_length. reflexivity. Qed.

Section Setup.
  Context (M : machine) (cfg : clk_cfg).

  Lemma build_header_ok header passwd h :
    length header = 96%nat -> fhead_ok h ->
    build_header M header (fmt_keys kdf passwd h) (fh_salt h) (Z.of_N (fh_logN h)) (fh_r h) (fh_p h)
      = Ok (fmt_96 kdf passwd h).
  Proof.
    intros HL (H1 & H2 & H3 & _ & H4 & H5). unfold build_header.
    assert (length magic = 6%nat) as Lm by reflexivity.
    assert (bytes_ok (fmt_48 h)) as O48 by (apply fmt_48_ok; [lia|exact H5]).
    assert (bytes_ok (fmt_64 h)) as O64 by (apply fmt_64_ok; [lia|exact H5]).
    rewrite (wr_grow [] header) by (try reflexivity; rewrite Lm; lia). rewrite bind_Ok. cbn [app].
    rewrite (wr_grow magic) by (try reflexivity; rewrite skipn_length; cbn [length]; lia). rewrite bind_Ok.
    rewrite N2Z.id. assert (N.land (fh_logN h) 0xff = fh_logN h) as -> by (apply (w8_small (fh_logN h)); lia).
    rewrite wr_grow by (try reflexivity; rewrite !skipn_length; cbn [length]; lia). rewrite bind_Ok.
    rewrite !be32enc_spec.
    rewrite wr_grow by (rewrite ?app_length, ?skipn_length, ?be_bytes_length; cbn [length]; lia). rewrite bind_Ok.
    rewrite wr_grow by (rewrite ?app_length, ?skipn_length, ?be_bytes_length; cbn [length]; lia). rewrite bind_Ok.
    rewrite wr_grow by (rewrite ?app_length, ?skipn_length, ?be_bytes_length; cbn [length]; lia). rewrite bind_Ok.
    match goal with |- context [rd (?a ++ ?b) 0 48] =>
      assert (a = fmt_48 h) as EA by (unfold fmt_48; rewrite !app_assoc; reflexivity);
      set (rest := b); assert (length rest = 48%nat) as LR by (unfold rest; rewrite ?skipn_length, ?be_bytes_length; cbn [length]; lia) end.
    clearbody rest. rewrite EA. clear EA.
    pose proof (fmt_48_length h H4) as L48.
    rewrite rd_prefix by lia. rewrite bind_Ok, sha_once_ok by exact O48. rewrite bind_Ok.
    rewrite rd_ok by (rewrite sha256_length; lia). rewrite bind_Ok.
    assert (length (sub (sha256 (fmt_48 h)) 0 16) = 16%nat) as L16 by (apply sub_length; rewrite sha256_length; lia).
    rewrite wr_grow by lia. rewrite bind_Ok. rewrite L16.
    assert (fmt_48 h ++ sub (sha256 (fmt_48 h)) 0 16 = fmt_64 h) as -> by reflexivity.
    pose proof (fmt_64_length h H4) as L64.
    rewrite key_hmac_rd, bind_Ok, rd_prefix by lia. rewrite bind_Ok.
    rewrite hmac_once_ok by (auto using key_hmac_ok). rewrite bind_Ok.
    rewrite wr_grow by (rewrite ?hmac_length, ?skipn_length; lia). rewrite hmac_length.
    rewrite skipn_all2 by (rewrite skipn_length; lia). rewrite app_nil_r. reflexivity.
  Qed.

  (** Status of the parameter step; explicit parameters are kept. *)
  Lemma checkparams_ok_range sst e lim logN r p verbose force sst' m rc :
    r < 2 ^ 32 -> p < 2 ^ 32 ->
    checkparams M cfg sst e lim logN r p verbose force = Ok (sst', m, rc) -> rc <> SCRYPT_EINVAL ->
    (1 <= logN <= 63)%Z /\ 0 < r /\ 0 < p /\ r * p < 2 ^ 30.
  Proof.
    intros Hr Hp E Hrc. unfold checkparams in E.
    assert (r * p < 2 ^ 64) as Hrp by (change (2 ^ 64) with (2 ^ 32 * 2 ^ 32); apply N.mul_lt_mono; assumption).
    assert (w64 (r * p) = r * p) as Hw by (apply w64_small; exact Hrp). rewrite Hw in E.
    destruct (Z.ltb_spec logN 1) as [|H1]; [cbn [orb] in E; congruence|].
    destruct (Z.ltb_spec 63 logN) as [|H2]; [cbn [orb] in E; congruence|]. cbn [orb] in E.
    destruct (N.leb_spec 0x40000000 (r * p)) as [|H3]; [congruence|].
    destruct (N.eqb_spec r 0) as [|H4]; [cbn [orb] in E; congruence|].
    destruct (N.eqb_spec p 0) as [|H5]; [cbn [orb] in E; congruence|]. lia.
  Qed.
  Lemma pick_logN_range half : forall fuel l, 1 <= l <= 63 -> 1 <= pick_logN fuel l half <= 63.
  Proof.
    induction fuel as [|f IH]; intros l Hl; cbn [pick_logN]; [exact Hl|].
    destruct (N.ltb_spec l 63); [|exact Hl]. cbv zeta. destruct (dlt half _); [exact Hl|]. apply IH. lia.
  Qed.
  Lemma to_uint_lt b x v : to_uint b x = Ok v -> v < 2 ^ b.
  Proof.
    unfold to_uint. destruct (BinarySingleNaN.is_finite x && (0 <=? BinarySingleNaN.Btrunc x)%Z && (BinarySingleNaN.Btrunc x <? 2 ^ Z.of_N b)%Z) eqn:E; [|discriminate].
    intros H. injection H as <-. apply andb_prop in E. destruct E as [E E2]. apply andb_prop in E. destruct E as [_ E1].
    apply Z.leb_le in E1. apply Z.ltb_lt in E2.
    assert (Z.of_N (Z.to_N (BinarySingleNaN.Btrunc x)) < Z.of_N (2 ^ b))%Z; [|lia].
    rewrite Z2N.id by exact E1. rewrite N2Z.inj_pow. exact E2.
  Qed.
  Lemma pickparams_range sst e lim verbose sst' m l r p :
    pickparams M cfg sst e lim verbose = Ok (sst', m, inr (l, r, p)) -> 1 <= l <= 63 /\ r = 8 /\ p < 2 ^ 32.
  Proof.
    unfold pickparams. intros E.
    apply bind_inv in E. destruct E as ([L|] & _ & E); [|discriminate].
    apply bind_inv in E. destruct E as ([s1 [rc|opps]] & _ & E); [discriminate|].
    apply bind_inv in E. destruct E as ([[l1 r1] p1] & E1 & E).
    apply bind_inv in E. destruct E as (m1 & _ & E).
    assert (l1 = l /\ r1 = r /\ p1 = p) as (-> & -> & ->) by (injection E; auto). clear E.
    unfold pick_from_limits in E1. destruct (dlt _ _) in E1.
    - assert (l = pick_logN 63 1 (ddiv (ddiv (floor_ops (dmul opps (l_maxtime lim))) (of_N (w32 (8 * 4)))) (of_N 2)) /\ r = 8 /\ p = 1)
        as (-> & -> & ->) by (split; [|split]; congruence).
      split; [apply pick_logN_range; lia|]. split; [reflexivity|lia].
    - cbv zeta in E1. apply bind_inv in E1. destruct E1 as (q & Eq & E1).
      apply to_uint_lt in Eq.
      assert (l = pick_logN 63 1 (ddiv (of_N (L / w32 (8 * 128))) (of_N 2)) /\ r = 8 /\ p = q / 8)
        as (-> & -> & ->) by (split; [|split]; congruence).
      split; [apply pick_logN_range; lia|]. split; [reflexivity|].
      pose proof (N.div_le_upper_bound q 8 q). lia.
  Qed.
End Setup.

(** *** Which codes can come from where *)
Section Codes.
  Context (M : machine) (cfg : clk_cfg).
  Lemma tick_codes st : forall rest sst it sst' rc,
    tick_loop M cfg sst st it rest = Ok (sst', inl rc) -> rc = SCRYPT_EKEY \/ rc = SCRYPT_ECLOCK.
  Proof.
    induction rest as [|it' rest IH]; intros sst it sst' rc E; cbn [tick_loop] in E.
    all: apply bind_inv in E; destruct E as ([ok s1] & _ & E); destruct ok; cbn [negb] in E; [|left; congruence].
    all: apply bind_inv in E; destruct E as ([d|] & _ & E); [|right; congruence].
    all: destruct (dlt d0 d); [congruence|]. right; congruence. eauto.
  Qed.
  Lemma count_codes st resd : forall rest sst i it sst' rc,
    count_loop M cfg sst st resd i it rest = Ok (sst', inl rc) -> rc = SCRYPT_EKEY \/ rc = SCRYPT_ECLOCK.
  Proof.
    induction rest as [|it' rest IH]; intros sst i it sst' rc E; cbn [count_loop] in E.
    all: apply bind_inv in E; destruct E as ([ok s1] & _ & E); destruct ok; cbn [negb] in E; [|left; congruence].
    all: cbv zeta in E; apply bind_inv in E; destruct E as ([d|] & _ & E); [|right; congruence].
    all: destruct (dlt resd d); [congruence|]. right; congruence. eauto.
  Qed.
  Lemma cpuperf_codes sst e sst' rc : scryptenc_cpuperf M cfg sst e = Ok (sst', inl rc) ->
    rc = SCRYPT_EKEY \/ rc = SCRYPT_ECLOCK.
  Proof.
    unfold scryptenc_cpuperf. intros E.
    destruct (monoclock_getres cfg (pe_res e)); [|right; congruence].
    destruct (monoclock_get cfg (pe_start1 e)); [|right; congruence].
    apply bind_inv in E. destruct E as ([s1 [rc1|u]] & E1 & E).
    { apply tick_codes in E1. assert (rc1 = rc) as <- by congruence. exact E1. }
    destruct (monoclock_get cfg (pe_start2 e)); [|right; congruence].
    apply bind_inv in E. destruct E as ([s2 [rc2|[i d2]]] & E2 & E); [|discriminate].
    apply count_codes in E2. assert (rc2 = rc) as <- by congruence. exact E2.
  Qed.
  Lemma checkparams_codes sst e lim logN r p verbose force sst' m rc :
    checkparams M cfg sst e lim logN r p verbose force = Ok (sst', m, rc) ->
    In rc (SCRYPT_OK :: SCRYPT_EINVAL :: if force then [] else param_codes ++ limit_codes).
  Proof.
    unfold checkparams. intros E.
    destruct ((logN <? 1)%Z || (63 <? logN)%Z); [right; left; congruence|].
    destruct (0x40000000 <=? w64 (r * p)); [right; left; congruence|].
    destruct ((r =? 0) || (p =? 0)); [right; left; congruence|].
    destruct force.
    - apply bind_inv in E. destruct E as (m1 & _ & E). left. congruence.
    - apply bind_inv in E. destruct E as ([L|] & _ & E); [|right; right; left; congruence].
      apply bind_inv in E. destruct E as ([s1 [rc1|opps]] & E1 & E).
      + apply cpuperf_codes in E1. assert (rc1 = rc) as <- by congruence.
        destruct E1 as [-> | ->]; cbn; tauto.
      + cbv zeta in E. apply bind_inv in E. destruct E as (m1 & _ & E).
        assert (rc = check_limits L (dmul opps (l_maxtime lim)) (Z.to_N logN) r p) as -> by congruence.
        unfold check_limits. repeat match goal with |- context [if ?b then _ else _] => destruct b end; cbn; tauto.
  Qed.
  Lemma pickparams_codes sst e lim verbose sst' m rc :
    pickparams M cfg sst e lim verbose = Ok (sst', m, inl rc) -> In rc param_codes.
  Proof.
    unfold pickparams. intros E.
    apply bind_inv in E. destruct E as ([L|] & _ & E).
    2:{ assert (rc = SCRYPT_ELIMIT) as -> by congruence. cbn; tauto. }
    apply bind_inv in E. destruct E as ([s1 [rc1|opps]] & E1 & E).
    - apply cpuperf_codes in E1. assert (rc1 = rc) as <- by congruence. destruct E1 as [-> | ->]; cbn; tauto.
    - cbv zeta in E. apply bind_inv in E. destruct E as ([[l r] p] & _ & E).
      apply bind_inv in E. destruct E as (m1 & _ & E). congruence.
  Qed.
End Codes.

(** *** scryptenc_setup and scryptdec_setup *)

Lemma one_shl l : l <= 63 -> w64 (N.shiftl 1 l) = 2 ^ l.
Proof.
  intros H. rewrite N.shiftl_1_l. apply w64_small.
  apply N.pow_lt_mono_r; lia.
Qed.
Section Setup2.
  Context (M : machine) (cfg : clk_cfg).

  Lemma setup_params_inv lb e P verbose force lb' ms P' rc : xp_ok P ->
    setup_params M cfg lb e P verbose force = Ok (lb', ms, P', rc) ->
    lb_drbg lb' = lb_drbg lb /\ xp_ok P' /\ x_lim P' = x_lim P /\ (x_logN P <> 0%Z -> P' = P) /\
    (rc = SCRYPT_OK \/ In rc (SCRYPT_EPARAM :: param_codes)).
  Proof.
    intros [HR HP] E. unfold setup_params in E.
    destruct (Z.eqb_spec (x_logN P) 0) as [HZ|HZ]; cbn [negb] in E.
    - apply bind_inv in E. destruct E as ([[sst m] [rc1|[[l r] p]]] & E1 & E); cbv zeta in E.
      + apply pickparams_codes in E1. assert (rc1 = rc /\ P' = P /\ lb' = mk_lib sst (lb_drbg lb)) as (-> & -> & ->) by (split; [|split]; congruence).
        split; [reflexivity|]. split; [split; assumption|]. split; [reflexivity|]. split; [congruence|]. right. right. exact E1.
      + apply pickparams_range in E1. destruct E1 as (_ & -> & Hp).
        assert (rc = SCRYPT_OK /\ P' = mk_xp (x_lim P) (Z.of_N l) 8 p /\ lb' = mk_lib sst (lb_drbg lb)) as (-> & -> & ->) by (split; [|split]; congruence).
        split; [reflexivity|]. split; [split; [reflexivity|exact Hp]|]. split; [reflexivity|]. split; [congruence|]. left. reflexivity.
    - apply bind_inv in E. destruct E as ([[sst m] rc1] & E1 & E); cbv zeta in E.
      apply checkparams_codes in E1.
      match type of E with Ok (_, _, _, ?x) = _ => assert (x = rc) as Erc by congruence end.
      assert (P' = P /\ lb' = mk_lib sst (lb_drbg lb)) as (-> & ->) by (split; congruence).
      split; [reflexivity|]. split; [split; assumption|]. split; [reflexivity|]. split; [reflexivity|].
      clear E. destruct E1 as [<- | [<- | E1]]; [left; rewrite <- Erc; reflexivity|right; left; rewrite <- Erc; reflexivity|].
      destruct force; [destruct E1|].
      cbn [app param_codes limit_codes In] in E1.
      destruct E1 as [<- | [<- | [<- | [<- | [<- | [<- | []]]]]]]; rewrite <- Erc; cbn; tauto.
  Qed.

  Lemma scryptenc_setup_inv lb e P header dk passwd verbose force lb' ms P' header' dk' rc :
    size_bits (m_szb M) -> xp_ok P -> bytes_ok passwd -> env_bytes (v_ent e) -> drbg_inv (lb_drbg lb) ->
    length header = 96%nat -> length dk = 64%nat -> bytes_ok dk ->
    scryptenc_setup M cfg lb e P header dk passwd verbose force = Ok (lb', ms, P', header', dk', rc) ->
    drbg_inv (lb_drbg lb') /\ length dk' = 64%nat /\ x_lim P' = x_lim P /\ (x_logN P <> 0%Z -> P' = P) /\
    (rc <> SCRYPT_OK -> In rc enc_codes) /\
    (rc = SCRYPT_OK -> exists h d, fhead_ok h /\ computable M h /\ P' = P_of (x_lim P) h /\
       crypto_entropy_read (shw M) (jk M) (v_ent e) (lb_drbg lb) 32 = Ok (Some (fh_salt h), d) /\
       dk' = fmt_keys kdf passwd h /\ header' = fmt_96 kdf passwd h).
  Proof.
    intros Hs HXP HPW HE HD HLH HLD HOD E. unfold scryptenc_setup in E.
    apply bind_inv in E. destruct E as ([[[lb1 ms1] P1] rc1] & E1 & E).
    apply setup_params_inv in E1; [|exact HXP]. destruct E1 as (D1 & (HR1 & HP1) & HX1 & HK1 & HC1).
    destruct (is_ok rc1) eqn:EO; cbn [negb] in E.
    2:{ apply is_ok_false in EO. assert (rc1 = rc /\ lb1 = lb' /\ P1 = P' /\ dk = dk') as (-> & -> & -> & ->) by (repeat split; congruence).
        rewrite D1. split; [exact HD|]. split; [exact HLD|]. split; [exact HX1|]. split; [exact HK1|]. split; [|congruence].
        intros _. destruct HC1 as [HC1|HC1]; [congruence|]. destruct HC1 as [<-|HC1]; [left; reflexivity|right; right; exact HC1]. }
    apply bind_inv in E. destruct E as (u & EA & E).
    assert (0 < x_logN P1 < 64)%Z as HLN.
    { unfold assert_ in EA. destruct ((0 <? x_logN P1)%Z && (x_logN P1 <? 64)%Z) eqn:EB; [|discriminate]. lia. }
    clear EA u. cbv zeta in E.
    apply bind_inv in E. destruct E as ([so d] & ES & E).
    assert (length (key_old M) = 15%nat) as _ by reflexivity.
    pose proof (crypto_entropy_read_ok (shw M) (jk M) (v_ent e) (lb_drbg lb1) 32 HE) as HENT.
    rewrite D1 in HENT. specialize (HENT HD). destruct HENT as (r & st' & ops & out & ER & HDI & _ & _ & _ & HRR).
    rewrite D1 in ES. rewrite ER in ES. assert (r = so /\ st' = d) as (-> & ->) by (split; congruence). clear ES.
    destruct so as [salt|].
    2:{ assert (rc = SCRYPT_ESALT /\ lb' = mk_lib (lb_smix lb1) d /\ P1 = P' /\ dk = dk') as (-> & -> & -> & ->) by (repeat split; congruence).
        cbn [lb_drbg]. split; [exact HDI|]. split; [exact HLD|]. split; [exact HX1|]. split; [exact HK1|]. split; [|congruence].
        intros _. right. left. reflexivity. }
    assert (length salt = 32%nat /\ bytes_ok salt) as [HSL HSO].
    { destruct HRR as [(E0 & A & B)|(E0 & _)]; [|discriminate]. assert (salt = out) as -> by congruence. auto. }
    assert (Z.to_N (x_logN P1) <= 63) as HL63 by lia.
    rewrite one_shl in E by exact HL63.
    assert (2 ^ Z.to_N (x_logN P1) < 2 ^ 64) as HN64 by (apply N.pow_lt_mono_r; lia).
    apply bind_inv in E. destruct E as ([[ok dk1] lb2] & ED & E).
    apply derive_inv in ED; auto. destruct ED as (D2 & L2 & O2 & HT & HF).
    cbn [lb_drbg] in D2.
    destruct ok; cbn [negb] in E.
    2:{ assert (rc = SCRYPT_EKEY /\ lb2 = lb' /\ P1 = P' /\ dk1 = dk') as (-> & -> & -> & ->) by (repeat split; congruence).
        rewrite D2. split; [exact HDI|]. split; [exact L2|]. split; [exact HX1|]. split; [exact HK1|]. split; [|congruence].
        intros _. cbn; tauto. }
    destruct (HT eq_refl) as [HV ->].
    set (h := mk_fh (Z.to_N (x_logN P1)) (x_r P1) (x_p P1) salt).
    assert (fhead_ok h) as HH.
    { unfold fhead_ok, h. cbn [fh_logN fh_r fh_p fh_salt]. pose proof HV as [V1 V2 _ V4 _ _ _ _].
      split; [lia|]. split; [lia|]. split; [lia|]. split; [exact V4|]. split; assumption. }
    assert (Z.of_N (fh_logN h) = x_logN P1) as HZ by (unfold h; cbn [fh_logN]; lia).
    pose proof (build_header_ok M header passwd h HLH HH) as HB. rewrite HZ in HB.
    apply bind_inv in E. destruct E as (hd & EB & E).
    assert (Ok hd = Ok (fmt_96 kdf passwd h)) as EHD by (rewrite <- EB; exact HB).
    assert (hd = fmt_96 kdf passwd h) as -> by congruence. clear EHD.
    assert (rc = SCRYPT_OK /\ lb2 = lb' /\ P1 = P' /\ header' = fmt_96 kdf passwd h /\ dk' = fmt_keys kdf passwd h) as (-> & -> & -> & -> & ->).
    { assert (fmt_keys kdf passwd h = kdf passwd salt (2 ^ Z.to_N (x_logN P1)) (x_r P1) (x_p P1) 64) as -> by reflexivity.
      clearbody h. repeat split; congruence. }
    rewrite D2. split; [exact HDI|]. split; [apply keys_length|]. split; [exact HX1|]. split; [exact HK1|]. split; [congruence|].
    intros _. exists h, d. split; [exact HH|]. split; [exact HV|].
    split; [|split; [exact ER|split; reflexivity]].
    destruct P' as [lm lg r p]. cbn [x_lim x_logN x_r x_p] in *. unfold P_of, h. cbn [fh_logN fh_r fh_p]. f_equal; [exact HX1|lia].
  Qed.
End Setup2.
