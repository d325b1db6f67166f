(** Proofs about M_scryptenc_mem. *)
From Verif Require Import Base SpecBytes SpecSHA SpecScrypt SpecScryptAPI SpecAES SpecDRBG SpecFormat SpecStream
  M_endian P_endian P_sha256_tr M_sha256_tr M_simd M_sha256_hw M_sha256 P_sha256 M_memzero P_memzero M_smix M_aes_hw M_aesctr P_aesctr P_scrypt P_scrypt_ref
  M_scrypt_sel P_scrypt_sel Prop_scrypt M_verify P_verify M_entropy P_entropy M_machine M_double M_memlimit M_cpuperf
  M_humansize M_params M_stdio P_stdio M_scryptenc SpecScryptenc P_scryptenc P_scryptenc2 P_scryptenc3 P_scryptenc4
  M_sha256_mem P_sha256_mem Prop_sha256_mem M_entropy_mem P_entropy_mem M_scryptenc_mem.

(** Memory of the declared sizes. *)
Definition sf_ok (f : setup_frame) : Prop :=
  length (sf_salt f) = 32%nat /\ length (sf_hbuf f) = 32%nat /\ any_sha (sf_ctx f) /\ any_hmac (sf_hctx f).

Lemma sub_mid {A} (l a b c : list A) o n : l = a ++ b ++ c -> o = length a -> n = length b -> sub l o n = b.
Proof. intros -> -> ->. apply sub_app_mid; reflexivity. Qed.
Lemma fmt_96_salt passwd h : fhead_ok h -> sub (fmt_96 kdf passwd h) 16 32 = fh_salt h.
Proof.
  intros (_ & _ & _ & _ & H4 & _). unfold fmt_96, fmt_64.
  eapply (sub_mid _ (fmt_magic ++ [0] ++ [fh_logN h] ++ be_bytes 4 (fh_r h) ++ be_bytes 4 (fh_p h)) (fh_salt h)
    (firstn 16 (sha256 (fmt_48 h)) ++ hmac (key_hmac kdf passwd h) (fmt_48 h ++ firstn 16 (sha256 (fmt_48 h))))).
  - generalize (hmac (key_hmac kdf passwd h) (fmt_48 h ++ firstn 16 (sha256 (fmt_48 h)))). intros t.
    generalize (firstn 16 (sha256 (fmt_48 h))). intros u. unfold fmt_48. rewrite <- !app_assoc. reflexivity.
  - rewrite !app_length, !be_bytes_length. reflexivity.
  - symmetry. exact H4.
Qed.
Lemma fmt_96_check passwd h : fhead_ok h -> sub (fmt_96 kdf passwd h) 64 32 = hmac (key_hmac kdf passwd h) (fmt_64 h).
Proof.
  intros (_ & _ & _ & _ & H4 & _). unfold fmt_96. eapply (sub_mid _ (fmt_64 h) _ []).
  - rewrite app_nil_r. reflexivity.
  - symmetry. apply fmt_64_length, H4.
  - rewrite hmac_length. reflexivity.
Qed.

Section Mem.
  Context (M : machine) (cfg : clk_cfg) (leave : list N -> bytes -> list N -> list N) (HL : in_bounds leave)
    (junk : nat -> nat -> N).
  Notation hw := (shw M).

  Lemma sha_into_ok hbuf ctx m l : any_sha ctx -> bytes_ok m -> length hbuf = 32%nat ->
    exists ctx' l', sha_into M leave junk hbuf ctx m l = Ok (sha256 m, ctx', l') /\ blank_sha ctx' /\ adds clear l l'.
  Proof.
    intros [_ Hb] Hm Hh. unfold sha_into, call_SHA_Update, call_SHA_Final, mem_Update, mem_Final.
    destruct (mem_Update_inv hw leave HL (SHA256_Init ctx) [] m (found junk l 0 72) (SHA256_Init_inv ctx Hb) Hm (found_length _ _ _ _))
      as (c1 & t1 & -> & H1 & L1). rewrite !bind_Ok. rewrite (memzero_tmp32 t1 L1). rewrite !bind_Ok. rewrite app_nil_l in H1.
    set (l1 := l ++ [(P_hash, repeat 0 72)]).
    destruct (mem_Final_internal_correct hw leave HL hbuf c1 m (found junk l1 0 72) H1 (found_length _ _ _ _) ltac:(lia)) as (c2 & t2 & -> & W2 & L2).
    rewrite !bind_Ok, (memzero_sha_ok c2 W2), !bind_Ok, (memzero_tmp32 t2 L2), !bind_Ok. rewrite skipn_all2, app_nil_r by lia.
    do 2 eexists. split; [reflexivity|]. split; [apply blank_sha_zero|].
    eapply adds_trans; [|apply adds_one; apply zeros_repeat]. apply adds_one, zeros_repeat.
  Qed.
  Lemma call_Init_ok hctx K l : any_hmac hctx -> bytes_ok K ->
    exists c l', call_Init hw leave junk hctx K l = Ok (c, l') /\ hmac_inv c K [] /\ adds clear l l'.
  Proof.
    intros [[_ Hi] [_ Ho]] HK. unfold call_Init, mem_HMAC_Init.
    destruct (mem_HMAC_Init_correct hw leave HL hctx K (found junk l 0 72) (found junk l 72 64) (found junk l 136 32) Hi Ho HK
      (found_length _ _ _ _) (found_length _ _ _ _) (found_length _ _ _ _)) as (c1 & t1 & p1 & k1 & -> & H1 & L1 & L2 & L3).
    rewrite !bind_Ok, (memzero_tmp32 t1 L1), !bind_Ok, (memzero_exact k1 32 L3), !bind_Ok, (memzero_exact p1 64 L2), !bind_Ok.
    do 2 eexists. split; [reflexivity|]. split; [exact H1|]. apply adds_one. unfold clear. cbn [snd]. repeat apply zeros_app; apply zeros_repeat.
  Qed.
  Lemma call_Update_ok hctx K m d l : hmac_inv hctx K m -> bytes_ok d ->
    exists c l', call_Update hw leave junk hctx d l = Ok (c, l') /\ hmac_inv c K (m ++ d) /\ adds clear l l'.
  Proof.
    intros HI Hd. unfold call_Update, mem_HMAC_Update.
    destruct (mem_HMAC_Update_correct hw leave HL hctx K m d (found junk l 0 72) HI Hd (found_length _ _ _ _)) as (c1 & t1 & -> & H1 & L1).
    rewrite !bind_Ok, (memzero_tmp32 t1 L1), !bind_Ok.
    do 2 eexists. split; [reflexivity|]. split; [exact H1|]. apply adds_one, zeros_repeat.
  Qed.
  Lemma call_Final_ok hbuf hctx K m l : hmac_inv hctx K m -> length hbuf = 32%nat ->
    exists c l', call_Final hw leave junk hbuf hctx l = Ok (hmac K m, c, l') /\ blank_hmac c /\ adds clear l l'.
  Proof.
    intros HI Hh. unfold call_Final, mem_HMAC_Final.
    destruct (mem_HMAC_Final_internal_correct hw leave HL hbuf hctx K m (found junk l 0 72) (found junk l 72 32) HI (found_length _ _ _ _))
      as (c & t & h & -> & W & L1 & L2); [lia|rewrite found_length; lia|]. rewrite found_length in L2.
    rewrite !bind_Ok, (memzero_hmac_ok c W), !bind_Ok, (memzero_tmp32 t L1), !bind_Ok, (memzero_exact h 32) by lia. rewrite !bind_Ok.
    rewrite skipn_all2, app_nil_r by lia.
    do 2 eexists. split; [reflexivity|]. split; [apply blank_hmac_zero|]. apply adds_one. unfold clear. cbn [snd]. apply zeros_app; apply zeros_repeat.
  Qed.
  Lemma hmac_into_ok hbuf hctx K m l : any_hmac hctx -> bytes_ok K -> bytes_ok m -> length hbuf = 32%nat ->
    exists c l', hmac_into M leave junk hbuf hctx K m l = Ok (hmac K m, c, l') /\ blank_hmac c /\ adds clear l l'.
  Proof.
    intros HA HK Hm Hh. unfold hmac_into.
    destruct (call_Init_ok hctx K l HA HK) as (c1 & l1 & -> & H1 & A1). rewrite bind_Ok.
    destruct (call_Update_ok c1 K [] m l1 H1 Hm) as (c2 & l2 & -> & H2 & A2). rewrite bind_Ok.
    destruct (call_Final_ok hbuf c2 K m l2 H2 Hh) as (c3 & l3 & -> & H3 & A3).
    do 2 eexists. split; [reflexivity|]. split; [exact H3|]. eauto using adds_trans.
  Qed.

  Lemma mem_build_header_ok header passwd h f l :
    length header = 96%nat -> fhead_ok h -> sf_ok f -> sf_salt f = fh_salt h ->
    exists f' l', mem_build_header M leave junk header (fmt_keys kdf passwd h) f (Z.of_N (fh_logN h)) (fh_r h) (fh_p h) l
      = Ok (fmt_96 kdf passwd h, f', l') /\ adds clear l l' /\ sf_salt f' = fh_salt h /\
      sf_hbuf f' = hmac (key_hmac kdf passwd h) (fmt_64 h) /\ blank_sha (sf_ctx f') /\ blank_hmac (sf_hctx f').
  Proof.
    intros HLh (H1 & H2 & H3 & _ & H4 & H5) (S1 & S2 & S3 & S4) HS. unfold mem_build_header.
    assert (length magic = 6%nat) as Lm by reflexivity.
    assert (bytes_ok (fmt_48 h)) as O48 by (apply fmt_48_ok; [lia|exact H5]).
    assert (bytes_ok (fmt_64 h)) as O64 by (apply fmt_64_ok; [lia|exact H5]).
    rewrite (wr_grow [] header) by (try reflexivity; rewrite Lm; lia). rewrite bind_Ok. cbn [app].
    rewrite (wr_grow magic) by (try reflexivity; rewrite skipn_length; cbn [length]; lia). rewrite bind_Ok.
    rewrite N2Z.id. assert (N.land (fh_logN h) 0xff = fh_logN h) as -> by (apply (w8_small (fh_logN h)); lia).
    rewrite wr_grow by (try reflexivity; rewrite !skipn_length; cbn [length]; lia). rewrite bind_Ok.
    rewrite !be32enc_spec.
    rewrite wr_grow by (rewrite ?app_length, ?skipn_length, ?be_bytes_length; cbn [length]; lia). rewrite bind_Ok.
    rewrite wr_grow by (rewrite ?app_length, ?skipn_length, ?be_bytes_length; cbn [length]; lia). rewrite bind_Ok.
    rewrite HS, (rd_all (fh_salt h)) by exact H4. rewrite bind_Ok.
    rewrite wr_grow by (rewrite ?app_length, ?skipn_length, ?be_bytes_length; cbn [length]; lia). rewrite bind_Ok.
    match goal with |- context [rd (?a ++ ?b) 0 48] =>
      assert (a = fmt_48 h) as EA by (unfold fmt_48; rewrite !app_assoc; reflexivity);
      set (rest := b); assert (length rest = 48%nat) as LR by (unfold rest; rewrite ?skipn_length, ?be_bytes_length; cbn [length]; lia) end.
    clearbody rest. rewrite EA. clear EA.
    pose proof (fmt_48_length h H4) as L48.
    rewrite rd_prefix by lia. rewrite bind_Ok.
    destruct (sha_into_ok (sf_hbuf f) (sf_ctx f) (fmt_48 h) l S3 O48 S2) as (c1 & l1 & -> & B1 & A1). rewrite bind_Ok.
    rewrite rd_ok by (rewrite sha256_length; lia). rewrite bind_Ok.
    assert (length (sub (sha256 (fmt_48 h)) 0 16) = 16%nat) as L16 by (apply sub_length; rewrite sha256_length; lia).
    rewrite wr_grow by lia. rewrite bind_Ok. rewrite L16.
    assert (fmt_48 h ++ sub (sha256 (fmt_48 h)) 0 16 = fmt_64 h) as -> by reflexivity.
    pose proof (fmt_64_length h H4) as L64.
    rewrite key_hmac_rd, bind_Ok, rd_prefix by lia. rewrite bind_Ok.
    destruct (hmac_into_ok (sha256 (fmt_48 h)) (sf_hctx f) (key_hmac kdf passwd h) (fmt_64 h) l1 S4 (key_hmac_ok passwd h) O64 (sha256_length _))
      as (c2 & l2 & -> & B2 & A2). rewrite bind_Ok. cbv beta iota.
    rewrite (rd_all (hmac _ _)) by apply hmac_length. rewrite bind_Ok.
    rewrite wr_grow by (rewrite ?hmac_length, ?skipn_length; lia). rewrite hmac_length.
    rewrite skipn_all2 by (rewrite skipn_length; lia). rewrite app_nil_r. rewrite bind_Ok.
    do 2 eexists. split; [reflexivity|]. cbn [sf_salt sf_hbuf sf_ctx sf_hctx].
    split; [eauto using adds_trans|]. auto.
  Qed.

  (** The set-up step of encryption does what M_scryptenc says, and its frame
      afterwards: untouched but for the salt if it failed, and otherwise blank
      contexts, the salt and the passphrase check of the header. *)
  Lemma mem_enc_setup_ok lb e P header0 header dk passwd verbose force f l lb' ms P' header' dk' rc :
    size_bits (m_szb M) -> xp_ok P -> bytes_ok passwd -> env_bytes (v_ent e) -> drbg_inv (lb_drbg lb) ->
    length header0 = 96%nat -> length header = 96%nat -> length dk = 64%nat -> bytes_ok dk -> sf_ok f ->
    scryptenc_setup M cfg lb e P header0 dk passwd verbose force = Ok (lb', ms, P', header', dk', rc) ->
    exists hd f' l', mem_scryptenc_setup M cfg leave junk lb e P header dk passwd verbose force f l
        = Ok (lb', ms, P', hd, dk', rc, f', l') /\ adds clear l l' /\
      (rc <> SCRYPT_OK -> hd = header /\ sf_hbuf f' = sf_hbuf f /\ sf_ctx f' = sf_ctx f /\ sf_hctx f' = sf_hctx f /\ length (sf_salt f') = 32%nat) /\
      (rc = SCRYPT_OK -> hd = header' /\ length header' = 96%nat /\ bytes_ok header' /\ bytes_ok dk' /\
         sf_salt f' = sub header' 16 32 /\ sf_hbuf f' = sub header' 64 32 /\ blank_sha (sf_ctx f') /\ blank_hmac (sf_hctx f')).
  Proof.
    intros Hs HXP HPW HE HD HLH0 HLH HLD HOD HF E. pose proof HF as (F1 & F2 & F3 & F4).
    unfold scryptenc_setup in E. unfold mem_scryptenc_setup.
    apply bind_inv in E. destruct E as ([[[lb1 ms1] P1] rc1] & E1 & E). rewrite E1, bind_Ok.
    apply setup_params_inv in E1; [|exact HXP]. destruct E1 as (D1 & (HR1 & HP1) & HX1 & HK1 & HC1).
    destruct (is_ok rc1) eqn:EO; cbn [negb] in E |- *.
    2:{ apply is_ok_false in EO.
        assert (rc1 = rc /\ lb1 = lb' /\ ms1 = ms /\ P1 = P' /\ dk = dk') as (-> & -> & -> & -> & ->) by (repeat split; congruence).
        exists header, f, l. split; [reflexivity|]. split; [apply adds_refl|]. split; [auto|congruence]. }
    apply bind_inv in E. destruct E as (u & EA & E). rewrite EA, bind_Ok.
    assert (0 < x_logN P1 < 64)%Z as HLN.
    { unfold assert_ in EA. destruct ((0 <? x_logN P1)%Z && (x_logN P1 <? 64)%Z) eqn:EB; [|discriminate]. lia. }
    clear EA u. cbv zeta in E |- *.
    apply bind_inv in E. destruct E as ([so d] & ES & E). rewrite ES, bind_Ok.
    pose proof (crypto_entropy_read_ok (shw M) (jk M) (v_ent e) (lb_drbg lb1) 32 HE) as HENT.
    rewrite D1 in HENT. specialize (HENT HD). destruct HENT as (r & st' & ops & out & ER & HDI & _ & _ & _ & HRR).
    rewrite D1 in ES. rewrite ER in ES. assert (r = so /\ st' = d) as (-> & ->) by (split; congruence). clear ES.
    destruct so as [salt|].
    2:{ assert (rc = SCRYPT_ESALT /\ mk_lib (lb_smix lb1) d = lb' /\ ms1 = ms /\ P1 = P' /\ dk = dk') as (-> & -> & -> & -> & ->) by (repeat split; congruence).
        exists header, f, l. split; [reflexivity|]. split; [apply adds_refl|]. split; [auto|congruence]. }
    assert (length salt = 32%nat /\ bytes_ok salt) as [HSL HSO].
    { destruct HRR as [(E0 & A & B)|(E0 & _)]; [|discriminate]. assert (salt = out) as -> by congruence. auto. }
    rewrite (wr_grow [] (sf_salt f)) by (try reflexivity; lia). rewrite bind_Ok. cbn [app].
    rewrite skipn_all2, app_nil_r by lia. cbn [sf_salt sf_hbuf sf_ctx sf_hctx].
    rewrite (rd_all salt) by exact HSL. rewrite bind_Ok.
    assert (Z.to_N (x_logN P1) <= 63) as HL63 by lia.
    rewrite one_shl in E |- * by exact HL63.
    assert (2 ^ Z.to_N (x_logN P1) < 2 ^ 64) as HN64 by (apply N.pow_lt_mono_r; lia).
    apply bind_inv in E. destruct E as ([[ok dk1] lb2] & ED & E). rewrite ED, bind_Ok.
    apply derive_inv in ED; auto. destruct ED as (D2 & L2 & O2 & HT & HFF).
    destruct ok; cbn [negb] in E |- *.
    2:{ assert (rc = SCRYPT_EKEY /\ lb2 = lb' /\ ms1 = ms /\ P1 = P' /\ dk1 = dk') as (-> & -> & -> & -> & ->) by (repeat split; congruence).
        do 3 eexists. split; [reflexivity|]. split; [apply adds_refl|]. cbn [sf_salt sf_hbuf sf_ctx sf_hctx]. split; [auto|congruence]. }
    destruct (HT eq_refl) as [HV EK].
    set (h := mk_fh (Z.to_N (x_logN P1)) (x_r P1) (x_p P1) salt).
    assert (dk1 = fmt_keys kdf passwd h) as EK' by exact EK. clear EK. subst dk1.
    assert (fhead_ok h) as HH.
    { unfold fhead_ok, h. cbn [fh_logN fh_r fh_p fh_salt]. pose proof HV as [V1 V2 _ V4 _ _ _ _].
      split; [lia|]. split; [lia|]. split; [lia|]. split; [exact V4|]. split; assumption. }
    assert (Z.of_N (fh_logN h) = x_logN P1) as HZ by (unfold h; cbn [fh_logN]; lia).
    pose proof (build_header_ok M header0 passwd h HLH0 HH) as HB. rewrite HZ in HB.
    apply bind_inv in E. destruct E as (hd & EB & E).
    assert (Ok hd = Ok (fmt_96 kdf passwd h)) as EHD by (rewrite <- EB; exact HB).
    assert (hd = fmt_96 kdf passwd h) as -> by congruence. clear EHD EB HB.
    set (f1 := mk_sf salt (sf_hbuf f) (sf_ctx f) (sf_hctx f)).
    destruct (mem_build_header_ok header passwd h f1 l HLH HH) as (f2 & l2 & EM & A2 & G1 & G2 & G3 & G4).
    { unfold sf_ok, f1. cbn [sf_salt sf_hbuf sf_ctx sf_hctx]. auto. } { reflexivity. }
    rewrite HZ in EM.
    assert (mem_build_header M leave junk header (fmt_keys kdf passwd h) f1 (x_logN P1) (x_r P1) (x_p P1) l = Ok (fmt_96 kdf passwd h, f2, l2)) as EM' by exact EM.
    rewrite EM', bind_Ok. clear EM EM'. cbv beta iota.
    assert (rc = SCRYPT_OK /\ lb2 = lb' /\ ms1 = ms /\ P1 = P' /\ header' = fmt_96 kdf passwd h /\ dk' = fmt_keys kdf passwd h) as (-> & -> & -> & -> & -> & ->).
    { clearbody h. repeat split; congruence. }
    do 3 eexists. split; [reflexivity|]. split; [exact A2|]. split; [congruence|]. intros _.
    pose proof (fmt_96_length kdf passwd h HSL) as L96.
    split; [reflexivity|]. split; [exact L96|]. split; [apply fmt_96_ok; [destruct HH; lia|exact HSO]|]. split; [exact O2|].
    split; [|split; [|split; assumption]].
    - rewrite G1. symmetry. apply (fmt_96_salt passwd h HH).
    - rewrite G2. symmetry. apply (fmt_96_check passwd h HH).
  Qed.

  (** The same for decryption. *)
  Lemma mem_dec_setup_ok lb e P f dk passwd verbose force fr l lb' ms P' dk' rc :
    size_bits (m_szb M) -> bytes_ok passwd -> bytes_ok f -> (96 <= length f)%nat ->
    length dk = 64%nat -> bytes_ok dk -> sf_ok fr ->
    scryptdec_setup M cfg lb e P f dk passwd verbose force = Ok (lb', ms, P', dk', rc) ->
    exists fr' l', mem_scryptdec_setup M cfg leave junk lb e P f dk passwd verbose force fr l
        = Ok (lb', ms, P', dk', rc, fr', l') /\ adds clear l l' /\ length dk' = 64%nat /\ bytes_ok dk' /\
      sf_salt fr' = sub f 16 32 /\ blank_sha (sf_ctx fr') /\
      ((rc <> SCRYPT_OK /\ sf_hbuf fr' = sha256 (firstn 48 f) /\ sf_hctx fr' = sf_hctx fr) \/
       (rc = SCRYPT_EPASS /\ sf_hbuf fr' = hmac (skipn 32 dk') (firstn 64 f) /\ blank_hmac (sf_hctx fr')) \/
       (rc = SCRYPT_OK /\ sf_hbuf fr' = sub f 64 32 /\ blank_hmac (sf_hctx fr'))).
  Proof.
    intros Hs HPW HO HLf HLD HOD (F1 & F2 & F3 & F4) E. unfold scryptdec_setup in E. unfold mem_scryptdec_setup.
    rewrite (rd_ok f 7 1) in E by lia. rewrite bind_Ok in E. rewrite (rd_ok f 7 1) by lia. rewrite bind_Ok. rewrite (rd_ok f 8 4) in E by lia. rewrite bind_Ok in E. rewrite (rd_ok f 8 4) by lia. rewrite bind_Ok. rewrite (rd_ok f 12 4) in E by lia. rewrite bind_Ok in E. rewrite (rd_ok f 12 4) by lia. rewrite bind_Ok.
    pose proof (proj2 (be32dec_be_val f 8 HO ltac:(lia))) as HR. pose proof (proj2 (be32dec_be_val f 12 HO ltac:(lia))) as HP.
    rewrite <- (proj1 (be32dec_be_val f 8 HO ltac:(lia))) in HR. rewrite <- (proj1 (be32dec_be_val f 12 HO ltac:(lia))) in HP.
    rewrite (rd_ok f 16 32) in E by lia. rewrite bind_Ok in E. rewrite (rd_ok f 16 32) by lia. rewrite bind_Ok. cbn [x_lim x_logN x_r x_p] in E |- *.
    assert (length (sub f 16 32) = 32%nat) as LS by (rewrite sub_length; lia).
    rewrite (wr_grow [] (sf_salt fr)) by (try reflexivity; lia). rewrite bind_Ok. cbn [app].
    rewrite skipn_all2, app_nil_r by lia.
    rewrite (rd_ok f 0 48) in E by lia. rewrite bind_Ok in E. rewrite (rd_ok f 0 48) by lia. rewrite bind_Ok.
    assert (bytes_ok (sub f 0 48)) as O48 by (apply bytes_ok_sub, HO).
    rewrite sha_once_ok in E by exact O48. rewrite bind_Ok in E.
    destruct (sha_into_ok (sf_hbuf fr) (sf_ctx fr) (sub f 0 48) l F3 O48 F2) as (c1 & l1 & -> & B1 & A1). rewrite bind_Ok. cbv beta iota zeta.
    cbn [sf_salt sf_hbuf sf_ctx sf_hctx].
    rewrite (rd_ok f 48 16) in E by lia. rewrite bind_Ok in E. rewrite (rd_ok f 48 16) by lia. rewrite bind_Ok.
    apply bind_inv in E. destruct E as (v & EV & E). rewrite EV, bind_Ok.
    set (sg := sub f 48 16) in *. set (h48 := sha256 (sub f 0 48)) in *.
    assert (h48 = sha256 (firstn 48 f)) as E48 by reflexivity. clearbody sg h48.
    cbv zeta in E. cbn [x_lim x_logN x_r x_p] in E.
    destruct (v =? 0); cbn [negb] in E |- *.
    2:{ injection E as <- <- <- <- <-. do 2 eexists. split; [reflexivity|]. split; [exact A1|]. cbn [sf_salt sf_hbuf sf_ctx sf_hctx].
        do 3 (split; [assumption || reflexivity|]). split; [exact B1|]. left. split; [discriminate|]. split; [exact E48|reflexivity]. }
    apply bind_inv in E. destruct E as ([[sst m] rc1] & EP & E). rewrite EP, bind_Ok. cbv beta iota zeta in E |- *.
    destruct (is_ok rc1) eqn:EO; cbn [negb] in E |- *.
    2:{ apply is_ok_false in EO. injection E as <- <- <- <- <-. do 2 eexists. split; [reflexivity|]. split; [exact A1|]. cbn [sf_salt sf_hbuf sf_ctx sf_hctx].
        do 3 (split; [assumption || reflexivity|]). split; [exact B1|]. left. split; [exact EO|]. split; [exact E48|reflexivity]. }
    apply is_ok_spec in EO. subst rc1.
    pose proof (checkparams_ok_range M cfg _ _ _ _ _ _ _ _ _ _ _ HR HP EP ltac:(discriminate)) as (HLN & _).
    rewrite (rd_all (sub f 16 32)) by exact LS. rewrite bind_Ok.
    apply bind_inv in E. destruct E as ([[ok dk1] lb1] & ED & E). rewrite ED, bind_Ok. cbv beta iota in E |- *.
    apply derive_inv in ED; auto using bytes_ok_sub.
    2:{ rewrite one_shl by lia. apply N.pow_lt_mono_r; lia. }
    destruct ED as (D1 & L1 & O1 & _).
    destruct ok; cbn [negb] in E |- *.
    2:{ injection E as <- <- <- <- <-. do 2 eexists. split; [reflexivity|]. split; [exact A1|]. cbn [sf_salt sf_hbuf sf_ctx sf_hctx].
        do 3 (split; [assumption || reflexivity|]). split; [exact B1|]. left. split; [discriminate|]. split; [exact E48|reflexivity]. }
    rewrite (rd_ok dk1 32 32) in E by lia. rewrite bind_Ok in E. rewrite (rd_ok dk1 32 32) by lia. rewrite bind_Ok. rewrite (rd_ok f 0 64) in E by lia. rewrite bind_Ok in E. rewrite (rd_ok f 0 64) by lia. rewrite bind_Ok.
    assert (bytes_ok (sub dk1 32 32)) as OK1 by (apply bytes_ok_sub, O1). assert (bytes_ok (sub f 0 64)) as O64 by (apply bytes_ok_sub, HO).
    rewrite hmac_once_ok in E by assumption. rewrite bind_Ok in E.
    assert (length h48 = 32%nat) as L48 by (rewrite E48; apply sha256_length).
    destruct (hmac_into_ok h48 (sf_hctx fr) (sub dk1 32 32) (sub f 0 64) l1 F4 OK1 O64 L48) as (c2 & l2 & -> & B2 & A2).
    rewrite bind_Ok. cbv beta iota zeta. rewrite (rd_ok f 64 32) in E by lia. rewrite bind_Ok in E. rewrite (rd_ok f 64 32) by lia. rewrite bind_Ok.
    assert (sub dk1 32 32 = skipn 32 dk1) as EK by (unfold sub; apply firstn_all2; rewrite skipn_length; lia).
    destruct (verify_prefix (hmac (sub dk1 32 32) (sub f 0 64)) (sub f 64 32) 32) as (w & EW & HW).
    { apply hmac_ok. } { apply bytes_ok_sub, HO. } { rewrite hmac_length; lia. } { rewrite sub_length; lia. }
    rewrite EW, bind_Ok in E. rewrite EW, bind_Ok.
    rewrite (firstn_all2 (hmac _ _)) in HW by (rewrite hmac_length; lia). rewrite (firstn_all2 (sub f 64 32)) in HW by (rewrite sub_length; lia).
    destruct (w =? 0); cbn [negb] in E |- *; injection E as <- <- <- <- <-.
    - do 2 eexists. split; [reflexivity|]. split; [eauto using adds_trans|]. cbn [sf_salt sf_hbuf sf_ctx sf_hctx].
      do 3 (split; [assumption || reflexivity|]). split; [exact B1|]. right. right. split; [reflexivity|]. split; [|exact B2].
      symmetry in HW. apply list_eqb_spec in HW. exact HW.
    - do 2 eexists. split; [reflexivity|]. split; [eauto using adds_trans|]. cbn [sf_salt sf_hbuf sf_ctx sf_hctx].
      do 3 (split; [assumption || reflexivity|]). split; [exact B1|]. right. left. split; [reflexivity|]. split; [|exact B2].
      rewrite EK. reflexivity.
  Qed.

  (** The frame of a set-up function that did not get to the header, and of one that did. *)
  Definition idle (f f' : setup_frame) : Prop :=
    sf_hbuf f' = sf_hbuf f /\ sf_ctx f' = sf_ctx f /\ sf_hctx f' = sf_hctx f.
  Definition spent (hd : bytes) (f' : setup_frame) : Prop :=
    sf_salt f' = sub hd 16 32 /\ sf_hbuf f' = sub hd 64 32 /\ blank_sha (sf_ctx f') /\ blank_hmac (sf_hctx f').
  Definition bf_ok (f : buf_frame) : Prop :=
    length (bf_hbuf f) = 32%nat /\ length (bf_header f) = 96%nat /\ any_hmac (bf_hctx f).

  Lemma mem_enc_buf_ok lb hp e data outbuf passwd P verbose force f sf l o :
    size_bits (m_szb M) -> xp_ok P -> bytes_ok passwd -> env_bytes (v_ent e) -> drbg_inv (lb_drbg lb) -> heap_ok hp ->
    bytes_ok data -> N.of_nat (length data) < 2 ^ 64 -> (length data + 128 <= length outbuf)%nat -> bf_ok f -> sf_ok sf ->
    scryptenc_buf M cfg lb hp e data outbuf passwd P verbose force = Ok o ->
    exists f' sf' l', mem_scryptenc_buf M cfg leave junk lb hp e data outbuf passwd P verbose force f sf l = Ok (o, f', sf', l') /\
      adds clear l l' /\ oc_dk o = repeat 0 64 /\
      ((oc_rc o <> SCRYPT_OK /\ f' = f /\ idle sf sf') \/
       (oc_rc o <> SCRYPT_OK /\ f' = mk_bf (bf_hbuf f) (firstn 96 (oc_val o)) (bf_hctx f) /\ spent (firstn 96 (oc_val o)) sf') \/
       (oc_rc o = SCRYPT_OK /\ bf_header f' = firstn 96 (oc_val o) /\ bf_hbuf f' = sub (oc_val o) (96 + length data) 32 /\
        blank_hmac (bf_hctx f') /\ spent (firstn 96 (oc_val o)) sf')).
  Proof.
    intros Hs HXP HPW HE HD HH HDO HDL HOB (G1 & G2 & G3) HF E. unfold scryptenc_buf in E. unfold mem_scryptenc_buf.
    apply bind_inv in E. destruct E as (u & EA & E). rewrite EA, bind_Ok. clear EA u.
    apply bind_inv in E. destruct E as ([[[[[lb1 ms] P1] hd] dk] rc] & ES & E).
    assert (length dk = 64%nat) as LD.
    { eapply scryptenc_setup_inv in ES; auto using scratch_bytes_ok, scratch_bytes_length. apply ES. }
    eapply (mem_enc_setup_ok _ _ _ _ (bf_header f) _ _ _ _ sf l) in ES; auto using scratch_bytes_ok, scratch_bytes_length.
    destruct ES as (hd' & sf1 & l1 & -> & A1 & S1 & S2). rewrite bind_Ok. cbv beta iota zeta in E |- *.
    destruct (is_ok rc) eqn:EO; cbn [negb] in E |- *.
    2:{ apply is_ok_false in EO. destruct (S1 EO) as (-> & I1 & I2 & I3 & _).
        rewrite zero_dk_ok, bind_Ok in E by exact LD. injection E as <-. rewrite zero_dk_ok, bind_Ok by exact LD.
        do 3 eexists. split; [reflexivity|]. split; [exact A1|]. split; [reflexivity|]. left. cbn [oc_rc].
        split; [exact EO|]. split; [destruct f; reflexivity|]. split; [exact I1|]. split; assumption. }
    apply is_ok_spec in EO. subst rc. destruct (S2 eq_refl) as (-> & L96 & O96 & OD & T1 & T2 & T3 & T4). clear S1 S2.
    pose proof (wr_grow [] outbuf hd 0 eq_refl ltac:(lia)) as EW. cbn [app] in EW.
    rewrite EW, bind_Ok in E. rewrite EW, bind_Ok. clear EW.
    set (out1 := hd ++ skipn (length hd) outbuf) in *.
    assert (firstn 96 out1 = hd) as F96 by (unfold out1; rewrite firstn_app, <- L96, Nat.sub_diag, firstn_all, firstn_O, app_nil_r; reflexivity).
    assert (length out1 = length outbuf) as LO1 by (unfold out1; rewrite app_length, skipn_length; lia).
    destruct (start_aes_cases M e hp dk LD OD HH) as [(K1 & ES)|[(K1 & K2 & ES)|(K1 & K2 & key & AES & ES & HK & HS)]];
      rewrite ES, bind_Ok in E; rewrite ES, bind_Ok; cbv beta iota in E |- *.
    1,2: rewrite zero_dk_ok, bind_Ok in E by exact LD; injection E as <-; rewrite zero_dk_ok, bind_Ok by exact LD;
      do 3 eexists; split; [reflexivity|]; split; [exact A1|]; split; [reflexivity|]; right; left; cbn [oc_rc oc_val];
      split; [discriminate|]; rewrite F96; split; [reflexivity|]; unfold spent; auto.
    destruct (stream_ok (m_aes M) (m_hi M) (firstn 32 dk) 0 0 AES data HS ltac:(lia)) as (AES1 & EST & HS1).
    rewrite EST, bind_Ok in E. rewrite EST, bind_Ok. cbv beta iota in E |- *.
    set (ct := aes_ctr (firstn 32 dk) 0 0 data) in *.
    assert (length ct = length data) as LC by apply aes_ctr_length.
    assert (bytes_ok ct) as OC by (apply aes_ctr_ok; [right; rewrite firstn_length; lia|apply bytes_ok_firstn, OD|exact HDO]).
    apply bind_inv in E. destruct E as (h1 & EH1 & E). rewrite EH1, bind_Ok.
    assert (out1 = hd ++ skipn (length hd) outbuf) as EO1 by reflexivity.
    pose proof (wr_grow hd (skipn (length hd) outbuf) ct 96 ltac:(lia) ltac:(rewrite skipn_length; lia)) as EW. fold out1 in EW.
    rewrite EW, bind_Ok in E. rewrite EW, bind_Ok. clear EW.
    apply bind_inv in E. destruct E as (h2 & EH2 & E). rewrite EH2, bind_Ok.
    apply bind_inv in E. destruct E as (h3 & EH3 & E). rewrite EH3, bind_Ok.
    rewrite (rd_ok dk 32 32) in E by lia. rewrite bind_Ok in E. rewrite (rd_ok dk 32 32) by lia. rewrite bind_Ok.
    set (rest := skipn (length ct) (skipn (length hd) outbuf)) in *.
    assert (length rest = (length outbuf - 96 - length data)%nat) as LR by (unfold rest; rewrite !skipn_length; lia).
    assert (length (hd ++ ct) = (96 + length data)%nat) as LHC by (rewrite app_length; lia).
    rewrite (rd_prefix (hd ++ ct) rest) in E by lia. rewrite bind_Ok in E. rewrite (rd_prefix (hd ++ ct) rest) by lia. rewrite bind_Ok.
    assert (bytes_ok (hd ++ ct)) as OHC by (apply bytes_ok_app; split; assumption).
    rewrite hmac_once_ok in E by (auto using bytes_ok_sub). rewrite bind_Ok in E. cbn [bf_hbuf bf_header bf_hctx].
    destruct (hmac_into_ok (bf_hbuf f) (bf_hctx f) (sub dk 32 32) (hd ++ ct) l1 G3 ltac:(apply bytes_ok_sub; exact OD) OHC G1) as (c2 & l2 & -> & B2 & A2).
    rewrite bind_Ok. cbv beta iota. rewrite (rd_all (hmac (sub dk 32 32) (hd ++ ct))) by apply hmac_length. rewrite bind_Ok.
    set (tag := hmac (sub dk 32 32) (hd ++ ct)) in *. assert (length tag = 32%nat) as LT by apply hmac_length. clearbody tag.
    pose proof (wr_grow (hd ++ ct) rest tag (96 + length data) ltac:(lia) ltac:(lia)) as EW.
    rewrite EW, bind_Ok in E. rewrite EW, bind_Ok. clear EW.
    rewrite zero_dk_ok, bind_Ok in E by exact LD. injection E as <-. rewrite zero_dk_ok, bind_Ok by exact LD.
    do 3 eexists. split; [reflexivity|]. split; [eauto using adds_trans|]. split; [reflexivity|]. right. right. cbn [oc_rc oc_val bf_hbuf bf_header bf_hctx].
    split; [reflexivity|].
    assert (firstn 96 (((hd ++ ct) ++ tag) ++ skipn (length tag) rest) = hd) as ->.
    { rewrite <- !app_assoc, firstn_app, <- L96, Nat.sub_diag, firstn_all, firstn_O, app_nil_r. reflexivity. }
    split; [reflexivity|]. split.
    - symmetry. eapply (sub_mid _ (hd ++ ct) tag (skipn (length tag) rest)); [rewrite <- !app_assoc; reflexivity|lia|lia].
    - split; [exact B2|]. unfold spent. auto.
  Qed.

  (** The frame of the set-up function of decryption, when it returned [rc]. *)
  Definition dec_spent (rc : rcode) (f : bytes) (fr fr' : setup_frame) : Prop :=
    sf_salt fr' = sub f 16 32 /\ blank_sha (sf_ctx fr') /\
    ((rc <> SCRYPT_OK /\ sf_hbuf fr' = sha256 (firstn 48 f) /\ sf_hctx fr' = sf_hctx fr) \/
     (rc = SCRYPT_EPASS /\ blank_hmac (sf_hctx fr')) \/
     (sf_hbuf fr' = sub f 64 32 /\ blank_hmac (sf_hctx fr'))).

  Lemma mem_dec_buf_ok lb hp e f outbuf outlen passwd P verbose force fr sf l o :
    size_bits (m_szb M) -> bytes_ok passwd -> heap_ok hp ->
    bytes_ok f -> N.of_nat (length f) < 2 ^ 64 -> (length f - 128 <= length outbuf)%nat -> bf_ok fr -> sf_ok sf ->
    scryptdec_buf M cfg lb hp e f outbuf outlen passwd P verbose force = Ok o ->
    exists fr' sf' l', mem_scryptdec_buf M cfg leave junk lb hp e f outbuf outlen passwd P verbose force fr sf l = Ok (o, fr', sf', l') /\
      adds clear l l' /\
      ((oc_rc o <> SCRYPT_OK /\ oc_dk o = scratch_bytes (jk M) 64 /\ fr' = fr /\ sf' = sf) \/
       (oc_rc o <> SCRYPT_OK /\ oc_dk o = repeat 0 64 /\ fr' = fr /\ dec_spent (oc_rc o) f sf sf') \/
       (oc_rc o = SCRYPT_EINVAL /\ oc_dk o = repeat 0 64 /\ blank_hmac (bf_hctx fr') /\ dec_spent SCRYPT_OK f sf sf') \/
       (oc_rc o = SCRYPT_OK /\ oc_dk o = repeat 0 64 /\ bf_hbuf fr' = skipn (length f - 32) f /\ blank_hmac (bf_hctx fr') /\
        dec_spent SCRYPT_OK f sf sf')).
  Proof.
    intros Hs HPW HH HO HF64 HOB (G1 & G2 & G3) HF E. unfold scryptdec_buf in E. unfold mem_scryptdec_buf.
    apply bind_inv in E. destruct E as (u & EA & E). rewrite EA, bind_Ok. clear EA u. cbv zeta in E |- *.
    assert (forall c lb1 ms P1 hp1 v, c <> SCRYPT_OK -> Ok (mk_oc c lb1 ms P1 (scratch_bytes (jk M) 64) hp1 v) = Ok o ->
      exists fr' sf' l', Ok (mk_oc c lb1 ms P1 (scratch_bytes (jk M) 64) hp1 v, fr, sf, l) = Ok (o, fr', sf', l') /\ adds clear l l' /\
      ((oc_rc o <> SCRYPT_OK /\ oc_dk o = scratch_bytes (jk M) 64 /\ fr' = fr /\ sf' = sf) \/
       (oc_rc o <> SCRYPT_OK /\ oc_dk o = repeat 0 64 /\ fr' = fr /\ dec_spent (oc_rc o) f sf sf') \/
       (oc_rc o = SCRYPT_EINVAL /\ oc_dk o = repeat 0 64 /\ blank_hmac (bf_hctx fr') /\ dec_spent SCRYPT_OK f sf sf') \/
       (oc_rc o = SCRYPT_OK /\ oc_dk o = repeat 0 64 /\ bf_hbuf fr' = skipn (length f - 32) f /\ blank_hmac (bf_hctx fr') /\
        dec_spent SCRYPT_OK f sf sf'))) as EARLY.
    { intros c lb1 ms P1 hp1 v HC EQ. injection EQ as <-. do 3 eexists. split; [reflexivity|]. split; [apply adds_refl|]. left. auto. }
    destruct (Nat.ltb_spec (length f) 7) as [H7|H7]; [apply EARLY; [discriminate|exact E]|].
    apply bind_inv in E. destruct E as (m6 & E6 & E). rewrite E6, bind_Ok.
    destruct (list_eqb m6 magic); cbn [negb] in E |- *; [|apply EARLY; [discriminate|exact E]].
    apply bind_inv in E. destruct E as (v6 & E7 & E). rewrite E7, bind_Ok.
    destruct (sel v6 0 =? 0); cbn [negb] in E |- *; [|apply EARLY; [discriminate|exact E]].
    destruct (Nat.ltb_spec (length f) 128) as [H128|H128]; [apply EARLY; [discriminate|exact E]|]. clear EARLY.
    apply bind_inv in E. destruct E as ([[[[lb1 ms] P1] dk] rc] & ES & E).
    eapply (mem_dec_setup_ok _ _ _ _ _ _ _ _ sf l) in ES; auto using scratch_bytes_ok, scratch_bytes_length; [|lia].
    destruct ES as (sf1 & l1 & -> & A1 & LD & OD & T1 & T2 & T3). rewrite bind_Ok. cbv beta iota zeta in E |- *.
    assert (dec_spent rc f sf sf1) as DS by (split; [exact T1|split; [exact T2|tauto]]).
    destruct (is_ok rc) eqn:EO; cbn [negb] in E |- *.
    2:{ apply is_ok_false in EO. rewrite zero_dk_ok, bind_Ok in E by exact LD. injection E as <-. rewrite zero_dk_ok, bind_Ok by exact LD.
        do 3 eexists. split; [reflexivity|]. split; [exact A1|]. right. left. cbn [oc_rc oc_dk]. auto. }
    apply is_ok_spec in EO. subst rc.
    assert (forall rc1, dec_spent SCRYPT_OK f sf sf1 -> dec_spent rc1 f sf sf1) as DSW.
    { intros rc1 (X & Y & [(Z & _)|[(Z & _)|Z]]); [congruence|discriminate|]. split; [exact X|]. split; [exact Y|]. auto. }
    destruct (start_aes_cases M e hp dk LD OD HH) as [(K1 & ES)|[(K1 & K2 & ES)|(K1 & K2 & key & AES & ES & HK & HS)]];
      rewrite ES, bind_Ok in E; rewrite ES, bind_Ok; cbv beta iota in E |- *.
    1,2: rewrite zero_dk_ok, bind_Ok in E by exact LD; injection E as <-; rewrite zero_dk_ok, bind_Ok by exact LD;
      do 3 eexists; split; [reflexivity|]; split; [exact A1|]; right; left; cbn [oc_rc oc_dk];
      split; [discriminate|]; split; [reflexivity|]; split; [reflexivity|]; apply DSW, DS.
    rewrite (rd_ok f 96 (length f - 128)) in E by lia. rewrite bind_Ok in E. rewrite (rd_ok f 96 (length f - 128)) by lia. rewrite bind_Ok.
    apply bind_inv in E. destruct E as ([pt AES1] & EST & E). rewrite EST, bind_Ok. cbv beta iota in E |- *.
    apply bind_inv in E. destruct E as (h1 & EH1 & E). rewrite EH1, bind_Ok.
    apply bind_inv in E. destruct E as (ob & EOB & E). rewrite EOB, bind_Ok.
    apply bind_inv in E. destruct E as (h2 & EH2 & E). rewrite EH2, bind_Ok.
    apply bind_inv in E. destruct E as (h3 & EH3 & E). rewrite EH3, bind_Ok.
    rewrite (rd_ok dk 32 32) in E by lia. rewrite bind_Ok in E. rewrite (rd_ok dk 32 32) by lia. rewrite bind_Ok.
    rewrite (rd_ok f 0 (length f - 32)) in E by lia. rewrite bind_Ok in E. rewrite (rd_ok f 0 (length f - 32)) by lia. rewrite bind_Ok.
    rewrite hmac_once_ok in E by (auto using bytes_ok_sub). rewrite bind_Ok in E.
    destruct (hmac_into_ok (bf_hbuf fr) (bf_hctx fr) (sub dk 32 32) (sub f 0 (length f - 32)) l1 G3 ltac:(apply bytes_ok_sub; exact OD) ltac:(apply bytes_ok_sub; exact HO) G1) as (c2 & l2 & -> & B2 & A2).
    rewrite bind_Ok. cbv beta iota.
    rewrite (rd_ok f (length f - 32) 32) in E by lia. rewrite bind_Ok in E. rewrite (rd_ok f (length f - 32) 32) by lia. rewrite bind_Ok.
    assert (sub f (length f - 32) 32 = skipn (length f - 32) f) as ESF by (unfold sub; apply firstn_all2; rewrite skipn_length; lia).
    destruct (verify_prefix (hmac (sub dk 32 32) (sub f 0 (length f - 32))) (sub f (length f - 32) 32) 32) as (w & EW & HW).
    { apply hmac_ok. } { apply bytes_ok_sub, HO. } { rewrite hmac_length; lia. } { rewrite sub_length; lia. }
    rewrite EW, bind_Ok in E. rewrite EW, bind_Ok.
    rewrite (firstn_all2 (hmac _ _)) in HW by (rewrite hmac_length; lia). rewrite (firstn_all2 (sub f _ 32)) in HW by (rewrite sub_length; lia).
    rewrite zero_dk_ok, bind_Ok in E by exact LD. injection E as <-. rewrite zero_dk_ok, bind_Ok by exact LD.
    do 3 eexists. split; [reflexivity|]. split; [eauto using adds_trans|]. right. right. cbn [oc_rc oc_dk bf_hbuf bf_hctx].
    destruct (w =? 0); cbn [negb].
    - right. split; [reflexivity|]. split; [reflexivity|]. split; [|split; [exact B2|exact DS]].
      symmetry in HW. apply list_eqb_spec in HW. rewrite HW. exact ESF.
    - left. split; [reflexivity|]. split; [reflexivity|]. split; [exact B2|exact DS].
  Qed.

  Local Opaque ENCBLOCK.
  (** An array of which the beginning was overwritten by each of these in turn. *)
  Definition overlay (b : bytes) (cs : list bytes) : bytes := fold_left (fun b c => c ++ skipn (length c) b) cs b.
  Lemma overlay_length cs : forall b, Forall (fun c => (length c <= length b)%nat) cs -> length (overlay b cs) = length b.
  Proof.
    induction cs as [|c cs IH]; intros b H; [reflexivity|]. inversion H as [|? ? H1 H2]; subst. cbn [overlay fold_left].
    assert (length (c ++ skipn (length c) b) = length b) as L by (rewrite app_length, skipn_length; lia).
    change (fold_left _ cs (c ++ skipn (length c) b)) with (overlay (c ++ skipn (length c) b) cs).
    rewrite IH; [exact L|]. rewrite L. exact H2.
  Qed.

  Lemma mem_enc_loop_ok K key : forall fuel AES hctx hctx2 buf fi fo m pos l eof AES' hctx' fi' fo',
    bytes_ok key -> (length key = 16 \/ length key = 32)%nat ->
    stream_at (m_aes M) key 0 pos AES -> hmac_inv hctx K m -> hmac_inv hctx2 K m -> input_ok fi -> length buf = ENCBLOCK ->
    pos + N.of_nat (length (stream_data (no_errors fi))) < 2 ^ 64 ->
    enc_loop M fuel AES hctx fi fo = Ok (eof, AES', hctx', fi', fo') ->
    exists h2 cs l2, mem_enc_loop M leave junk fuel AES hctx2 buf fi fo l = Ok (eof, AES', h2, overlay buf cs, fi', fo', l2) /\
      adds clear l l2 /\ hmac_inv h2 K (m ++ concat cs) /\ hmac_inv hctx' K (m ++ concat cs) /\
      Forall (fun c => (0 < length c <= ENCBLOCK)%nat) cs /\
      (exists data, prefix data (stream_data (no_errors fi)) /\ concat cs = aes_ctr key 0 pos data) /\
      (exists w, o_data fo' = o_data fo ++ w /\ prefix w (concat cs)) /\
      (eof = true -> o_data fo' = o_data fo ++ concat cs).
  Proof.
    induction fuel as [|n IH]; intros AES hctx hctx2 buf fi fo m pos l eof AES' hctx' fi' fo' HKO HKL HS HH HH2 HI HB HP E; [discriminate|].
    cbn [enc_loop] in E. cbn [mem_enc_loop]. pose proof ENCBLOCK_pos as HEB.
    destruct (fread1 ENCBLOCK fi) as [d fi1] eqn:ER.
    destruct (Nat.eqb_spec (length d) 0) as [H0|H0].
    - injection E as <- <- <- <- <-. exists hctx2, [], l. split; [reflexivity|]. split; [apply adds_refl|]. cbn [concat]. rewrite !app_nil_r.
      split; [exact HH2|]. split; [exact HH|]. split; [constructor|]. split; [exists []; split; [apply prefix_nil|reflexivity]|].
      split; [|reflexivity]. exists []. split; [symmetry; apply app_nil_r|apply prefix_nil].
    - assert (d <> []) as Hb by (intros ->; apply H0; reflexivity).
      destruct (fread1_some ENCBLOCK fi d fi1 ltac:(lia) ER Hb HI) as (L1 & O1 & I1 & S1 & F0 & F1 & x & X1 & X2).
      pose proof (fread1_data_le ENCBLOCK fi d fi1 ltac:(lia) ER Hb HI) as HLE.
      pose proof (wr_grow [] buf d 0 eq_refl ltac:(lia)) as EW1. cbn [app] in EW1. rewrite EW1, bind_Ok. clear EW1.
      rewrite rd_prefix by reflexivity. rewrite bind_Ok.
      destruct (stream_ok (m_aes M) (m_hi M) key 0 pos AES d HS ltac:(lia)) as (AES1 & EST & HS1).
      rewrite EST, bind_Ok in E. rewrite EST, bind_Ok. cbv beta iota in E |- *. clear EST.
      assert (bytes_ok (aes_ctr key 0 pos d)) as OC by (apply aes_ctr_ok; assumption).
      assert (length (aes_ctr key 0 pos d) = length d) as LC by apply aes_ctr_length.
      set (c := aes_ctr key 0 pos d) in *.
      pose proof (wr_grow [] (d ++ skipn (length d) buf) c 0 eq_refl ltac:(rewrite app_length, skipn_length; lia)) as EW1.
      cbn [app] in EW1. rewrite EW1, bind_Ok. clear EW1.
      assert (skipn (length c) (d ++ skipn (length d) buf) = skipn (length c) buf) as ->.
      { rewrite LC, skipn_app, skipn_all, Nat.sub_diag, skipn_O. reflexivity. }
      rewrite <- LC, rd_prefix by reflexivity. rewrite bind_Ok.
      destruct (call_Update_ok hctx2 K m c l HH2 OC) as (h2 & l1 & -> & HH3 & A1). rewrite bind_Ok. cbv beta iota.
      destruct (HMAC_Update_correct (shw M) (jk M) hctx K m c HH OC) as (h1 & EU & HH1).
      rewrite EU, bind_Ok in E. clear EU.
      destruct (fwrite c fo) as [ok fo1] eqn:EW.
      apply fwrite_cases in EW. destruct EW as [(-> & W1 & W2)|(-> & W1 & k & W2 & W3)]; cbn [negb] in E |- *.
      + assert (length (c ++ skipn (length c) buf) = ENCBLOCK) as HB1 by (rewrite app_length, skipn_length; lia).
        destruct (IH AES1 h1 h2 (c ++ skipn (length c) buf) fi1 fo1 (m ++ c) _ l1 eof AES' hctx' fi' fo' HKO HKL HS1 HH1 HH3 I1 HB1 ltac:(lia) E)
          as (h3 & cs & l2 & -> & A2 & R1 & R2 & R3 & (data & R4 & R5) & (w & R7 & R8) & R6).
        exists h3, (c :: cs), l2. split; [reflexivity|]. split; [eauto using adds_trans|]. cbn [concat]. rewrite !app_assoc.
        split; [exact R1|]. split; [exact R2|]. split; [constructor; [lia|exact R3]|]. split; [|split].
        * exists (d ++ data). split.
          -- rewrite X1. apply prefix_cons_app. destruct X2 as [<- | X2]; [exact R4|]. rewrite X2 in R4. apply prefix_length in R4.
             destruct data; [apply prefix_nil|cbn in R4; lia].
          -- rewrite aes_ctr_app. fold c. rewrite R5. reflexivity.
        * exists (c ++ w). split; [rewrite R7, W1, app_assoc; reflexivity|apply prefix_cons_app, R8].
        * intros He. rewrite (R6 He), W1. reflexivity.
      + injection E as <- <- <- <- <-. exists h2, [c], l1. split; [reflexivity|]. split; [exact A1|]. cbn [concat]. rewrite app_nil_r.
        split; [exact HH3|]. split; [exact HH1|]. split; [repeat constructor; lia|]. split; [|split; [|discriminate]].
        * exists d. split; [rewrite X1; apply prefix_app|reflexivity].
        * exists (firstn k c). split; [exact W3|apply prefix_firstn].
  Qed.

  Lemma mem_dec_loop_ok K key : forall fuel AES hctx hctx2 buf have fi fo m pos l eof AES' hctx' buf' fi' fo',
    bytes_ok key -> (length key = 16 \/ length key = 32)%nat ->
    stream_at (m_aes M) key 0 pos AES -> hmac_inv hctx K m -> hmac_inv hctx2 K m -> input_ok fi ->
    length buf = (ENCBLOCK + 32)%nat -> firstn (length have) buf = have -> bytes_ok have -> (length have <= 32)%nat ->
    pos + N.of_nat (length have) + N.of_nat (length (stream_data (no_errors fi))) < 2 ^ 64 ->
    dec_loop M fuel AES hctx have fi fo = Ok (eof, AES', hctx', buf', fi', fo') ->
    exists h2 b2 l2 ct, mem_dec_loop M leave junk fuel AES hctx2 buf (length have) fi fo l = Ok (eof, AES', h2, b2, length buf', fi', fo', l2) /\
      adds clear l l2 /\ hmac_inv h2 K (m ++ ct) /\ hmac_inv hctx' K (m ++ ct) /\ length b2 = (ENCBLOCK + 32)%nat /\ bytes_ok buf' /\
      (eof = true -> firstn (length buf') b2 = buf').
  Proof.
    induction fuel as [|n IH]; intros AES hctx hctx2 buf have fi fo m pos l eof AES' hctx' buf' fi' fo' HKO HKL HS HH HH2 HI HB HHV HOV HLV HP E; [discriminate|].
    cbn [dec_loop] in E. cbn [mem_dec_loop]. pose proof ENCBLOCK_pos as HEB.
    destruct (fread1 (ENCBLOCK + 32 - length have) fi) as [d fi1] eqn:ER.
    destruct (Nat.eqb_spec (length d) 0) as [H0|H0].
    - injection E as <- <- <- <- <- <-. exists hctx2, buf, l, []. split; [reflexivity|]. split; [apply adds_refl|]. rewrite !app_nil_r. auto 10.
    - assert (d <> []) as Hb by (intros ->; apply H0; reflexivity).
      destruct (fread1_some (ENCBLOCK + 32 - length have) fi d fi1 ltac:(lia) ER Hb HI) as (L1 & O1 & I1 & S1 & F0 & F1 & x & X1 & X2).
      pose proof (fread1_data_le (ENCBLOCK + 32 - length have) fi d fi1 ltac:(lia) ER Hb HI) as HLE.
      assert (buf = have ++ skipn (length have) buf) as EB by (rewrite <- HHV at 1; rewrite firstn_skipn; reflexivity).
      assert (wr buf (length have) d = Ok ((have ++ d) ++ skipn (length d) (skipn (length have) buf))) as EW1.
      { rewrite EB at 1. apply wr_grow; [reflexivity|rewrite skipn_length; lia]. }
      rewrite EW1, bind_Ok. clear EW1. set (rest := skipn (length d) (skipn (length have) buf)).
      assert (length rest = (ENCBLOCK + 32 - length have - length d)%nat) as LR by (unfold rest; rewrite !skipn_length; lia).
      cbv zeta in E |- *. rewrite <- app_length. set (x0 := have ++ d) in *.
      assert (length x0 = (length have + length d)%nat) as LX by (unfold x0; apply app_length).
      assert (bytes_ok x0) as OX by (apply bytes_ok_app; split; assumption).
      clearbody rest. 
      destruct (Nat.leb_spec (length x0) 32) as [H32|H32].
      + assert (length (x0 ++ rest) = (ENCBLOCK + 32)%nat) as LB1 by (rewrite app_length; lia).
        assert (firstn (length x0) (x0 ++ rest) = x0) as FB1 by (rewrite firstn_app, Nat.sub_diag, firstn_all, firstn_O, app_nil_r; reflexivity).
        destruct (IH AES hctx hctx2 (x0 ++ rest) x0 fi1 fo m pos l eof AES' hctx' buf' fi' fo' HKO HKL HS HH HH2 I1 LB1 FB1 OX H32 ltac:(lia) E)
          as (h2 & b2 & l2 & ct & -> & R).
        exists h2, b2, l2, ct. split; [reflexivity|exact R].
      + set (a := firstn (length x0 - 32) x0). set (b := skipn (length x0 - 32) x0).
        assert (x0 = a ++ b) as EAB by (unfold a, b; rewrite firstn_skipn; reflexivity).
        assert (length a = length x0 - 32)%nat as LA by (unfold a; rewrite firstn_length; lia).
        assert (length b = 32%nat) as LBb by (unfold b; rewrite skipn_length; lia).
        assert (bytes_ok a) as OA by (apply bytes_ok_firstn, OX). assert (bytes_ok b) as OBb by (apply bytes_ok_skipn, OX).
        clearbody a b.
        assert (rd x0 0 (length x0 - 32) = Ok a) as ERA.
        { rewrite <- LA. rewrite EAB. apply rd_prefix. reflexivity. }
        assert (rd x0 (length x0 - 32) 32 = Ok b) as ERB.
        { rewrite rd_ok by lia. f_equal. eapply (sub_mid _ a b []); [rewrite app_nil_r; exact EAB|lia|lia]. }
        rewrite ERA, bind_Ok in E.
        assert (rd (x0 ++ rest) 0 (length x0 - 32) = Ok a) as ERA2.
        { rewrite <- LA, EAB, <- app_assoc. apply rd_prefix. reflexivity. }
        rewrite ERA2, bind_Ok.
        destruct (call_Update_ok hctx2 K m a l HH2 OA) as (h2 & l1 & -> & HH3 & A1). rewrite bind_Ok. cbv beta iota.
        destruct (HMAC_Update_correct (shw M) (jk M) hctx K m a HH OA) as (h1 & EU & HH1).
        rewrite EU, bind_Ok in E. clear EU.
        assert (pos + N.of_nat (length a) < 2 ^ 64) as HPA by lia.
        destruct (stream_ok (m_aes M) (m_hi M) key 0 pos AES a HS HPA) as (AES1 & EST & HS1).
        rewrite EST, bind_Ok in E. rewrite EST, bind_Ok. cbv beta iota in E |- *. clear EST.
        assert (length (aes_ctr key 0 pos a) = length a) as LC by apply aes_ctr_length.
        set (c := aes_ctr key 0 pos a) in *. clearbody c.
        assert (wr (x0 ++ rest) 0 c = Ok (c ++ b ++ rest)) as EW1.
        { rewrite EAB, <- app_assoc. pose proof (wr_grow [] (a ++ b ++ rest) c 0 eq_refl ltac:(rewrite app_length; lia)) as EW1.
          cbn [app] in EW1. rewrite EW1. rewrite LC, skipn_app, skipn_all, Nat.sub_diag, skipn_O. reflexivity. }
        rewrite EW1, bind_Ok. clear EW1.
        rewrite (rd_prefix c (b ++ rest) (length x0 - 32)) by lia. rewrite bind_Ok.
        destruct (fwrite c fo) as [ok fo1] eqn:EW.
        apply fwrite_cases in EW. destruct EW as [(-> & W1 & W2)|(-> & W1 & k & W2 & W3)]; cbn [negb] in E |- *.
        * rewrite ERB, bind_Ok in E.
          assert (length (c ++ b ++ rest) = (ENCBLOCK + 32)%nat) as LB1 by (rewrite !app_length; lia).
          assert (rd (c ++ b ++ rest) (length x0 - 32) 32 = Ok b) as ERB2.
          { rewrite rd_ok by lia. f_equal. eapply (sub_mid _ c b rest); [reflexivity|lia|lia]. }
          rewrite ERB2, bind_Ok.
          pose proof (wr_grow [] (c ++ b ++ rest) b 0 eq_refl ltac:(lia)) as EW1. cbn [app] in EW1. rewrite EW1, bind_Ok. clear EW1.
          set (b1 := b ++ skipn (length b) (c ++ b ++ rest)).
          assert (length b1 = (ENCBLOCK + 32)%nat) as LB2 by (unfold b1; rewrite app_length, skipn_length; lia).
          assert (firstn (length b) b1 = b) as FB1 by (unfold b1; rewrite firstn_app, Nat.sub_diag, firstn_all, firstn_O, app_nil_r; reflexivity).
          clearbody b1.
          destruct (IH AES1 h1 h2 b1 b fi1 fo1 (m ++ a) _ l1 eof AES' hctx' buf' fi' fo' HKO HKL HS1 HH1 HH3 I1 LB2 FB1 OBb ltac:(lia) ltac:(lia) E)
            as (h3 & b2 & l2 & ct & ER2 & A2 & R1 & R2 & R3). rewrite LBb in ER2. rewrite ER2.
          exists h3, b2, l2, (a ++ ct). split; [reflexivity|]. split; [eauto using adds_trans|]. rewrite !app_assoc. auto.
        * injection E as <- <- <- <- <- <-. exists h2, (c ++ b ++ rest), l1, a. split; [reflexivity|]. split; [exact A1|].
          split; [exact HH3|]. split; [exact HH1|]. split; [rewrite !app_length; lia|]. split; [exact OX|discriminate].
  Qed.
End Mem.
