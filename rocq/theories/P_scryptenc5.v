(** Proofs about the scryptenc.c model: the buffer functions as a whole. *)
From Verif Require Import Base SpecBytes SpecSHA SpecScrypt SpecScryptAPI SpecAES SpecDRBG SpecFormat SpecStream
  M_endian P_endian M_sha256_tr M_simd M_sha256_hw M_sha256 P_sha256 M_smix M_aes_hw M_aesctr P_aes P_aesctr P_scrypt P_scrypt_ref
  M_scrypt_sel P_scrypt_sel Prop_scrypt M_verify P_verify M_entropy P_entropy M_machine M_double M_memlimit M_cpuperf
  M_humansize P_humansize M_params M_stdio P_stdio M_scryptenc SpecScryptenc P_scryptenc P_scryptenc2 P_scryptenc4.

Lemma display_total logN r p lim o t : (0 <= logN < 64)%Z -> lim < 2 ^ 64 -> exists m, display_params true true logN r p lim o t = Ok m.
Proof.
  intros HL HM. unfold display_params.
  assert ((0 <=? logN)%Z && (logN <? 64)%Z = true) as -> by lia. cbn [negb].
  destruct (humansize_spec lim HM) as (s & v & -> & _). rewrite bind_Ok.
  match goal with |- context [humansize true ?x] => destruct (humansize_spec x (w64_lt _)) as (s2 & v2 & -> & _) end. rewrite bind_Ok.
  destruct (0 <? lim); rewrite bind_Ok; eauto.
Qed.
(** The display step of pickparams/checkparams. *)
Lemma display_step verbose logN r p lim o t : (0 <= logN < 64)%Z -> lim < 2 ^ 64 ->
  exists m : option params_msg, (if (verbose : bool) then d <- display_params true true logN r p lim o t ;; Ok (Some d) else Ok None) = Ok m.
Proof.
  intros HL HM. destruct verbose; [|eauto]. destruct (display_total logN r p lim o t HL HM) as (m & ->). rewrite bind_Ok. eauto.
Qed.

Section Bufs.
  Context (M : machine) (cfg : clk_cfg).
  Lemma checkparams_force sst e lim logN r p verbose : r < 2 ^ 32 -> p < 2 ^ 32 ->
    (verbose = true -> pv_al1 e = true /\ pv_al2 e = true) ->
    exists m, (checkparams M cfg sst e lim logN r p verbose true = Ok (sst, m, SCRYPT_OK) /\ (1 <= logN <= 63)%Z /\ 0 < r /\ 0 < p /\ r * p < 2 ^ 30) \/
      (checkparams M cfg sst e lim logN r p verbose true = Ok (sst, m, SCRYPT_EINVAL) /\ ~ ((1 <= logN <= 63)%Z /\ 0 < r /\ 0 < p /\ r * p < 2 ^ 30)).
  Proof.
    intros Hr Hp HA. unfold checkparams.
    assert (r * p < 2 ^ 64) as Hrp by (change (2 ^ 64) with (2 ^ 32 * 2 ^ 32); apply N.mul_lt_mono; assumption).
    assert (w64 (r * p) = r * p) as -> by (apply w64_small; exact Hrp).
    destruct ((logN <? 1)%Z || (63 <? logN)%Z) eqn:E1; [exists None; right; split; [reflexivity|lia]|].
    destruct (N.leb_spec 0x40000000 (r * p)) as [E2|E2]; [exists None; right; split; [reflexivity|lia]|].
    destruct ((r =? 0) || (p =? 0)) eqn:E3; [exists None; right; split; [reflexivity|lia]|].
    assert (exists m : option params_msg, (if verbose then d <- display_params (pv_al1 e) (pv_al2 e) logN r p 0 d0 (l_maxtime lim) ;; Ok (Some d) else Ok None) = Ok m) as (m & ->).
    { destruct verbose; [|eauto]. destruct (HA eq_refl) as [-> ->]. apply (display_step true); lia. }
    rewrite bind_Ok. exists m. left. split; [reflexivity|]. lia.
  Qed.

  (** *** scryptenc_buf *)
  Lemma scryptenc_buf_eq lb h e data outbuf passwd P verbose force :
    scryptenc_buf M cfg lb h e data outbuf passwd P verbose force =
    (_ <- assert_ (all_zero P || none_zero P) ;;
     ' (lb, ms, P, header, dk, rc) <-
       scryptenc_setup M cfg lb e P (scratch_bytes (jk M) 96) (scratch_bytes (jk M) 64) passwd verbose force ;;
     enc_buf_rest M h e data outbuf lb ms P header dk rc).
  Proof. reflexivity. Qed.
  Lemma scryptenc_buf_inv lb hp e data outbuf passwd P verbose force o :
    size_bits (m_szb M) -> xp_ok P -> bytes_ok passwd -> env_bytes (v_ent e) -> drbg_inv (lb_drbg lb) -> heap_ok hp ->
    bytes_ok data -> N.of_nat (length data) < 2 ^ 64 -> (length data + 128 <= length outbuf)%nat ->
    scryptenc_buf M cfg lb hp e data outbuf passwd P verbose force = Ok o ->
    (all_zero P = true \/ none_zero P = true) /\ drbg_inv (lb_drbg (oc_lib o)) /\
    oc_dk o = repeat 0 64 /\ heap_clean hp (oc_heap o) /\ x_lim (oc_P o) = x_lim P /\ (x_logN P <> 0%Z -> oc_P o = P) /\
    enc_buf_result M lb e data outbuf passwd P (oc_rc o) (oc_P o) (oc_val o).
  Proof.
    intros Hs HXP HPW HE HD HH HDO HDL HOB E. rewrite scryptenc_buf_eq in E.
    apply bind_inv in E. destruct E as (u & EA & E).
    split. { unfold assert_ in EA. destruct (all_zero P), (none_zero P); auto; discriminate. }
    clear u EA. apply bind_inv in E. destruct E as ([[[[[lb1 ms] P1] hd] dk] rc] & ES & E).
    apply scryptenc_setup_inv in ES; auto using scratch_bytes_ok, scratch_bytes_length.
    destruct ES as (A1 & A2 & A3 & A4 & A5 & A6).
    destruct (is_ok rc) eqn:EO.
    2:{ apply is_ok_false in EO. rewrite enc_buf_rest_fail in E by assumption. injection E as <-. cbn [oc_lib oc_dk oc_heap oc_P oc_rc oc_val].
        split; [exact A1|]. split; [reflexivity|]. split; [apply heap_clean_refl, HH|]. split; [exact A3|]. split; [exact A4|]. apply EB_setup; auto. }
    apply is_ok_spec in EO. subst rc. destruct (A6 eq_refl) as (h & d & B1 & B2 & B3 & B4 & B5 & B6). subst P1 dk hd.
    destruct (enc_buf_rest_ok M hp e data outbuf lb1 ms (P_of (x_lim P) h) passwd h HH B1 HDO HDL HOB) as (rc & hp' & out & E2 & HC & HR).
    assert (Ok o = Ok (mk_oc rc lb1 ms (P_of (x_lim P) h) (repeat 0 64) hp' out)) as EE by (rewrite <- E; exact E2).
    assert (o = mk_oc rc lb1 ms (P_of (x_lim P) h) (repeat 0 64) hp' out) as -> by congruence.
    cbn [oc_lib oc_dk oc_heap oc_P oc_rc oc_val]. split; [exact A1|]. split; [reflexivity|]. split; [exact HC|]. split; [reflexivity|]. split; [exact A4|].
    destruct HR as [(R1 & _ & ->)|(-> & _ & _ & ->)].
    - eapply EB_aes; eauto. exists d. exact B4.
    - eapply EB_ok; eauto. exists d. exact B4.
  Qed.

  (** Without failures and with resource checks disabled, explicit valid
      parameters lead to success. *)
  Lemma scryptenc_setup_force lb e P header dk passwd verbose salt d :
    size_bits (m_szb M) -> xp_ok P -> bytes_ok passwd -> env_bytes (v_ent e) -> drbg_inv (lb_drbg lb) ->
    length header = 96%nat -> length dk = 64%nat -> bytes_ok dk ->
    (0 < x_logN P)%Z ->
    computable M (mk_fh (Z.to_N (x_logN P)) (x_r P) (x_p P) salt) -> no_failure e ->
    crypto_entropy_read (shw M) (jk M) (v_ent e) (lb_drbg lb) 32 = Ok (Some salt, d) ->
    exists lb' ms, let h := mk_fh (Z.to_N (x_logN P)) (x_r P) (x_p P) salt in
      scryptenc_setup M cfg lb e P header dk passwd verbose true
        = Ok (lb', ms, P, fmt_96 kdf passwd h, fmt_keys kdf passwd h, SCRYPT_OK) /\ fhead_ok h.
  Proof.
    intros Hs HXP HPW HE HD HLH HLD HOD HL0 HV HN HS.
    pose proof HXP as [HR HP]. pose proof HN as (N1 & N2 & _ & _ & _ & N3 & N4).
    pose proof HV as [V1 V2 (lg & Hlg & Vlg) V4 _ _ _ _]. cbn [fh_logN fh_r fh_p fh_salt] in *.
    assert (lg = Z.to_N (x_logN P)) as -> by (symmetry; apply (N.pow_inj_r 2); [lia|exact Vlg]). clear Vlg.
    assert (exists lb' ms P' hd dk' rc, scryptenc_setup M cfg lb e P header dk passwd verbose true = Ok (lb', ms, P', hd, dk', rc) /\ rc = SCRYPT_OK) as (lb' & ms & P' & hd & dk' & rc & E & ->).
    { unfold scryptenc_setup, setup_params.
      assert ((x_logN P =? 0)%Z = false) as -> by lia. cbn [negb].
      destruct (checkparams_force (lb_smix lb) (v_params e) (x_lim P) (x_logN P) (x_r P) (x_p P) verbose HR HP ltac:(intros; split; assumption)) as (m & [(-> & _)|(_ & HX)]).
      2:{ exfalso. apply HX. lia. }
      rewrite !bind_Ok. change (is_ok _) with true. cbn [negb].
      assert (assert_ ((0 <? x_logN P)%Z && (x_logN P <? 64)%Z) = Ok tt) as ->.
      { unfold assert_. assert ((0 <? x_logN P)%Z && (x_logN P <? 64)%Z = true) as -> by lia. reflexivity. }
      rewrite bind_Ok. cbn [lb_drbg lb_smix]. rewrite HS, bind_Ok.
      assert (Z.to_N (x_logN P) <= 63) as HL63 by lia. rewrite one_shl by exact HL63.
      pose proof (crypto_entropy_read_ok (shw M) (jk M) (v_ent e) (lb_drbg lb) 32 HE HD) as (r & st' & ops & out & ER & HDI & _ & _ & _ & HRR).
      assert (length salt = 32%nat /\ bytes_ok salt) as [HSL HSO].
      { destruct HRR as [(E0 & A & B)|(E0 & _)]; [|congruence]. assert (salt = out) as -> by congruence. auto. }
      assert (2 ^ Z.to_N (x_logN P) < 2 ^ 64) as HN64 by (apply N.pow_lt_mono_r; lia).
      match goal with |- context [derive M ?l e passwd salt ?N_ ?r0 ?p0 dk] =>
        destruct (derive_total M l e passwd salt N_ r0 p0 dk Hs HPW HSO HN64 HR HP HLD HOD ltac:(intros; exact N1)) as (ok & dk1 & lb1 & ED) end.
      rewrite ED, bind_Ok. apply derive_inv in ED; auto. destruct ED as (_ & L1 & O1 & HT & HF).
      destruct ok; cbn [negb]. 2:{ exfalso. apply HF; auto. }
      destruct (HT eq_refl) as [_ ->].
      pose proof (build_header_ok M header passwd (mk_fh (Z.to_N (x_logN P)) (x_r P) (x_p P) salt) HLH) as HB.
      cbn [fh_logN fh_r fh_p fh_salt] in HB. rewrite Z2N.id in HB by lia.
      assert (fhead_ok (mk_fh (Z.to_N (x_logN P)) (x_r P) (x_p P) salt)) as HFO.
      { unfold fhead_ok. cbn [fh_logN fh_r fh_p fh_salt]. repeat split; auto; lia. }
      specialize (HB HFO).
      match goal with |- context [build_header M header ?k salt ?l ?r0 ?p0] => assert (build_header M header k salt l r0 p0 = Ok (fmt_96 kdf passwd (mk_fh (Z.to_N (x_logN P)) (x_r P) (x_p P) salt))) as -> by exact HB end.
      rewrite bind_Ok. eauto 10. }
    exists lb', ms. cbv zeta. rewrite E.
    apply scryptenc_setup_inv in E; auto. destruct E as (_ & _ & _ & A4 & _ & A6).
    destruct (A6 eq_refl) as (h & d' & B1 & B2 & B3 & B4 & B5 & B6).
    assert (P' = P) as -> by (apply A4; lia).
    assert (fh_salt h = salt) as ES by congruence.
    assert (h = mk_fh (Z.to_N (x_logN P)) (x_r P) (x_p P) salt) as <-.
    { rewrite B3. unfold P_of. cbn [x_logN x_r x_p]. rewrite N2Z.id, <- ES. destruct h; reflexivity. }
    subst hd dk'. split; [reflexivity|exact B1].
  Qed.
  Lemma scryptenc_buf_force lb hp e data outbuf passwd P verbose salt d :
    size_bits (m_szb M) -> xp_ok P -> bytes_ok passwd -> env_bytes (v_ent e) -> drbg_inv (lb_drbg lb) -> heap_ok hp ->
    bytes_ok data -> N.of_nat (length data) < 2 ^ 64 -> (length data + 128 <= length outbuf)%nat ->
    (0 < x_logN P)%Z -> computable M (mk_fh (Z.to_N (x_logN P)) (x_r P) (x_p P) salt) -> no_failure e ->
    crypto_entropy_read (shw M) (jk M) (v_ent e) (lb_drbg lb) 32 = Ok (Some salt, d) ->
    exists o, scryptenc_buf M cfg lb hp e data outbuf passwd P verbose true = Ok o /\ oc_rc o = SCRYPT_OK /\ oc_P o = P /\
      oc_val o = fmt_file kdf passwd (mk_fh (Z.to_N (x_logN P)) (x_r P) (x_p P) salt) data ++ skipn (length data + 128) outbuf.
  Proof.
    intros Hs HXP HPW HE HD HH HDO HDL HOB HL0 HV HN HS.
    destruct (scryptenc_setup_force lb e P (scratch_bytes (jk M) 96) (scratch_bytes (jk M) 64) passwd verbose salt d
      Hs HXP HPW HE HD (scratch_bytes_length _ _) (scratch_bytes_length _ _) (scratch_bytes_ok _ _) HL0 HV HN HS) as (lb' & ms & E & HFO).
    rewrite scryptenc_buf_eq.
    assert (assert_ (all_zero P || none_zero P) = Ok tt) as ->.
    { unfold assert_, none_zero. destruct HV as [V1 V2 _ _ _ _ _ _]. cbn [fh_r fh_p] in *.
      assert (negb (x_logN P =? 0)%Z && negb (x_r P =? 0) && negb (x_p P =? 0) = true) as -> by lia. rewrite orb_true_r. reflexivity. }
    rewrite bind_Ok, E, bind_Ok.
    destruct (enc_buf_rest_ok M hp e data outbuf lb' ms P passwd _ HH HFO HDO HDL HOB) as (rc & hp' & out & -> & _ & HR).
    destruct HN as (_ & _ & K1 & K2 & _).
    destruct HR as [(_ & [HR|HR] & _)|(-> & _ & _ & ->)]; try congruence. eexists. split; [reflexivity|]. auto.
  Qed.
End Bufs.
