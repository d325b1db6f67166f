(** Proofs about the scryptenc.c model: encryption succeeds once the parameters
    are settled, whichever way they were. *)
From Verif Require Import Base SpecBytes SpecSHA SpecScrypt SpecScryptAPI SpecAES SpecDRBG SpecFormat SpecStream
  M_endian P_endian M_sha256_tr M_simd M_sha256_hw M_sha256 P_sha256 M_smix M_aes_hw M_aesctr P_aes P_aesctr P_scrypt P_scrypt_ref
  M_scrypt_sel P_scrypt_sel Prop_scrypt M_verify P_verify M_entropy P_entropy M_machine M_double M_memlimit M_cpuperf
  M_humansize P_humansize M_params M_stdio P_stdio M_scryptenc SpecScryptenc P_scryptenc P_scryptenc2 P_scryptenc4 P_scryptenc5.

Section Succeeds.
  Context (M : machine) (cfg : clk_cfg).
  Lemma scryptenc_setup_succeeds lb e P header dk passwd verbose force salt d lb1 ms P1 :
    size_bits (m_szb M) -> xp_ok P -> bytes_ok passwd -> env_bytes (v_ent e) -> drbg_inv (lb_drbg lb) ->
    length header = 96%nat -> length dk = 64%nat -> bytes_ok dk ->
    setup_params M cfg lb e P verbose force = Ok (lb1, ms, P1, SCRYPT_OK) ->
    (0 < x_logN P1)%Z ->
    computable M (mk_fh (Z.to_N (x_logN P1)) (x_r P1) (x_p P1) salt) -> no_failure e ->
    crypto_entropy_read (shw M) (jk M) (v_ent e) (lb_drbg lb) 32 = Ok (Some salt, d) ->
    exists lb', let h := mk_fh (Z.to_N (x_logN P1)) (x_r P1) (x_p P1) salt in
      scryptenc_setup M cfg lb e P header dk passwd verbose force
        = Ok (lb', ms, P1, fmt_96 kdf passwd h, fmt_keys kdf passwd h, SCRYPT_OK) /\ fhead_ok h.
  Proof.
    intros Hs HXP HPW HE HD HLH HLD HOD HSP HL0 HV HN HS.
    pose proof (setup_params_inv M cfg lb e P verbose force lb1 ms P1 SCRYPT_OK HXP HSP) as (HDL & [HR HP] & _ & _ & _).
    pose proof HN as (N1 & N2 & _ & _ & _ & N3 & N4).
    pose proof HV as [V1 V2 (lg & Hlg & Vlg) V4 _ _ _ _]. cbn [fh_logN fh_r fh_p fh_salt] in *.
    assert (lg = Z.to_N (x_logN P1)) as -> by (symmetry; apply (N.pow_inj_r 2); [lia|exact Vlg]). clear Vlg.
    unfold scryptenc_setup. rewrite HSP, bind_Ok. change (is_ok SCRYPT_OK) with true. cbn [negb]. cbv iota.
    assert (assert_ ((0 <? x_logN P1)%Z && (x_logN P1 <? 64)%Z) = Ok tt) as ->.
    { unfold assert_. assert ((0 <? x_logN P1)%Z && (x_logN P1 <? 64)%Z = true) as -> by lia. reflexivity. }
    rewrite bind_Ok. rewrite HDL. rewrite HS, bind_Ok.
    assert (Z.to_N (x_logN P1) <= 63) as HL63 by lia. rewrite one_shl by exact HL63.
    pose proof (crypto_entropy_read_ok (shw M) (jk M) (v_ent e) (lb_drbg lb) 32 HE HD) as (r & st' & ops & out & ER & HDI & _ & _ & _ & HRR).
    assert (length salt = 32%nat /\ bytes_ok salt) as [HSL HSO].
    { destruct HRR as [(E0 & A & B)|(E0 & _)]; [|congruence]. assert (salt = out) as -> by congruence. auto. }
    assert (2 ^ Z.to_N (x_logN P1) < 2 ^ 64) as HN64 by (apply N.pow_lt_mono_r; lia).
    match goal with |- context [derive M ?l e passwd salt ?N_ ?r0 ?p0 dk] =>
      destruct (derive_total M l e passwd salt N_ r0 p0 dk Hs HPW HSO HN64 HR HP HLD HOD ltac:(intros; exact N1)) as (ok & dk1 & lb2 & ED) end.
    rewrite ED, bind_Ok. apply derive_inv in ED; auto. destruct ED as (_ & L1 & O1 & HT & HF).
    destruct ok; cbn [negb]. 2:{ exfalso. apply HF; auto. }
    destruct (HT eq_refl) as [_ EDK].
    assert (fhead_ok (mk_fh (Z.to_N (x_logN P1)) (x_r P1) (x_p P1) salt)) as HFO.
    { unfold fhead_ok. cbn [fh_logN fh_r fh_p fh_salt]. repeat split; auto; lia. }
    pose proof (build_header_ok M header passwd (mk_fh (Z.to_N (x_logN P1)) (x_r P1) (x_p P1) salt) HLH HFO) as HB.
    cbn [fh_logN fh_r fh_p fh_salt] in HB. rewrite Z2N.id in HB by lia.
    rewrite EDK.
    match goal with |- context [build_header M header ?k salt ?l ?r0 ?p0] => assert (build_header M header k salt l r0 p0 = Ok (fmt_96 kdf passwd (mk_fh (Z.to_N (x_logN P1)) (x_r P1) (x_p P1) salt))) as -> by exact HB end.
    rewrite bind_Ok. exists lb2. cbv zeta. split; [reflexivity|exact HFO].
  Qed.
  Lemma scryptenc_buf_succeeds lb hp e data outbuf passwd P verbose force salt d lb1 ms P1 :
    size_bits (m_szb M) -> xp_ok P -> bytes_ok passwd -> env_bytes (v_ent e) -> drbg_inv (lb_drbg lb) -> heap_ok hp ->
    bytes_ok data -> N.of_nat (length data) < 2 ^ 64 -> (length data + 128 <= length outbuf)%nat ->
    all_zero P = true \/ none_zero P = true ->
    setup_params M cfg lb e P verbose force = Ok (lb1, ms, P1, SCRYPT_OK) ->
    (0 < x_logN P1)%Z -> computable M (mk_fh (Z.to_N (x_logN P1)) (x_r P1) (x_p P1) salt) -> no_failure e ->
    crypto_entropy_read (shw M) (jk M) (v_ent e) (lb_drbg lb) 32 = Ok (Some salt, d) ->
    exists o, scryptenc_buf M cfg lb hp e data outbuf passwd P verbose force = Ok o /\ oc_rc o = SCRYPT_OK /\ oc_P o = P1 /\ oc_msgs o = ms /\
      oc_val o = fmt_file kdf passwd (mk_fh (Z.to_N (x_logN P1)) (x_r P1) (x_p P1) salt) data ++ skipn (length data + 128) outbuf.
  Proof.
    intros Hs HXP HPW HE HD HH HDO HDL HOB HZ HSP HL0 HV HN HS.
    destruct (scryptenc_setup_succeeds lb e P (scratch_bytes (jk M) 96) (scratch_bytes (jk M) 64) passwd verbose force salt d lb1 ms P1
      Hs HXP HPW HE HD (scratch_bytes_length _ _) (scratch_bytes_length _ _) (scratch_bytes_ok _ _) HSP HL0 HV HN HS) as (lb' & E & HFO).
    rewrite scryptenc_buf_eq.
    assert (assert_ (all_zero P || none_zero P) = Ok tt) as ->.
    { unfold assert_. destruct HZ as [-> | ->]; [|rewrite orb_true_r]; reflexivity. }
    rewrite bind_Ok, E, bind_Ok.
    destruct (enc_buf_rest_ok M hp e data outbuf lb' ms P1 passwd _ HH HFO HDO HDL HOB) as (rc & hp' & out & -> & _ & HR).
    destruct HN as (_ & _ & K1 & K2 & _).
    destruct HR as [(_ & [HR|HR] & _)|(-> & _ & _ & ->)]; try congruence. eexists. split; [reflexivity|]. auto.
  Qed.
  (** A failed set-up ends the call with that status. *)
  Lemma scryptenc_buf_stops lb hp e data outbuf passwd P verbose force lb1 ms P1 rc :
    all_zero P = true \/ none_zero P = true ->
    setup_params M cfg lb e P verbose force = Ok (lb1, ms, P1, rc) -> rc <> SCRYPT_OK ->
    exists o, scryptenc_buf M cfg lb hp e data outbuf passwd P verbose force = Ok o /\ oc_rc o = rc /\ oc_P o = P1 /\ oc_msgs o = ms /\ oc_val o = outbuf.
  Proof.
    intros HZ HSP HRC. rewrite scryptenc_buf_eq.
    assert (assert_ (all_zero P || none_zero P) = Ok tt) as ->.
    { unfold assert_. destruct HZ as [-> | ->]; [|rewrite orb_true_r]; reflexivity. }
    rewrite bind_Ok. unfold scryptenc_setup. rewrite HSP, bind_Ok.
    assert (is_ok rc = false) as -> by (destruct rc; try reflexivity; congruence). cbn [negb]. cbv iota.
    rewrite bind_Ok, enc_buf_rest_fail by (try assumption; apply scratch_bytes_length). eexists. split; [reflexivity|]. auto.
  Qed.
End Succeeds.
