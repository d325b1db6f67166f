(** Property C47: explicit parameters override the limits when encrypting; and
    encryption with automatic parameters succeeds (part of C02). *)
From Coq Require Import Reals.
From Flocq Require Import Core IEEE754.BinarySingleNaN.
From Verif Require Import Base SpecBytes SpecSHA SpecScrypt SpecScryptAPI SpecAES SpecDRBG SpecDouble SpecFormat SpecStream
  M_endian P_endian M_sha256_tr M_simd M_sha256_hw M_sha256 P_sha256 M_smix M_aes_hw M_aesctr P_aes P_aesctr P_scrypt P_scrypt_ref
  M_scrypt_sel P_scrypt_sel Prop_scrypt M_verify P_verify M_entropy P_entropy M_machine M_double P_double M_memlimit P_memlimit M_cpuperf
  M_humansize P_humansize M_params Prop_params M_stdio P_stdio M_scryptenc SpecScryptenc P_scryptenc P_scryptenc2 P_scryptenc4 P_scryptenc5 P_scryptenc12 Prop_enc.

(** Explicit parameters in the range of the format. *)
Definition explicit_valid (P : xparams) : Prop :=
  (1 <= x_logN P <= 63)%Z /\ 0 < x_r P /\ 0 < x_p P /\ x_r P * x_p P < 2 ^ 30.
(** All three given (the documented condition for explicit parameters). *)
Definition explicit_given (P : xparams) : Prop := x_logN P <> 0%Z /\ x_r P <> 0 /\ x_p P <> 0.

Lemma given_none_zero P : explicit_given P -> none_zero P = true.
Proof. intros (A & B & C). unfold none_zero. lia. Qed.

(** Invalid explicit parameters: SCRYPT_EPARAM, nothing written, nothing
    printed, in any environment and whatever the flags. *)
Theorem C47_invalid M cfg lb hp e data outbuf passwd P verbose force :
  xp_ok P -> explicit_given P -> ~ explicit_valid P ->
  exists o, scryptenc_buf M cfg lb hp e data outbuf passwd P verbose force = Ok o /\
    oc_rc o = SCRYPT_EPARAM /\ oc_val o = outbuf /\ oc_msgs o = [] /\ oc_P o = P.
Proof.
  intros [HR HP] HG HV.
  assert (setup_params M cfg lb e P verbose force = Ok (mk_lib (lb_smix lb) (lb_drbg lb), [], P, SCRYPT_EPARAM)) as HSP.
  { unfold setup_params. destruct HG as (G1 & G2 & G3).
    assert ((x_logN P =? 0)%Z = false) as -> by lia. cbn [negb].
    rewrite C16_invalid; auto.
    unfold explicit_valid in HV. lia. }
  destruct (scryptenc_buf_stops M cfg lb hp e data outbuf passwd P verbose force _ _ _ _ (or_intror (given_none_zero P HG)) HSP ltac:(discriminate)) as (o & A & B & C & D & E).
  eauto 10.
Qed.
Print Assumptions C47_invalid.

(** The limit warnings, in this order: memory, time. *)
Definition limit_warnings (big slow : bool) : list msg :=
  (if big then [Msg_warn_mem] else []) ++ (if slow then [Msg_warn_time] else []).

(** Valid explicit parameters with limits enabled (force = false), in an
    environment where nothing fails: encryption goes on to success with exactly
    those parameters; a memory warning is printed exactly when 128*N*r exceeds
    the budget, a time warning never if 4*N*r*p fits into speed * maxtime and
    always if it exceeds it by more than the factor 1 + 2^-51. *)
Theorem C47_valid M cfg lb hp e data outbuf passwd P verbose L opps salt st' :
  enc_ready M lb hp e passwd P -> data_ok data -> (length data + 128 <= length outbuf)%nat ->
  explicit_valid P -> no_failure e ->
  computable M (mk_fh (Z.to_N (x_logN P)) (x_r P) (x_p P) salt) ->
  crypto_entropy_read (m_sha M) (m_junk M) (v_ent e) (lb_drbg lb) 32 = Ok (Some salt, st') ->
  budget M (v_params e) (x_lim P) L -> speed M cfg (lb_smix lb) (v_params e) opps ->
  exists o big slow display, scryptenc_buf M cfg lb hp e data outbuf passwd P verbose false = Ok o /\
    oc_rc o = SCRYPT_OK /\ oc_P o = P /\
    oc_val o = fmt_file scrypt_wrapping passwd (mk_fh (Z.to_N (x_logN P)) (x_r P) (x_p P) salt) data ++ skipn (length data + 128) outbuf /\
    oc_msgs o = display ++ limit_warnings big slow /\
    (if verbose then exists m, display = [Msg_params m] else display = []) /\
    let N_ := 2 ^ Z.to_N (x_logN P) in
    let ops := dmul opps (l_maxtime (x_lim P)) in
    (big = true <-> L < 128 * N_ * x_r P) /\
    (fits (4 * N_ * x_r P * x_p P) ops -> slow = false) /\
    (is_nan ops = false -> slow = false ->
     at_most (IZR (Z.of_N (4 * N_ * x_r P * x_p P)) / (1 + bpow radix2 (-51))) ops).
Proof.
  intros [[Hs HPW HH] HXP HE HDR] [HD1 HD2] HO (V1 & V2 & V3 & V4) HN HC ES HB HSp.
  assert (exists sst' m rc, checkparams M cfg (lb_smix lb) (v_params e) (x_lim P) (x_logN P) (x_r P) (x_p P) verbose false = Ok (sst', m, rc) /\
    (if verbose then exists d, m = Some d else m = None)) as (sst' & m & rc & EC & Hm).
  { destruct HSp as (s1 & HS1). unfold checkparams.
    destruct (Z.ltb_spec (x_logN P) 1) as [|_]; [lia|]. destruct (Z.ltb_spec 63 (x_logN P)) as [|_]; [lia|]. cbn [orb].
    assert (w64 (x_r P * x_p P) = x_r P * x_p P) as Hw by (apply w64_small; lia). rewrite Hw.
    destruct (N.leb_spec 0x40000000 (x_r P * x_p P)) as [|_]; [lia|].
    destruct (N.eqb_spec (x_r P) 0) as [|_]; [lia|]. destruct (N.eqb_spec (x_p P) 0) as [|_]; [lia|]. cbn [orb].
    unfold budget in HB. rewrite HB, bind_Ok, HS1, bind_Ok.
    destruct HN as (_ & _ & _ & _ & _ & N3 & N4). rewrite N3, N4.
    pose proof (proj1 (memtouse_range _ _ _ _ _ Hs HB)) as HLr.
    destruct verbose.
    - destruct (display_total (x_logN P) (x_r P) (x_p P) L opps (l_maxtime (x_lim P)) ltac:(lia) ltac:(lia)) as (d & ->). rewrite !bind_Ok. eauto 10.
    - rewrite bind_Ok. eauto 10. }
  pose proof EC as EC0. rewrite <- (Z2N.id (x_logN P)) in EC by lia.
  destruct (C16_limit_checks M cfg (lb_smix lb) (v_params e) (x_lim P) (Z.to_N (x_logN P)) (x_r P) (x_p P) verbose sst' m rc L opps
    ltac:(lia) V2 V3 V4 HB HSp EC) as (big & slow & -> & W1 & W2 & W3). clear EC.
  assert (setup_params M cfg lb e P verbose false = Ok (mk_lib sst' (lb_drbg lb), opt_msg m ++ limit_warnings big slow, P, SCRYPT_OK)) as HSP.
  { unfold setup_params. assert ((x_logN P =? 0)%Z = false) as -> by lia. cbn [negb]. rewrite EC0, bind_Ok.
    destruct big, slow; reflexivity. }
  assert (none_zero P = true) as HZ by (unfold none_zero; lia).
  destruct (scryptenc_buf_succeeds M cfg lb hp e data outbuf passwd P verbose false salt st' _ _ _
    Hs HXP HPW HE HDR HH HD1 HD2 HO (or_intror HZ) HSP ltac:(lia) HC HN ES) as (o & A1 & A2 & A3 & A4 & A5).
  exists o, big, slow, (opt_msg m). split; [exact A1|]. split; [exact A2|]. split; [exact A3|]. split; [exact A5|]. split; [exact A4|].
  split. { destruct verbose; [destruct Hm as (d & ->); exists d; reflexivity|rewrite Hm; reflexivity]. }
  cbv zeta. auto.
Qed.
Print Assumptions C47_valid.

(** In any environment a call with explicit valid parameters never fails
    because of the limits or the parameters. *)
Theorem C47_never_limited M cfg lb hp e data outbuf passwd P verbose force o :
  enc_ready M lb hp e passwd P -> data_ok data -> (length data + 128 <= length outbuf)%nat ->
  explicit_valid P ->
  scryptenc_buf M cfg lb hp e data outbuf passwd P verbose force = Ok o ->
  oc_P o = P /\ ~ In (oc_rc o) (SCRYPT_EPARAM :: limit_codes).
Proof.
  intros [[Hs HPW HH] HXP HE HDR] [HD1 HD2] HO (V1 & V2 & V3 & V4) E.
  rewrite scryptenc_buf_eq in E. apply bind_inv in E. destruct E as (u & EA & E). clear u EA.
  apply bind_inv in E. destruct E as ([[[[[lb1 ms] P1] hd] dk] rc] & ES & E).
  pose proof ES as ES0. unfold scryptenc_setup in ES0. apply bind_inv in ES0. destruct ES0 as ([[[lb2 ms2] P2] rc2] & EP & ES0).
  assert (P2 = P /\ ~ In rc2 (SCRYPT_EPARAM :: limit_codes)) as [HP2 HRC2].
  { clear E ES ES0. unfold setup_params in EP. assert ((x_logN P =? 0)%Z = false) as HZ0 by lia. rewrite HZ0 in EP. cbn [negb] in EP.
    apply bind_inv in EP. destruct EP as ([[sst m] rc1] & EC & EP). cbv zeta in EP.
    assert (rc1 <> SCRYPT_EINVAL /\ rc1 <> SCRYPT_EPARAM) as [R1 R2].
    { unfold checkparams in EC.
      destruct (Z.ltb_spec (x_logN P) 1) as [|_]; [lia|]. destruct (Z.ltb_spec 63 (x_logN P)) as [|_]; [lia|]. cbn [orb] in EC.
      assert (w64 (x_r P * x_p P) = x_r P * x_p P) as Hw by (apply w64_small; lia). rewrite Hw in EC.
      destruct (N.leb_spec 0x40000000 (x_r P * x_p P)) as [|_]; [lia|].
      destruct (N.eqb_spec (x_r P) 0) as [|_]; [lia|]. destruct (N.eqb_spec (x_p P) 0) as [|_]; [lia|]. cbn [orb] in EC.
      destruct force.
      - apply bind_inv in EC. destruct EC as (m0 & _ & EC). split; congruence.
      - apply bind_inv in EC. destruct EC as ([Lm|] & _ & EC); [|split; congruence].
        apply bind_inv in EC. destruct EC as ([s1 [rc0|op]] & EPF & EC).
        + apply cpuperf_codes in EPF. assert (rc0 = rc1) as <- by congruence.
          clear EC. destruct EPF as [-> | ->]; split; discriminate.
        + apply bind_inv in EC. destruct EC as (m0 & _ & EC). assert (rc1 = check_limits Lm (dmul op (l_maxtime (x_lim P))) (Z.to_N (x_logN P)) (x_r P) (x_p P)) as -> by congruence.
          unfold check_limits. destruct (_ <? 128), (dlt _ _); split; discriminate. }
    assert (P2 = P) as -> by congruence. split; [reflexivity|].
    assert (rc2 = (let rc := if rcode_eqb rc1 SCRYPT_ETOOBIG || rcode_eqb rc1 SCRYPT_ETOOSLOW || rcode_eqb rc1 SCRYPT_EBIGSLOW then SCRYPT_OK else rc1 in
      if rcode_eqb rc SCRYPT_EINVAL then SCRYPT_EPARAM else rc)) as -> by (cbv zeta; congruence).
    clear EP EC. destruct rc1; cbn; intuition congruence. }
  subst P2.
  assert (P1 = P /\ ~ In rc (SCRYPT_EPARAM :: limit_codes)) as [-> HRC].
  { destruct (is_ok rc2) eqn:EO; cbn [negb] in ES0; cbv iota in ES0.
    2:{ split; [congruence|]. assert (rc2 = rc) as <- by congruence. exact HRC2. }
    apply bind_inv in ES0. destruct ES0 as (u & _ & ES0).
    apply bind_inv in ES0. destruct ES0 as ([[salt|] dd] & _ & ES0).
    2:{ split; [congruence|]. assert (rc = SCRYPT_ESALT) as -> by congruence. cbn. intuition congruence. }
    cbv zeta in ES0. apply bind_inv in ES0. destruct ES0 as ([[ok dk0] lb3] & _ & ES0).
    destruct ok; cbn [negb] in ES0; cbv iota in ES0.
    - apply bind_inv in ES0. destruct ES0 as (hd0 & _ & ES0). split; [congruence|]. assert (rc = SCRYPT_OK) as -> by congruence. cbn. intuition congruence.
    - split; [congruence|]. assert (rc = SCRYPT_EKEY) as -> by congruence. cbn. intuition congruence. }
  apply scryptenc_setup_inv in ES; auto using scratch_bytes_ok, scratch_bytes_length.
  destruct ES as (_ & A2 & _ & _ & _ & A6). destruct (is_ok rc) eqn:EO.
  - apply is_ok_spec in EO. subst rc. destruct (A6 eq_refl) as (h & dd & B1 & B2 & B3 & B4 & B5 & B6). subst dk hd.
    destruct (enc_buf_rest_ok M hp e data outbuf lb1 ms P passwd h HH B1 HD1 HD2 HO) as (rc & hp' & out & E2 & _ & HR).
    assert (o = mk_oc rc lb1 ms P (repeat 0 64) hp' out) as -> by congruence. cbn [oc_P oc_rc]. split; [reflexivity|].
    destruct HR as [(-> & _)|(-> & _)]; [unfold aes_rc; destruct (v_key_mem e)|]; cbn; intuition congruence.
  - apply is_ok_false in EO. unfold enc_buf_rest in E. assert (is_ok rc = false) as HIF by (apply is_ok_false; exact EO). rewrite HIF in E. cbn [negb] in E. cbv iota in E.
    apply bind_inv in E. destruct E as (dk2 & _ & E). assert (oc_P o = P /\ oc_rc o = rc) as [-> ->] by (split; injection E as <-; reflexivity).
    split; [reflexivity|exact HRC].
Qed.
Print Assumptions C47_never_limited.

(** Encryption with automatic parameters succeeds when nothing fails, with a
    budget, a speed estimate and a time limit that is a number (on a 32-bit
    size_t: if the lanes chosen fit). *)
Theorem C02_auto_succeeds M cfg lb hp e data outbuf passwd P verbose L opps salt st' :
  enc_ready M lb hp e passwd P -> data_ok data -> (length data + 128 <= length outbuf)%nat ->
  all_zero P = true -> no_failure e -> m_szb M = 64 ->
  is_number (l_maxtime (x_lim P)) -> clock_sane (v_params e) ->
  crypto_entropy_read (m_sha M) (m_junk M) (v_ent e) (lb_drbg lb) 32 = Ok (Some salt, st') ->
  budget M (v_params e) (x_lim P) L -> speed M cfg (lb_smix lb) (v_params e) opps ->
  exists o logN p, scryptenc_buf M cfg lb hp e data outbuf passwd P verbose false = Ok o /\
    oc_rc o = SCRYPT_OK /\ oc_P o = mk_xp (x_lim P) (Z.of_N logN) 8 p /\ 1 <= logN <= 63 /\ 1 <= p /\
    oc_val o = fmt_file scrypt_wrapping passwd (mk_fh logN 8 p salt) data ++ skipn (length data + 128) outbuf /\
    128 * 2 ^ logN * 8 <= L.
Proof.
  intros [[Hs HPW HH] HXP HE HDR] [HD1 HD2] HO HZ HN H64 HT HCS ES HB HSp.
  assert (exists sst' m l r p, pickparams M cfg (lb_smix lb) (v_params e) (x_lim P) verbose = Ok (sst', m, inr (l, r, p))) as (sst' & m & l & r & p & EP).
  { destruct (C13_total M cfg (lb_smix lb) (v_params e) (x_lim P) L opps Hs HT HCS HB HSp) as (s0 & l & r & p & E0).
    pose proof (C13_chosen_parameters_valid M cfg _ _ _ _ _ _ _ _ _ Hs HT HCS E0) as (Hl & _).
    destruct verbose; [|eauto 10].
    unfold pickparams in E0 |- *. unfold budget in HB. rewrite HB, bind_Ok in E0 |- *. destruct HSp as (s1 & HS1). rewrite HS1, bind_Ok in E0 |- *.
    apply bind_inv in E0. destruct E0 as ([[l0 r0] p0] & EK & E0). rewrite EK, bind_Ok. rewrite bind_Ok in E0.
    assert (l0 = l) as -> by congruence.
    destruct HN as (_ & _ & _ & _ & _ & N3 & N4). rewrite N3, N4.
    pose proof (proj1 (memtouse_range _ _ _ _ _ Hs HB)) as HLr.
    destruct (display_total (Z.of_N l) r0 p0 L opps (l_maxtime (x_lim P)) ltac:(lia) ltac:(lia)) as (d & ->). rewrite !bind_Ok. eauto 10. }
  pose proof (C13_chosen_parameters_valid M cfg _ _ _ _ _ _ _ _ _ Hs HT HCS EP) as (Hl & -> & Hp & Hrp & HV).
  pose proof (C14_chosen_parameters_respect_limits M cfg _ _ _ _ _ _ _ _ _ Hs HT HCS EP) as (L2 & op2 & HB2 & _ & HM & _).
  assert (L2 = L) as -> by (unfold budget in *; congruence).
  assert (setup_params M cfg lb e P verbose false = Ok (mk_lib sst' (lb_drbg lb), opt_msg m, mk_xp (x_lim P) (Z.of_N l) 8 p, SCRYPT_OK)) as HSP.
  { unfold setup_params. assert ((x_logN P =? 0)%Z = true) as -> by (unfold all_zero in HZ; lia). cbn [negb]. rewrite EP, bind_Ok. reflexivity. }
  assert (computable M (mk_fh (Z.to_N (x_logN (mk_xp (x_lim P) (Z.of_N l) 8 p))) (x_r (mk_xp (x_lim P) (Z.of_N l) 8 p)) (x_p (mk_xp (x_lim P) (Z.of_N l) 8 p)) salt)) as HC.
  { unfold computable. cbn [x_logN x_r x_p fh_logN fh_r fh_p]. rewrite N2Z.id. apply HV. left. exact H64. }
  destruct (scryptenc_buf_succeeds M cfg lb hp e data outbuf passwd P verbose false salt st' _ _ _
    Hs HXP HPW HE HDR HH HD1 HD2 HO (or_introl HZ) HSP ltac:(cbn [x_logN]; lia) HC HN ES) as (o & A1 & A2 & A3 & A4 & A5).
  cbn [x_logN x_r x_p] in A5. rewrite N2Z.id in A5.
  exists o, l, p. auto 10.
Qed.
Print Assumptions C02_auto_succeeds.

(** Concrete cases: N = 2^14, r = 8, p = 1 explicitly; automatic; and r = 0. *)
Example C47_hyps : exists L opps salt d,
  enc_ready ex_machine ex_lib ex_heap ex_call ex_passwd ex_P /\ data_ok ex_data /\ explicit_valid ex_P /\ no_failure ex_call /\
  computable ex_machine (mk_fh (Z.to_N (x_logN ex_P)) (x_r ex_P) (x_p ex_P) salt) /\
  crypto_entropy_read (m_sha ex_machine) (m_junk ex_machine) (v_ent ex_call) (lb_drbg ex_lib) 32 = Ok (Some salt, d) /\
  budget ex_machine (v_params ex_call) (x_lim ex_P) L /\ speed ex_machine ex_cfg (lb_smix ex_lib) (v_params ex_call) opps.
Proof.
  destruct (ex_speed None) as [opps HS]. destruct ex_salt as (salt & d & E & _ & _).
  exists (2 ^ 30), opps, salt, d. split; [apply ex_enc_ready; split; reflexivity|]. split; [split; [repeat constructor|reflexivity]|].
  split; [unfold explicit_valid; cbn; lia|]. split; [exact ex_no_failure|]. split.
  { unfold computable. cbn [fh_logN fh_r fh_p ex_P x_logN x_r x_p ex_machine m_szb].
    change (Z.to_N 14) with 14. constructor; try (vm_compute; congruence); exists 14; split; [lia|reflexivity]. }
  split; [exact E|]. split; [apply ex_budget|exact HS].
Qed.
Example C47_invalid_hyps : let P := mk_xp (ex_lim dinf) 64 8 1 in xp_ok P /\ explicit_given P /\ ~ explicit_valid P.
Proof. cbv zeta. unfold xp_ok, explicit_given, explicit_valid. cbn. lia. Qed.
Example C02_auto_hyps : exists L opps salt d,
  enc_ready ex_machine ex_lib ex_heap ex_call ex_passwd ex_P0 /\ all_zero ex_P0 = true /\ m_szb ex_machine = 64 /\
  is_number (l_maxtime (x_lim ex_P0)) /\ clock_sane (v_params ex_call) /\
  crypto_entropy_read (m_sha ex_machine) (m_junk ex_machine) (v_ent ex_call) (lb_drbg ex_lib) 32 = Ok (Some salt, d) /\
  budget ex_machine (v_params ex_call) (x_lim ex_P0) L /\ speed ex_machine ex_cfg (lb_smix ex_lib) (v_params ex_call) opps.
Proof.
  destruct (ex_speed None) as [opps HS]. destruct ex_salt as (salt & d & E & _ & _).
  exists (2 ^ 30), opps, salt, d. split; [apply ex_enc_ready; split; reflexivity|]. split; [reflexivity|]. split; [reflexivity|].
  assert (is_number (l_maxtime (x_lim ex_P0))) as HNum by reflexivity.
  split; [exact HNum|]. split; [exact (proj1 (C13_hyps None dinf HNum))|]. split; [exact E|]. split; [apply ex_budget|exact HS].
Qed.
Definition Prop_explicit_all := (C47_invalid, C47_valid, C47_never_limited, C02_auto_succeeds).
Print Assumptions Prop_explicit_all.
