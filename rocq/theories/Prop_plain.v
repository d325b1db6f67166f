(** C60: everyday use without -f: what the program encrypted with parameters of its
    own choice, the program decrypts within its own limits. *)
From Coq Require Import Reals Lra String.
From Flocq Require Import Core IEEE754.BinarySingleNaN.
From Verif Require Import Base SpecAscii SpecBytes SpecSHA SpecScrypt SpecScryptAPI SpecAES SpecDouble SpecFormat SpecStream P_scrypt M_machine M_double P_double M_smix M_stdio P_stdio M_memlimit P_memlimit M_cpuperf P_cpuperf
  M_strto M_params Prop_params M_scryptenc SpecScryptenc M_getopt M_readpass M_print_error M_main M_memzero P_memzero SpecPass SpecGetopt SpecCLI P_scrypt_ref P_scryptenc P_scryptenc2 P_scryptenc3 P_scryptenc4
  P_scryptenc7 P_scryptenc8 P_scryptenc9 P_entropy M_entropy P_readpass Prop_getopt Prop_readpass Prop_enc Prop_dec Prop_io Prop_cli P_main Prop_main
  P_scryptenc12 M_sha256 P_sha256 P_scryptenc P_monotone Prop_monotone SpecVerdict P_unforced Prop_unforced P_enc_params.
From Coq Require Import Lia.
Local Open Scope N_scope.
Local Open Scope list_scope.

(** A successful stream decryption makes a successful run. *)
Lemma program_decrypts W prog rest s i o passwd fi fo oo : sane W -> Forall cstring rest ->
  requested W Dec rest s i o -> reads W s true i passwd fi -> output_stream W o = Some fo ->
  scryptdec_file (w_M W) (w_cfg W) (w_lb W) (w_heap W) (w_env W) fi fo passwd (params_of s) (s_verbose s) (s_force s) = Ok oo -> oc_rc oo = SCRYPT_OK ->
  exists r, main W (prog :: str "dec" :: rest) = Ok r /\ pr_status r = 0%Z /\ put W r o (snd (oc_val oo)) /\
    heap_clean (w_heap W) (pr_heap r) /\ forall n, o = Some n -> In (E_close_out (w_close_out W)) (pr_events r).
Proof.
  intros HW HC HQ HR HO EOO EO.
  change (str "dec") with (mode_word Dec). rewrite (C39_operation W prog Dec rest s i o HC HQ). cbn [operation].
  destruct (sane_ready W s true i passwd fi HW HR) as [R1 R2].
  assert (heap_clean (w_heap W) (oc_heap oo)) as HCL by (destruct (C43_stream_decrypt _ _ _ _ _ _ _ _ _ _ _ _ R1 R2 EOO) as [HCL _]; apply HCL; rewrite EO; discriminate).
  unfold scryptdec_file in EOO. apply bind_inv in EOO. destruct EOO as (u & _ & EOO). apply bind_inv in EOO. destruct EOO as (oc & EC & EOO).
  destruct (oc_val oc) as [C fi1] eqn:EV. destruct (is_ok (oc_rc oc)) eqn:EOC; cbn [negb] in EOO.
  2:{ exfalso. apply Ok_inj in EOO. subst oo. cbn [oc_rc] in EO. rewrite EO in EOC. discriminate EOC. }
  apply bind_inv in EOO. destruct EOO as ([[[rc fi2] fo2] h2] & ECP & EOO). apply bind_inv in EOO. destruct EOO as (h3 & EF & EOO). apply Ok_inj in EOO. subst oo.
  cbn [oc_rc oc_val oc_heap snd] in EO, HCL |- *. subst rc.
  unfold scrypt_mode_enc_dec. destruct HR as [fi0 rp I1 I2 I3 ->]. fold (input_stream W i). rewrite I1.
  fold (ask W s true). rewrite I2, bind_Ok, I3. rewrite EC, bind_Ok, EOC. cbn [negb]. unfold enc_dec_run. fold (output_stream W o). rewrite HO, EV. cbn [fst snd].
  rewrite ECP, !bind_Ok, EF, bind_Ok, release_pass_ok, bind_Ok. cbn [is_ok rcode_eqb]. rewrite bind_Ok.
  destruct o as [n|]; rewrite bind_Ok; eexists; (split; [reflexivity|]); unfold add_events; cbn [pr_status pr_heap pr_events put pr_stdout pr_file]; repeat (split; [solve [reflexivity|auto]|]).
  - intros n' _. repeat (rewrite in_app_iff; cbn [close_out In]). tauto.
  - intros n' H. discriminate H.
Qed.

(** The memory and time a file needs are within what the run may use. *)
Record affordable (W : world) (s : settings) (h : fhead) (L : N) (opps : double) : Prop := mk_aff {
  af_budget : budget (w_M W) (v_params (w_env W)) (mk_limits (s_maxmem s) (s_maxmemfrac s) (s_maxtime s)) L;
  af_speed : speed (w_M W) (w_cfg W) (lb_smix (w_lb W)) (v_params (w_env W)) opps;
  af_mem : 128 * 2 ^ fh_logN h * fh_r h <= L;
  af_time : fits (4 * 2 ^ fh_logN h * fh_r h * fh_p h) (dmul opps (s_maxtime s)) }.

(** C60, decryption: without -f, a file within the limits is decrypted. *)
Theorem C60_decrypts : forall W prog rest s i o passwd fi fo h data L opps, sane W -> Forall cstring rest ->
  requested W Dec rest s i o -> s_force s = false -> s_logN s = 0%Z -> reads W s true i passwd fi -> delivered (fmt_file scrypt_wrapping passwd h data) fi ->
  fhead_ok h -> computable (w_M W) h -> no_failure (w_env W) -> output_stream W o = Some fo -> out_good fo -> o_err fo = false ->
  affordable W s h L opps ->
  exists r fo', main W (prog :: str "dec" :: rest) = Ok r /\ pr_status r = 0%Z /\ put W r o fo' /\ o_data fo' = o_data fo ++ data /\
    heap_clean (w_heap W) (pr_heap r) /\ forall n, o = Some n -> In (E_close_out (w_close_out W)) (pr_events r).
Proof.
  intros W prog rest s i o passwd fi fo h data L opps HW HC HQ HF HL0 HR HD Hh Hc HN HO HG HE [A1 A2 A3 A4].
  destruct (sane_ready W s true i passwd fi HW HR) as [R1 R2].
  assert (data_ok (fmt_file kdf passwd h data)) as DO.
  { destruct (delivered_data _ _ HD) as [E1 E2]. split.
    - rewrite <- E1. apply stream_data_ok, R2.
    - destruct R2 as [_ R2]. rewrite <- E1. rewrite (no_fail_same fi E2) in R2. exact R2. }
  assert (all_zero (params_of s) = true) as HZ.
  { pose proof (C39_ranges _ _ _ _ _ _ HQ) as (HX & _). unfold all_zero, params_of. cbn [x_logN x_r x_p].
    destruct HX as [(H1 & H2 & H3)|((H1 & _) & _)]; [rewrite H1, H2, H3; reflexivity|rewrite HL0 in H1; lia]. }
  destruct (C59_status_stream (w_M W) (w_cfg W) (w_lb W) (w_heap W) (w_env W) _ passwd (params_of s) (s_verbose s) L opps R1 DO HZ HN A1 A2 fi fo HD HG HE)
    as (oo & v & EOO & HJ & _ & HI & HV).
  destruct (fmt_file_checks passwd h data Hh) as (B1 & B2 & B3 & B4 & _).
  assert (v = SCRYPT_OK) as ->.
  { apply (judges_within L (dmul opps (s_maxtime s)) h); [|exact A3|exact A4]. rewrite B1 in HJ. apply HJ. unfold reaches_limits. rewrite B1.
    repeat (split; [solve [assumption|rewrite fmt_file_length by apply Hh; lia]|]). exact Hh. }
  assert (oc_rc oo = SCRYPT_OK) as EO by (apply HI; split; [reflexivity|]; exists h, data; auto). destruct (HV h data EO eq_refl Hh) as [HV1 _].
  rewrite <- HF in EOO.
  destruct (program_decrypts W prog rest s i o passwd fi fo oo HW HC HQ HR HO EOO EO) as (r & E1 & E2 & E3 & E4 & E5).
  exists r, (snd (oc_val oo)). auto 10.
Qed.

(** C60, round trip: the parameters chosen when encrypting are affordable when
    decrypting with no smaller memory budget and operation limit. *)
Theorem C60_round_trip : forall W1 prog1 rest1 r1 s1 i1 o1 fi1 fo1 W2 prog2 rest2 s2 i2 o2 passwd fi2 fo2 file L2 opps2,
  sane W1 -> Forall cstring rest1 -> requested W1 Enc rest1 s1 i1 o1 -> s_logN s1 = 0%Z -> is_number (s_maxtime s1) -> clock_sane (v_params (w_env W1)) ->
  reads W1 s1 false i1 passwd fi1 -> output_stream W1 o1 = Some fo1 -> o_data fo1 = [] ->
  main W1 (prog1 :: str "enc" :: rest1) = Ok r1 -> pr_status r1 = 0%Z ->
  (match pr_file r1 with None => file = o_data (pr_stdout r1) | Some (_, fo) => file = o_data fo end) ->
  sane W2 -> Forall cstring rest2 -> requested W2 Dec rest2 s2 i2 o2 -> s_force s2 = false -> s_logN s2 = 0%Z -> reads W2 s2 true i2 passwd fi2 ->
  delivered file fi2 -> (forall h, computable (w_M W1) h -> computable (w_M W2) h) -> no_failure (w_env W2) -> output_stream W2 o2 = Some fo2 -> out_good fo2 -> o_err fo2 = false ->
  budget (w_M W2) (v_params (w_env W2)) (mk_limits (s_maxmem s2) (s_maxmemfrac s2) (s_maxtime s2)) L2 ->
  speed (w_M W2) (w_cfg W2) (lb_smix (w_lb W2)) (v_params (w_env W2)) opps2 ->
  (forall L, budget (w_M W1) (v_params (w_env W1)) (mk_limits (s_maxmem s1) (s_maxmemfrac s1) (s_maxtime s1)) L -> L <= L2) ->
  (forall opps n, speed (w_M W1) (w_cfg W1) (lb_smix (w_lb W1)) (v_params (w_env W1)) opps -> fits n (dmul opps (s_maxtime s1)) -> fits n (dmul opps2 (s_maxtime s2))) ->
  fits (2 ^ 15) (dmul opps2 (s_maxtime s2)) ->
  exists r2 fo2', main W2 (prog2 :: str "dec" :: rest2) = Ok r2 /\ pr_status r2 = 0%Z /\ put W2 r2 o2 fo2' /\ o_data fo2' = o_data fo2 ++ stream_data fi1.
Proof.
  intros W1 prog1 rest1 r1 s i o fi fo W2 prog2 rest2 s2 i2 o2 passwd fi2 fo2 file L2 opps2 S1 C1 HQ L1 T1 K1 RD1 O1 HEMPTY E1 Z1 HFILE S2 C2 Q2 F2 L02 RD2 D2 HCO N2 O2 G2 ER2
    HB HS HLL HOO HFL.
  change (str "enc") with (mode_word Enc) in E1. rewrite (C39_operation W1 prog1 Enc rest1 s i o C1 HQ) in E1. cbn [operation] in E1.
  apply enc_dec_course in E1.
  destruct E1 as [A1 A2 A3 A4 A5|passwd1 fi' oc a b h A1|passwd1 fi' a b A1 A2 A3 A4 A5 A6 A7 A8 A9|passwd1 fi' oc a b h A1
    |passwd1 fi' fo' oc a b A1 A2 A3 A4 A5 A6 A7 A8 A9 A10 A11|passwd1 fi' fo' oc rc fi3 fo3 h2 h3 a b A1]; try discriminate A1; try congruence.
  assert (passwd1 = passwd /\ fi' = fi) as [-> ->].
  { destruct RD1 as [x1 y1 I1 I2 I3 I4], A2 as [x2 y2 J1 J2 J3 J4]. rewrite I1 in J1. rewrite I2 in J2. apply Ok_inj in J2. subst y2.
    assert (x2 = x1) as -> by congruence. split; congruence. }
  assert (fo' = fo) as -> by congruence.
  rewrite Z1 in A5. destruct (is_ok (oc_rc oc)) eqn:EO; [|discriminate A5]. apply is_ok_spec in EO.
  destruct (sane_ready W1 s false i passwd fi S1 A2) as [[R1 R2 R3] [R4 R5]].
  destruct (enc_file_picked (w_M W1) (w_cfg W1) _ _ _ _ _ _ (params_of s) _ _ _ L1 A4 EO) as (sst & m & l & r & p & EP & EPP).
  apply scryptenc_file_inv in A4; auto; [|exact (requested_xp W1 Enc rest1 s i o HQ)|exact (sn_ent W1 S1)|exact (sn_drbg W1 S1)].
  destruct A4 as (_ & _ & _ & _ & _ & HE). rewrite EO in HE.
  assert (exists h, fhead_ok h /\ computable (w_M W1) h /\ oc_P oc = P_of (x_lim (params_of s)) h /\ o_data (snd (oc_val oc)) = o_data fo ++ fmt_file kdf passwd h (stream_data fi)) as (h & B1 & B2 & B4 & B3).
  { revert HE. generalize (oc_P oc) (fst (oc_val oc)) (snd (oc_val oc)) (oc_heap oc). intros P' x1 x2 x3 HE.
    inversion HE as [|h rc' y1 y2 y3 B1 B2 B3 B4]; subst; [congruence|]. inversion B4 as [|rc3 z1 z2 K1' K2| | | |z1 z2 z3 K1' K2 K3 K4 K5 K6 K7 K8]; subst.
    - unfold aes_rc in K1'. destruct (v_key_mem (w_env W1)); discriminate.
    - exists h. auto. }
  rewrite HEMPTY in B3. cbn [app] in B3.
  assert (file = fmt_file kdf passwd h (stream_data fi)) as ->.
  { rewrite <- B3. unfold put in A6. destruct o as [n|]; destruct A6 as [P1 P2]; rewrite P2 in HFILE; subst file; [reflexivity|rewrite P1; reflexivity]. }
  assert (fh_logN h = l /\ fh_r h = r /\ fh_p h = p) as (Hl & Hr & Hp).
  { rewrite EPP in B4. unfold P_of in B4. injection B4 as Y1 Y2 Y3. repeat split; [lia|congruence..]. }
  destruct (C14_chosen_parameters_respect_limits _ _ _ _ (x_lim (params_of s)) _ _ _ _ _ _ R1 T1 K1 EP) as (L & opps & D1 & D2' & D3 & D4).
  destruct (C60_decrypts W2 prog2 rest2 s2 i2 o2 passwd fi2 fo2 h (stream_data fi) L2 opps2 S2 C2 Q2 F2 L02 RD2 D2 B1 (HCO h B2) N2 O2 G2 ER2) as (r2 & fo2' & M1 & M2 & M3 & M4 & _).
  { constructor; [exact HB|exact HS| |]; rewrite Hl, Hr, ?Hp.
    - pose proof (HLL L D1). lia.
    - destruct D4 as [D4|D4]; [|exact (HOO opps _ D2' D4)].
      apply (at_most_le _ (IZR (Z.of_N (2 ^ 15)))); [apply IZR_le; lia|exact HFL]. }
  exists r2, fo2'. auto 10.
Qed.

(** The command line with two file names and no options. *)
Definition file_name (n : bytes) : Prop := cstring n /\ exists c a, n = c :: a /\ c <> 45.
Lemma plain_requested W m a b : file_name a -> requested W m [a; b] (default_settings (is_enc m)) (Some a) (Some b).
Proof.
  intros (_ & c & a' & -> & Hc). exists [], [c :: a'; b]. split; [apply parse_other; exact Hc|]. split; [apply effs_nil|]. split.
  - constructor. intros H. apply Hc. change (str "-") with [45] in H. congruence.
  - unfold acceptable, default_settings. cbn [s_logN s_r s_p s_maxmemfrac s_method]. split; [left; auto|]. split.
    + destruct m; vm_compute; reflexivity.
    + intros [H _]. discriminate H.
Qed.
Lemma half_defined szb e maxmem : size_bits szb -> exists r, memtouse szb e maxmem d0_5 = Ok r.
Proof.
  intros Hs. destruct (frac_range d0_5 ltac:(vm_compute; reflexivity)) as [F R]. apply memtouse_defined; [exact Hs|exact F|exact R|]. right.
  destruct (of_N_exact 1) as [F1 E1]; [lia|]. change (IZR (Z.of_N 1)) with 1%R in E1.
  destruct (dlt_true_fin d0_5 (of_N 1) F1 ltac:(vm_compute; reflexivity)) as [[_ H]|H]; [lra|]. rewrite H in F. discriminate F.
Qed.

(** C60, everyday: "scrypt enc a b" followed by "scrypt dec b c" with the same
    passphrase and the same memory gives back the contents of a, provided the second
    run finds the machine at least one sixtieth as fast as the first did. *)
Theorem C60_everyday : forall W1 prog1 a b r1 fi1 fo1 W2 prog2 c passwd n fob fi2 fo2 opps1 opps2,
  file_name a -> file_name b -> cstring c ->
  sane W1 -> clock_sane (v_params (w_env W1)) -> reads W1 (default_settings true) false (Some a) passwd fi1 ->
  w_open_out W1 b = Some fo1 -> o_data fo1 = [] ->
  main W1 [prog1; str "enc"; a; b] = Ok r1 -> pr_status r1 = 0%Z -> pr_file r1 = Some (n, fob) ->
  sane W2 -> clock_sane (v_params (w_env W2)) -> reads W2 (default_settings false) true (Some b) passwd fi2 -> delivered (o_data fob) fi2 ->
  w_open_out W2 c = Some fo2 -> o_data fo2 = [] -> out_good fo2 -> o_err fo2 = false -> no_failure (w_env W2) ->
  m_szb (w_M W2) = m_szb (w_M W1) -> pv_mem (v_params (w_env W2)) = pv_mem (v_params (w_env W1)) ->
  speed (w_M W1) (w_cfg W1) (lb_smix (w_lb W1)) (v_params (w_env W1)) opps1 ->
  speed (w_M W2) (w_cfg W2) (lb_smix (w_lb W2)) (v_params (w_env W2)) opps2 ->
  (B2R opps1 <= 60 * B2R opps2)%R -> (110 <= B2R opps2)%R ->
  n = b /\ exists r2 foc, main W2 [prog2; str "dec"; b; c] = Ok r2 /\ pr_status r2 = 0%Z /\ pr_file r2 = Some (c, foc) /\ o_data foc = stream_data fi1.
Proof.
  intros W1 prog1 a b r1 fi1 fo1 W2 prog2 c passwd n fob fi2 fo2 opps1 opps2 Ha Hb Hc S1 K1 RD1 O1 E1 M1 Z1 PF S2 K2 RD2 D2 O2 E2 G2 ER2 N2 HSZ HPM HS1 HS2 HR HR2.
  pose proof (plain_requested W1 Enc a b Ha) as Q1. pose proof (plain_requested W2 Dec b c Hb) as Q2. cbn [is_enc] in Q1, Q2.
  assert (Forall cstring [a; b]) as C1 by (repeat constructor; [apply Ha|apply Hb]).
  assert (Forall cstring [b; c]) as C2 by (repeat constructor; [apply Hb|exact Hc]).
  assert (n = b) as ->.
  { change (str "enc") with (mode_word Enc) in M1. rewrite (C39_operation W1 prog1 Enc [a; b] _ _ _ C1 Q1) in M1. cbn [operation] in M1. apply enc_dec_course in M1.
    destruct M1 as [A1 A2 A3 A4 A5|passwd1 fi' oc x y h A1|passwd1 fi' x y A1 A2 A3 A4 A5 A6 A7 A8 A9|passwd1 fi' oc x y h A1
      |passwd1 fi' fo' oc x y A1 A2 A3 A4 A5 A6 A7 A8 A9 A10 A11|passwd1 fi' fo' oc rc fi3 fo3 h2 h3 x y A1]; try discriminate A1; try congruence.
    destruct A6 as [_ A6]. congruence. }
  split; [reflexivity|].
  destruct (of_N_exact 5) as [F5 V5]; [lia|]. destruct (of_N_exact 300) as [F3 V3]; [lia|].
  change (IZR (Z.of_N 5)) with 5%R in V5. change (IZR (Z.of_N 300)) with 300%R in V3.
  assert (forall W opps, clock_sane (v_params (w_env W)) -> speed (w_M W) (w_cfg W) (lb_smix (w_lb W)) (v_params (w_env W)) opps -> is_finite opps = true /\ (0 < B2R opps)%R) as HPOS.
  { intros W opps (X1 & X2) (s1 & X3). destruct (cpuperf_value _ _ _ _ s1 opps X3 X1 X2) as (_ & _ & _ & _ & _ & _ & _ & _ & _ & _ & _ & A9 & A10).
    split; [exact A9|]. pose proof (bpow_gt_0 radix2 (-100)); lra. }
  destruct (HPOS W1 opps1 K1 HS1) as [P1 P1']. destruct (HPOS W2 opps2 K2 HS2) as [P2 P2'].
  assert (size_bits (m_szb (w_M W2))) as Hs by apply (sn_size W2 S2).
  destruct (half_defined (m_szb (w_M W2)) (pv_mem (v_params (w_env W2))) 0 Hs) as ([L2|] & HB2).
  2:{ exfalso. change (str "enc") with (mode_word Enc) in M1. rewrite (C39_operation W1 prog1 Enc [a; b] _ _ _ C1 Q1) in M1. cbn [operation] in M1. apply enc_dec_course in M1.
      destruct M1 as [A1 A2 A3 A4 A5|passwd1 fi' oc x y h A1|passwd1 fi' x y A1 A2 A3 A4 A5 A6 A7 A8 A9|passwd1 fi' oc x y h A1
        |passwd1 fi' fo' oc x y A1 A2 A3 A4 A5 A6 A7 A8 A9 A10 A11|passwd1 fi' fo' oc rc fi3 fo3 h2 h3 x y A1]; try discriminate A1; try congruence.
      rewrite Z1 in A5. destruct (is_ok (oc_rc oc)) eqn:EO; [|discriminate A5]. apply is_ok_spec in EO.
      destruct (enc_file_picked (w_M W1) (w_cfg W1) _ _ _ _ _ _ (params_of (default_settings true)) _ _ _ eq_refl A4 EO) as (sst & m & l & r & p & EP & EPP).
      unfold pickparams in EP. apply bind_inv in EP. destruct EP as ([L|] & EM & EP); [|congruence].
      rewrite <- HSZ, <- HPM in EM. exact (memtouse_known _ _ _ _ _ _ _ EM HB2). }
  destruct (C60_round_trip W1 prog1 [a; b] r1 (default_settings true) (Some a) (Some b) fi1 fo1 W2 prog2 [b; c] (default_settings false) (Some b) (Some c) passwd fi2 fo2 (o_data fob) L2 opps2)
    as (r2 & foc & X1 & X2 & [X3 X4] & X5); auto.
  - apply fin_nan. exact F5.
  - rewrite PF. reflexivity.
  - intros h Hh. unfold computable in *. rewrite HSZ. exact Hh.
  - intros L HL. unfold budget in HL. cbn [default_settings s_maxmem s_maxmemfrac s_maxtime l_maxmem l_maxmemfrac] in HL. rewrite <- HSZ, <- HPM in HL.
    apply (memtouse_mono _ _ _ _ _ _ _ _ Hs HL HB2); [left; reflexivity|vm_compute; reflexivity].
  - intros opps m HX. rewrite (speed_fun _ _ _ _ _ _ HS1 HX). cbn [default_settings s_maxtime]. unfold fits.
    apply (rounded_dom _ _ _ _ (dmul_rounded opps1 (of_N 5) P1 P1' F5) (dmul_rounded opps2 (of_N 300) P2 P2' F3)). rewrite V5, V3. lra.
  - cbn [default_settings s_maxtime].
    assert (dom (dmul (of_N (2 ^ 15)) (of_N 1)) (dmul opps2 (of_N 300))) as HD.
    { destruct (of_N_exact (2 ^ 15)) as [G1 G2']; [lia|]. destruct (of_N_exact 1) as [G3 G4]; [lia|].
      change (IZR (Z.of_N (2 ^ 15))) with 32768%R in G2'. change (IZR (Z.of_N 1)) with 1%R in G4.
      assert (0 < B2R (of_N (2 ^ 15)))%R as G5 by lra.
      apply (rounded_dom _ _ _ _ (dmul_rounded _ _ G1 G5 G3) (dmul_rounded opps2 (of_N 300) P2 P2' F3)). rewrite G2', G4, V3. lra. }
    apply HD. assert (dle (of_N (2 ^ 15)) (dmul (of_N (2 ^ 15)) (of_N 1)) = true) as HLE by (vm_compute; reflexivity).
    destruct (dle_dom _ _ HLE) as (_ & _ & HD2). apply HD2. destruct (of_N_exact (2 ^ 15)) as [G1 G2']; [lia|]. right. split; [exact G1|rewrite G2'; lra].
  - exists r2, foc. rewrite E2 in X5. auto.
Qed.

(** C60, encryption: in a world without failures "scrypt enc" with automatic
    parameters makes a file of the documented format, with valid parameters. *)
Theorem C60_encrypts : forall W prog rest s i o passwd fi data fo salt d L opps, sane W -> Forall cstring rest ->
  requested W Enc rest s i o -> s_logN s = 0%Z -> is_number (s_maxtime s) -> clock_sane (v_params (w_env W)) -> m_szb (w_M W) = 64 ->
  reads W s false i passwd fi -> delivered data fi -> data_ok data -> no_failure (w_env W) ->
  output_stream W o = Some fo -> out_good fo -> o_err fo = false ->
  crypto_entropy_read (m_sha (w_M W)) (m_junk (w_M W)) (v_ent (w_env W)) (lb_drbg (w_lb W)) 32 = Ok (Some salt, d) ->
  budget (w_M W) (v_params (w_env W)) (mk_limits (s_maxmem s) (s_maxmemfrac s) (s_maxtime s)) L ->
  speed (w_M W) (w_cfg W) (lb_smix (w_lb W)) (v_params (w_env W)) opps ->
  exists r fo' h, main W (prog :: str "enc" :: rest) = Ok r /\ pr_status r = 0%Z /\ put W r o fo' /\
    o_data fo' = o_data fo ++ fmt_file scrypt_wrapping passwd h data /\ fhead_ok h /\ fh_salt h = salt.
Proof.
  intros W prog rest s i o passwd fi data fo salt d L opps HW HC HQ HL0 HT HK H64 HR HD HDO HN HO HG HE HS HB HSP.
  change (str "enc") with (mode_word Enc). rewrite (C39_operation W prog Enc rest s i o HC HQ). cbn [operation].
  destruct (sane_ready W s false i passwd fi HW HR) as [R1 R2].
  pose proof R1 as [Hs HPW HH].
  assert (all_zero (params_of s) = true) as HZ.
  { pose proof (C39_ranges _ _ _ _ _ _ HQ) as (HX & _). unfold all_zero, params_of. cbn [x_logN x_r x_p].
    destruct HX as [(H1 & H2 & H3)|((H1 & _) & _)]; [rewrite H1, H2, H3; reflexivity|rewrite HL0 in H1; lia]. }
  pose proof (requested_xp W Enc rest s i o HQ) as HXP.
  destruct (C13_total (w_M W) (w_cfg W) (lb_smix (w_lb W)) (v_params (w_env W)) (x_lim (params_of s)) L opps Hs HT HK HB HSP) as (s1 & l & r & p & EP).
  assert (can_display (s_verbose s) (v_params (w_env W))) as HA by (intros _; split; apply HN).
  destruct (pick_any _ _ _ _ _ _ (s_verbose s) _ _ _ Hs HA EP) as (m' & EP' & _).
  destruct (C13_chosen_parameters_valid _ _ _ _ (x_lim (params_of s)) _ _ _ _ _ _ Hs HT HK EP') as (V1 & V2 & V3 & V4 & V5).
  set (P1 := mk_xp (x_lim (params_of s)) (Z.of_N l) r p).
  assert (setup_params (w_M W) (w_cfg W) (w_lb W) (w_env W) (params_of s) (s_verbose s) (s_force s) = Ok (mk_lib s1 (lb_drbg (w_lb W)), opt_msg m', P1, SCRYPT_OK)) as ESP.
  { unfold setup_params. change (x_logN (params_of s)) with (s_logN s). rewrite HL0. cbn [negb Z.eqb]. rewrite EP', bind_Ok. reflexivity. }
  assert (0 < x_logN P1)%Z as HLP by (cbn [P1 x_logN]; lia).
  assert (computable (w_M W) (mk_fh (Z.to_N (x_logN P1)) (x_r P1) (x_p P1) salt)) as HCO.
  { unfold computable. cbn [P1 x_logN x_r x_p fh_logN fh_r fh_p]. rewrite N2Z.id. apply V5. left. exact H64. }
  destruct (scryptenc_buf_succeeds (w_M W) (w_cfg W) (w_lb W) (w_heap W) (w_env W) data (repeat 0 (List.length data + 128)) passwd (params_of s) (s_verbose s) (s_force s) salt d _ _ P1
    Hs HXP HPW (sn_ent W HW) (sn_drbg W HW) HH (proj1 HDO) (proj2 HDO) ltac:(rewrite repeat_length; lia) (or_introl HZ) ESP HLP HCO HN HS) as (ob & EB & EBO & EBP & _ & EBV).
  assert (enc_ready (w_M W) (w_lb W) (w_heap W) (w_env W) passwd (params_of s)) as HER by (constructor; [exact R1|exact HXP|exact (sn_ent W HW)|exact (sn_drbg W HW)]).
  destruct (C03_stream_equals_buffer (w_M W) (w_cfg W) (w_lb W) (w_heap W) (w_env W) data (repeat 0 (List.length data + 128)) fi fo passwd (params_of s) (s_verbose s) (s_force s) ob HER HDO
    ltac:(rewrite repeat_length; lia) HD HG HE EB) as (oc & EF & A1 & A2 & A3 & A4 & A5).
  specialize (A5 EBO). rewrite EBV in A5. rewrite EBO in A1.
  assert (fhead_ok (mk_fh l r p salt)) as HHO.
  { destruct (scryptenc_setup_succeeds (w_M W) (w_cfg W) (w_lb W) (w_env W) (params_of s) (scratch_bytes (m_junk (w_M W)) 96) (scratch_bytes (m_junk (w_M W)) 64) passwd (s_verbose s) (s_force s) salt d _ _ P1
      Hs HXP HPW (sn_ent W HW) (sn_drbg W HW) (scratch_bytes_length _ _) (scratch_bytes_length _ _) (scratch_bytes_ok _ _) ESP HLP HCO HN HS) as (lb' & _ & HFO).
    cbn [P1 x_logN x_r x_p] in HFO. rewrite N2Z.id in HFO. exact HFO. }
  cbn [P1 x_logN x_r x_p] in A5. rewrite N2Z.id in A5.
  rewrite firstn_app_len in A5 by (symmetry; apply fmt_file_length; apply HHO).
  unfold scrypt_mode_enc_dec. destruct HR as [fi0 rp I1 I2 I3 ->]. fold (input_stream W i). rewrite I1.
  fold (ask W s false). rewrite I2, bind_Ok, I3. unfold enc_dec_run. fold (output_stream W o). rewrite HO.
  rewrite EF, !bind_Ok. cbn [scryptdec_file_cookie_free]. rewrite ?bind_Ok, release_pass_ok, ?bind_Ok, A1. cbn [is_ok rcode_eqb]. rewrite bind_Ok.
  destruct o as [n|]; rewrite bind_Ok; eexists; exists (snd (oc_val oc)), (mk_fh l r p salt); (split; [reflexivity|]); unfold add_events;
    cbn [pr_status pr_heap pr_events put pr_stdout pr_file fh_salt]; repeat (split; [solve [reflexivity|auto]|]); reflexivity.
Qed.

(** ** A concrete day *)
Lemma ex_ops sst opps : speed ex_machine ex_cfg sst ex_env opps -> is_finite opps = true /\ (110 <= B2R opps)%R.
Proof.
  intros (s1 & X3). destruct C45_hyps as (_ & _ & H3 & H4).
  destruct (cpuperf_value _ _ _ _ s1 opps X3 H3 H4) as (resd & st & k & dd & A1 & A2 & A3 & A4 & A5 & A6 & A7 & A8 & A9).
  split; [exact A8|].
  assert (st = (6, 0)%Z) as -> by (cbn in A2; congruence). cbn [pv_perf ex_env ex_perf pe_rest2 pe_first2 List.length] in A3, A4.
  destruct k as [|[|k]]; [| |lia].
  - exfalso. cbn [nth] in A3.
    assert (match getclockdiff ex_cfg (6, 0)%Z (sec 6) with Ok (Some x) => dle x d0 | _ => false end = true) as HX by (vm_compute; reflexivity).
    change (it_clock (ex_iter 6)) with (sec 6) in A3. rewrite A3 in HX. destruct (dle_dom _ _ HX) as (_ & _ & HD).
    destruct (HD (B2R dd)) as [HD1|[_ HD1]]; [right; split; [exact A7|lra]|discriminate HD1|].
    assert (B2R d0 = 0)%R as E0 by reflexivity. lra.
  - cbn [nth] in A3. change (it_clock (ex_iter 7)) with (sec 7) in A3.
    assert (match getclockdiff ex_cfg (6, 0)%Z (sec 7) with Ok (Some x) => dle (of_N 110) (ddiv (of_N (512 * (N.of_nat 1 + 1))) x) | _ => false end = true) as HX by (vm_compute; reflexivity).
    rewrite A3, <- A6 in HX. destruct (dle_dom _ _ HX) as (_ & _ & HD). destruct (of_N_exact 110) as [F1 E1]; [lia|]. change (IZR (Z.of_N 110)) with 110%R in E1.
    destruct (HD 110%R) as [HD1|[_ HD1]]; [right; split; [exact F1|lra]|subst opps; rewrite HD1 in A8; discriminate A8|exact HD1].
Qed.
Definition day_pp (typed : bytes) : pp_env := mk_ppe (mk_rpe (Some (mk_in [(typed, false)] false)) true false true true true true) (fun _ => None) (fun _ => None) true.
(** Every file reads as [contents]; what is typed is [typed]. *)
Definition day_world (typed contents : bytes) : world :=
  mk_world ex_machine ex_cfg ex_lib ex_heap ex_call (day_pp typed) (mk_in [] false) (mk_out [] [] false)
    (fun _ => Some (mk_in [(contents, false)] false)) (fun _ => Some (mk_out [] [] false)) true true (fun _ => (d0, 0%nat, None)) 0 true true.
Lemma day_sane typed contents : data_ok typed -> data_ok contents -> sane (day_world typed contents).
Proof.
  intros HT HC. pose proof (ex_enc_ready ex_P ltac:(split; reflexivity)) as [[A1 A2 A3] B C D].
  assert (finite_stream (mk_in [] false)) as HE by (split; [constructor|reflexivity]).
  assert (forall x, data_ok x -> finite_stream (mk_in [(x, false)] false)) as HF.
  { intros x Hx. unfold finite_stream, all_data. cbn [i_pieces map fst concat]. rewrite app_nil_r. exact Hx. }
  split; try assumption.
  - intros n s H. assert (s = mk_in [(contents, false)] false) as -> by (cbn in H; congruence). auto.
  - intros s H. assert (s = mk_in [(typed, false)] false) as -> by (cbn in H; congruence). auto.
  - discriminate.
  - discriminate.
Qed.
Lemma day_delivered x : x <> [] -> delivered x (mk_in [(x, false)] false).
Proof. intros Hx. split; [reflexivity|]. split; [|cbn [i_pieces map fst concat]; apply app_nil_r]. constructor; [|constructor]. split; [exact Hx|reflexivity]. Qed.
Lemma day_typed1 : data_ok (str "pw" ++ 10 :: str "pw" ++ [10]).
Proof. split; [repeat constructor|reflexivity]. Qed.
Lemma day_typed2 : data_ok (str "pw" ++ [10]).
Proof. split; [repeat constructor|reflexivity]. Qed.
Lemma day_data : data_ok ex_data.
Proof. split; [repeat constructor|reflexivity]. Qed.
Lemma day_reads1 x : reads (day_world (str "pw" ++ 10 :: str "pw" ++ [10]) x) (default_settings true) false (Some (str "a")) (str "pw") (mk_in [(x, false)] false).
Proof. eapply (reads_intro _ _ _ _ _ _ (mk_in [(x, false)] false)); reflexivity. Qed.
Lemma day_reads2 x : reads (day_world (str "pw" ++ [10]) x) (default_settings false) true (Some (str "b")) (str "pw") (mk_in [(x, false)] false).
Proof. eapply (reads_intro _ _ _ _ _ _ (mk_in [(x, false)] false)); reflexivity. Qed.
Lemma day_name x : x = str "a" \/ x = str "b" -> file_name x.
Proof. intros [-> | ->]; (split; [unfold cstring; cbn; intuition discriminate|do 2 eexists; split; [reflexivity|discriminate]]). Qed.

Lemma day_encrypts : exists r1 fob h,
  main (day_world (str "pw" ++ 10 :: str "pw" ++ [10]) ex_data) [str "scrypt"; str "enc"; str "a"; str "b"] = Ok r1 /\ pr_status r1 = 0%Z /\
  pr_file r1 = Some (str "b", fob) /\ o_data fob = fmt_file scrypt_wrapping (str "pw") h ex_data /\ fhead_ok h.
Proof.
  pose proof (day_name _ (or_introl eq_refl)) as Na. pose proof (day_name _ (or_intror eq_refl)) as Nb.
  destruct ex_salt as (salt & d & ES & _). destruct (ex_speed (lb_smix ex_lib)) as [opps HS].
  pose proof (C60_encrypts (day_world (str "pw" ++ 10 :: str "pw" ++ [10]) ex_data) (str "scrypt") [str "a"; str "b"] (default_settings true) (Some (str "a")) (Some (str "b")) (str "pw") (mk_in [(ex_data, false)] false) ex_data (mk_out [] [] false) salt d (2 ^ 30) opps
    (day_sane _ _ day_typed1 day_data)) as HE.
  specialize (HE ltac:(repeat constructor; [apply Na|apply Nb]) (plain_requested _ Enc _ _ Na) eq_refl).
  assert (is_number (s_maxtime (default_settings true))) as HT by reflexivity.
  specialize (HE HT ex_clock eq_refl (day_reads1 ex_data) (day_delivered ex_data ltac:(discriminate)) day_data ex_no_failure eq_refl).
  specialize (HE ltac:(constructor) eq_refl).
  specialize (HE ES (ex_budget (of_N 5)) HS).
  destruct HE as (r1 & fob & h & M1 & Z1 & [_ P1] & D1 & Hh & _).
  assert (o_data (mk_out [] [] false) = []) as E0 by reflexivity. rewrite E0, app_nil_l in D1.
  exists r1, fob, h. exact (conj M1 (conj Z1 (conj P1 (conj D1 Hh)))).
Qed.
Example C60_hyps : exists r1 fob r2 foc,
  main (day_world (str "pw" ++ 10 :: str "pw" ++ [10]) ex_data) [str "scrypt"; str "enc"; str "a"; str "b"] = Ok r1 /\ pr_status r1 = 0%Z /\ pr_file r1 = Some (str "b", fob) /\
  main (day_world (str "pw" ++ [10]) (o_data fob)) [str "scrypt"; str "dec"; str "b"; str "c"] = Ok r2 /\ pr_status r2 = 0%Z /\ pr_file r2 = Some (str "c", foc) /\ o_data foc = ex_data.
Proof.
  pose proof (day_name _ (or_introl eq_refl)) as Na. pose proof (day_name _ (or_intror eq_refl)) as Nb.
  assert (cstring (str "c")) as Nc by (unfold cstring; cbn; intuition discriminate).
  destruct day_encrypts as (r1 & fob & h & M1 & Z1 & P1 & D1 & Hh). destruct (ex_speed (lb_smix ex_lib)) as [opps HS].
  assert (data_ok (o_data fob)) as HFO.
  { rewrite D1. split; [apply fmt_file_ok; [exact Hh|apply day_data]|]. rewrite fmt_file_length by apply Hh. reflexivity. }
  assert (o_data fob <> []) as HNE.
  { intros E. apply (f_equal (@List.length N)) in E. rewrite D1, fmt_file_length in E by apply Hh. change (List.length (@nil N)) with 0%nat in E. clear - E. lia. }
  destruct (ex_ops _ _ HS) as [_ HR].
  pose proof (C60_everyday (day_world (str "pw" ++ 10 :: str "pw" ++ [10]) ex_data) (str "scrypt") (str "a") (str "b") r1 (mk_in [(ex_data, false)] false) (mk_out [] [] false) (day_world (str "pw" ++ [10]) (o_data fob)) (str "scrypt") (str "c") (str "pw") (str "b") fob (mk_in [(o_data fob, false)] false) (mk_out [] [] false) opps opps
    Na Nb Nc (day_sane _ _ day_typed1 day_data) ex_clock (day_reads1 ex_data) eq_refl eq_refl M1 Z1 P1 (day_sane _ _ day_typed2 HFO) ex_clock (day_reads2 _) (day_delivered _ HNE)) as HE.
  specialize (HE eq_refl eq_refl ltac:(constructor) eq_refl).
  specialize (HE ex_no_failure eq_refl eq_refl HS HS).
  specialize (HE ltac:(lra) HR).
  destruct HE as (_ & r2 & foc & M2 & Z2 & P2 & D2).
  exists r1, fob, r2, foc. exact (conj M1 (conj Z1 (conj P1 (conj M2 (conj Z2 (conj P2 D2)))))).
Qed.
Definition Prop_plain_all := (C60_decrypts, C60_round_trip, C60_everyday, C60_encrypts).
Print Assumptions Prop_plain_all.
