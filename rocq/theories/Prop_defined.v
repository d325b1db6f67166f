(** C52: the program always terminates normally, but for the listed exceptions. *)
From Coq Require Import String Reals Lra SpecFloat.
From Flocq Require Import Core IEEE754.BinarySingleNaN.
From Verif Require Import Base SpecAscii SpecBytes SpecSHA SpecScrypt SpecScryptAPI SpecAES SpecFormat SpecStream P_scrypt M_machine M_double M_smix M_sha256 M_sha256_tr P_sha256 M_scrypt_sel P_scrypt_sel Prop_scrypt M_stdio P_stdio M_memlimit P_memlimit M_cpuperf
  M_strto M_params Prop_params M_scryptenc SpecScryptenc M_getopt M_readpass M_print_error M_main SpecPass SpecGetopt SpecCLI P_scrypt_ref P_scryptenc P_scryptenc2 P_scryptenc3 P_scryptenc4 P_scryptenc5
  P_scryptenc7 P_scryptenc8 P_scryptenc9 P_entropy M_entropy P_double Prop_error P_readpass Prop_getopt Prop_readpass Prop_enc Prop_dec Prop_io Prop_info Prop_cli P_main Prop_main.
Local Open Scope list_scope.
Local Open Scope N_scope.

(** Clock readings are times of day or uptimes. *)
Definition time_ok (c : clk) : Prop := match c with CLK_ok s ns => (0 <= s < 2 ^ 62 /\ 0 <= ns < 1000000000)%Z | _ => True end.
Definition reading_ok (c : clock_read) : Prop :=
  time_ok (cr_mono c) /\ time_ok (cr_real c) /\ (forall s us, cr_tod c = Some (s, us) -> (0 <= s < 2 ^ 62 /\ 0 <= us < 1000000)%Z).
Definition iteration_ok (it : perf_iter) : Prop := reading_ok (it_clock it) /\ all_ok (it_env2 it).
Definition perf_ok (e : perf_env) : Prop :=
  reading_ok (pe_start1 e) /\ reading_ok (pe_start2 e) /\ Forall iteration_ok (pe_first1 e :: pe_rest1 e) /\ Forall iteration_ok (pe_first2 e :: pe_rest2 e).
(** The environment of a call to the library: plausible clocks; the memory for
    the built-in self-test and for messages is available. *)
Record steady (e : call_env) : Prop := mk_steady {
  st_perf : perf_ok (pv_perf (v_params e)); st_clock : clock_sane (v_params e);
  st_test : all_ok (v_kdf2 e); st_msg : pv_al1 (v_params e) = true /\ pv_al2 (v_params e) = true }.

Lemma sub_long_ok a b : (- 2 ^ 62 < a < 2 ^ 62)%Z -> (- 2 ^ 62 < b < 2 ^ 62)%Z -> exists d, sub_long a b = Ok d.
Proof. intros H1 H2. unfold sub_long. assert ((- 2 ^ 63 <=? a - b)%Z && (a - b <? 2 ^ 63)%Z = true) as -> by lia. eauto. Qed.
Lemma get_ok cfg c s us : reading_ok c -> monoclock_get cfg c = Some (s, us) -> (0 <= s < 2 ^ 62 /\ 0 <= us < 1000000)%Z.
Proof.
  intros (H1 & H2 & H3). unfold monoclock_get, real_get.
  assert (forall k s us, time_ok k -> match k with CLK_ok s ns => Some (s, Z.quot ns 1000) | _ => None end = Some (s, us) -> (0 <= s < 2 ^ 62 /\ 0 <= us < 1000000)%Z) as HK.
  { intros [a b| |] s' us' HT E; try discriminate E. cbn in HT. assert (s' = a) by congruence. assert (us' = Z.quot b 1000) by congruence. subst.
    split; [lia|]. rewrite Z.quot_div_nonneg by lia. split; [apply Z.div_pos; lia|apply Z.div_lt_upper_bound; lia]. }
  destruct (use_monotonic cfg).
  - destruct (cr_mono c) as [a b| |] eqn:EM; try discriminate.
    + intros E. apply (HK (CLK_ok a b)); assumption.
    + destruct (use_realtime cfg); [apply HK, H2|apply H3].
  - destruct (use_realtime cfg); [apply HK, H2|apply H3].
Qed.
Section Defined.
  Context (M : machine) (cfg : clk_cfg).
  Hypothesis Hs : size_bits (m_szb M).
  Lemma perf_scrypt_total sst it N_ : N_ < 2 ^ 32 -> all_ok (it_env2 it) -> exists ok sst', perf_scrypt M sst it N_ = Ok (ok, sst').
  Proof.
    intros HN H2. unfold perf_scrypt, m_crypto_scrypt, crypto_scrypt.
    set (k := mk_call (it_env1 it) (it_env2 it) (it_env it) [] [] N_ 1 1 [] 0).
    assert (exists c, match sst with Some c => Ok c | None =>
      selectsmix (m_szb M) (m_sha M) (m_junk M) (m_sse2_built M) (m_sse2_cpu M) crypto_scrypt_smix_sse2 crypto_scrypt_smix (k_env1 k) (k_env2 k) end = Ok c) as [c ->].
    { destruct sst as [c|]; [eauto|]. apply first_select; auto. }
    rewrite bind_Ok. destruct (call_total (m_szb M) (m_sha M) (m_junk M) c k) as (rc & b & ->); auto.
    { unfold call_ok, k. cbn [k_passwd k_salt k_buflen k_buf k_N k_r k_p]. repeat split; try constructor; lia. }
    rewrite !bind_Ok. eauto.
  Qed.
  Lemma diff_total st c : (0 <= fst st < 2 ^ 62 /\ 0 <= snd st < 1000000)%Z -> reading_ok c -> exists d, getclockdiff cfg st c = Ok d.
  Proof.
    intros H1 H2. unfold getclockdiff. destruct (monoclock_get cfg c) as [[s us]|] eqn:E; [|eauto]. apply get_ok in E; [|exact H2].
    unfold timeval_diff. cbn [fst snd]. destruct (sub_long_ok s (fst st)) as (d1 & ->); try lia. rewrite bind_Ok. destruct (sub_long_ok us (snd st)) as (d2 & ->); try lia. rewrite !bind_Ok. eauto.
  Qed.
  Lemma tick_total st : (0 <= fst st < 2 ^ 62 /\ 0 <= snd st < 1000000)%Z -> forall rest sst it, Forall iteration_ok (it :: rest) -> exists r, tick_loop M cfg sst st it rest = Ok r.
  Proof.
    intros Hst. induction rest as [|it' rest IH]; intros sst it H; inversion H as [|? ? [H1 H2] H3]; subst; cbn [tick_loop];
      destruct (perf_scrypt_total sst it 16 ltac:(lia) H2) as (ok & sst' & ->); rewrite bind_Ok; (destruct ok; cbn [negb]; [|eauto]);
      destruct (diff_total st (it_clock it) Hst H1) as ([d|] & ->); rewrite bind_Ok; eauto; destruct (dlt d0 d); eauto.
  Qed.
  Lemma count_total st resd : (0 <= fst st < 2 ^ 62 /\ 0 <= snd st < 1000000)%Z -> forall rest sst i it, Forall iteration_ok (it :: rest) -> exists r, count_loop M cfg sst st resd i it rest = Ok r.
  Proof.
    intros Hst. induction rest as [|it' rest IH]; intros sst i it H; inversion H as [|? ? [H1 H2] H3]; subst; cbn [count_loop];
      destruct (perf_scrypt_total sst it 128 ltac:(lia) H2) as (ok & sst' & ->); rewrite bind_Ok; (destruct ok; cbn [negb]; [|eauto]); cbv zeta;
      destruct (diff_total st (it_clock it) Hst H1) as ([d|] & ->); rewrite bind_Ok; eauto; destruct (dlt resd d); eauto.
  Qed.
  Lemma cpuperf_total sst e : perf_ok e -> exists r, scryptenc_cpuperf M cfg sst e = Ok r.
  Proof.
    intros (H1 & H2 & H3 & H4). unfold scryptenc_cpuperf. destruct (monoclock_getres cfg (pe_res e)) as [resd|]; [|eauto].
    destruct (monoclock_get cfg (pe_start1 e)) as [[s us]|] eqn:E1; [|eauto]. apply get_ok in E1; [|exact H1].
    destruct (tick_total (s, us) E1 _ sst _ H3) as ([sst1 [rc|[]]] & ->); rewrite bind_Ok; [eauto|].
    destruct (monoclock_get cfg (pe_start2 e)) as [[s2 us2]|] eqn:E2; [|eauto]. apply get_ok in E2; [|exact H2].
    destruct (count_total (s2, us2) resd E2 _ sst1 0 _ H4) as ([sst2 [rc|[i d]]] & ->); rewrite bind_Ok; eauto.
  Qed.
  (** Limits that are numbers, the memory fraction positive and at most 0.5. *)
  Definition limits_ok (lim : limits) : Prop :=
    is_finite (l_maxmemfrac lim) = true /\ (0 < B2R (l_maxmemfrac lim) <= 1 / 2)%R /\ is_nan (l_maxtime lim) = false.
  Definition frac_ok (lim : limits) : Prop := is_finite (l_maxmemfrac lim) = true /\ (0 < B2R (l_maxmemfrac lim) <= 1 / 2)%R.
  Lemma limits_frac lim : limits_ok lim -> frac_ok lim. Proof. intros (H1 & H2 & _). split; assumption. Qed.
  Lemma memtouse_total e lim : frac_ok lim -> exists r, memtouse (m_szb M) e (l_maxmem lim) (l_maxmemfrac lim) = Ok r.
  Proof. intros (H1 & H2). apply memtouse_defined; auto; [lra|right; lra]. Qed.
  Lemma pickparams_total sst e lim verbose : limits_ok lim -> perf_ok (pv_perf e) -> clock_sane e -> pv_al1 e = true -> pv_al2 e = true ->
    exists r, pickparams M cfg sst e lim verbose = Ok r.
  Proof.
    intros HL HP HC HA1 HA2. destruct (memtouse_total (pv_mem e) lim (limits_frac lim HL)) as ([L|] & EM); [|unfold pickparams; rewrite EM, bind_Ok; eauto].
    destruct (cpuperf_total sst (pv_perf e) HP) as ([s1 [rc|opps]] & ES); [unfold pickparams; rewrite EM, bind_Ok, ES, bind_Ok; eauto|].
    destruct (C13_total M cfg sst e lim L opps Hs) as (s2 & l & r & p & EP); auto.
    { unfold is_number. apply HL. } { exists s1. exact ES. }
    pose proof (pickparams_range M cfg _ _ _ _ _ _ _ _ _ EP) as (R1 & _).
    unfold pickparams in *. rewrite EM, bind_Ok, ES, bind_Ok in *. cbv zeta in *.
    apply bind_inv in EP. destruct EP as ([[l1 r1] p1] & EPL & EP). rewrite EPL, bind_Ok. rewrite bind_Ok in EP. apply Ok_inj in EP.
    assert (l1 = l) as -> by congruence.
    rewrite HA1, HA2. destruct (memtouse_range _ _ _ _ _ Hs EM) as [R2 R3].
    destruct (display_step verbose (Z.of_N l) r1 p1 L opps (l_maxtime lim)) as (m & ->); [lia|lia|]. rewrite bind_Ok. eauto.
  Qed.
  Lemma checkparams_total sst e lim logN r p verbose force : (force = true \/ frac_ok lim) -> perf_ok (pv_perf e) -> pv_al1 e = true -> pv_al2 e = true ->
    exists sst' m rc, checkparams M cfg sst e lim logN r p verbose force = Ok (sst', m, rc).
  Proof.
    intros HL HP HA1 HA2. unfold checkparams.
    destruct ((logN <? 1)%Z || (63 <? logN)%Z) eqn:E1; [eauto|]. destruct (0x40000000 <=? w64 (r * p)); [eauto|]. destruct ((r =? 0) || (p =? 0)); [eauto|].
    rewrite HA1, HA2. destruct force.
    - destruct (display_step verbose logN r p 0 d0 (l_maxtime lim)) as (m & ->); [lia|lia|]. rewrite bind_Ok. eauto.
    - destruct HL as [HL|HL]; [discriminate|]. destruct (memtouse_total (pv_mem e) lim HL) as ([L|] & EM); rewrite EM, bind_Ok; [|eauto].
      destruct (cpuperf_total sst (pv_perf e) HP) as ([s1 [rc|opps]] & ES); rewrite ES, bind_Ok; [eauto|]. cbv zeta.
      destruct (memtouse_range _ _ _ _ _ Hs EM) as [R2 R3].
      destruct (display_step verbose logN r p L opps (l_maxtime lim)) as (m & ->); [lia|lia|]. rewrite bind_Ok. eauto.
  Qed.
  Lemma setup_params_total lb e P verbose force : steady e -> (limits_ok (x_lim P) \/ force = true /\ x_logN P <> 0%Z) ->
    exists r, setup_params M cfg lb e P verbose force = Ok r.
  Proof.
    intros [S1 S2 S3 [S4 S5]] HL. unfold setup_params. destruct (Z.eqb_spec (x_logN P) 0) as [HZ|HZ]; cbn [negb].
    - destruct (pickparams_total (lb_smix lb) (v_params e) (x_lim P) verbose) as ([[s m] [rc|[[l r] p]]] & ->); auto; [destruct HL as [HL|[_ HL]]; [exact HL|contradiction]| |]; rewrite bind_Ok; eauto.
    - destruct (checkparams_total (lb_smix lb) (v_params e) (x_lim P) (x_logN P) (x_r P) (x_p P) verbose force) as (s & m & rc & ->); auto; [destruct HL as [HL|HL]; [right; apply limits_frac, HL|left; apply HL]|]. rewrite bind_Ok. cbv zeta. eauto.
  Qed.
  Lemma setup_params_range lb e P verbose force lb' ms P' : xp_ok P -> setup_params M cfg lb e P verbose force = Ok (lb', ms, P', SCRYPT_OK) ->
    (1 <= x_logN P' <= 63)%Z.
  Proof.
    intros [HR HP] E. unfold setup_params in E. destruct (Z.eqb_spec (x_logN P) 0) as [HZ|HZ]; cbn [negb] in E.
    - apply bind_inv in E. destruct E as ([[sst m] [rc1|[[l r] p]]] & E1 & E); cbv zeta in E.
      + apply pickparams_codes in E1. assert (rc1 = SCRYPT_OK) as -> by congruence. exfalso. cbn in E1. intuition discriminate.
      + apply pickparams_range in E1. assert (P' = mk_xp (x_lim P) (Z.of_N l) r p) as -> by congruence. cbn [x_logN]. lia.
    - apply bind_inv in E. destruct E as ([[sst m] rc] & E1 & E). cbv zeta in E. assert (P' = P) as -> by congruence.
      destruct (checkparams_ok_range M cfg _ _ _ _ _ _ _ _ _ _ _ HR HP E1) as (A & _); [|exact A].
      intros ->. apply Ok_inj in E. apply (f_equal snd) in E. cbn [snd] in E. discriminate E.
  Qed.
  Lemma enc_setup_total lb e P header dk passwd verbose force : xp_ok P -> bytes_ok passwd -> env_bytes (v_ent e) -> drbg_inv (lb_drbg lb) ->
    List.length header = 96%nat -> List.length dk = 64%nat -> bytes_ok dk -> steady e -> (limits_ok (x_lim P) \/ force = true /\ x_logN P <> 0%Z) ->
    exists r, scryptenc_setup M cfg lb e P header dk passwd verbose force = Ok r.
  Proof.
    intros HXP HPW HE HD HLH HLD HOD HS HL. unfold scryptenc_setup.
    destruct (setup_params_total lb e P verbose force HS HL) as ([[[lb1 ms1] P1] rc1] & E1). rewrite E1, bind_Ok.
    destruct (is_ok rc1) eqn:EO; cbn [negb]; [|eauto]. apply is_ok_spec in EO. subst rc1.
    pose proof (setup_params_range _ _ _ _ _ _ _ _ HXP E1) as HR. apply setup_params_inv in E1; [|exact HXP]. destruct E1 as (D1 & [HR1 HP1] & _).
    unfold assert_. assert ((0 <? x_logN P1)%Z && (x_logN P1 <? 64)%Z = true) as -> by lia. rewrite bind_Ok. cbv zeta.
    rewrite D1. destruct (crypto_entropy_read_ok (shw M) (jk M) (v_ent e) (lb_drbg lb) 32 HE HD) as (r & st' & ops & out & ER & HDI & _ & _ & _ & HRR).
    rewrite ER, bind_Ok. destruct r as [salt|]; [|eauto].
    assert (List.length salt = 32%nat /\ bytes_ok salt) as [HSL HSO].
    { destruct HRR as [(E0 & A & B)|(E0 & _)]; [|congruence]. assert (salt = out) as -> by congruence. auto. }
    assert (Z.to_N (x_logN P1) <= 63) as HL63 by lia. rewrite one_shl by exact HL63.
    assert (2 ^ Z.to_N (x_logN P1) < 2 ^ 64) as HN64 by (apply N.pow_lt_mono_r; lia).
    match goal with |- context [derive M ?l e passwd salt ?N_ ?r0 ?p0 dk] =>
        destruct (derive_total M l e passwd salt N_ r0 p0 dk Hs HPW HSO HN64 HR1 HP1 HLD HOD ltac:(intros; exact (st_test e HS))) as (ok & dk1 & lb2 & ED) end.
    rewrite ED, bind_Ok. apply derive_inv in ED; auto. destruct ED as (_ & L1 & O1 & HT & HF). destruct ok; cbn [negb]; [|eauto].
    destruct (HT eq_refl) as [[V1 V2 _ V4 _ _ _ _] ->].
    pose proof (build_header_ok M header passwd (mk_fh (Z.to_N (x_logN P1)) (x_r P1) (x_p P1) salt) HLH) as HB.
    cbn [fh_logN fh_r fh_p fh_salt] in HB. rewrite Z2N.id in HB by lia.
    assert (fhead_ok (mk_fh (Z.to_N (x_logN P1)) (x_r P1) (x_p P1) salt)) as HFO.
    { unfold fhead_ok. cbn [fh_logN fh_r fh_p fh_salt]. repeat split; auto; lia. }
    specialize (HB HFO).
    match goal with |- context [build_header M header ?k salt ?l ?r0 ?p0] => assert (build_header M header k salt l r0 p0 = Ok (fmt_96 kdf passwd (mk_fh (Z.to_N (x_logN P1)) (x_r P1) (x_p P1) salt))) as -> by exact HB end.
    rewrite bind_Ok. eauto.
  Qed.
  Lemma enc_file_total lb hp e fi fo passwd P verbose force : xp_ok P -> all_zero P || none_zero P = true -> bytes_ok passwd -> env_bytes (v_ent e) -> drbg_inv (lb_drbg lb) ->
    heap_ok hp -> input_ok fi -> N.of_nat (List.length (stream_data (no_errors fi))) < 2 ^ 64 -> steady e -> (limits_ok (x_lim P) \/ force = true /\ x_logN P <> 0%Z) ->
    exists o, scryptenc_file M cfg lb hp e fi fo passwd P verbose force = Ok o.
  Proof.
    intros HXP HZ HPW HE HD HH HI HP HS HL. rewrite scryptenc_file_eq. rewrite HZ. cbn [assert_]. rewrite bind_Ok.
    destruct (enc_setup_total lb e P (scratch_bytes (jk M) 96) (scratch_bytes (jk M) 64) passwd verbose force) as ([[[[[lb1 ms] P1] hd] dk] rc] & ES); auto using scratch_bytes_ok, scratch_bytes_length.
    rewrite ES, bind_Ok. apply scryptenc_setup_inv in ES; auto using scratch_bytes_ok, scratch_bytes_length. destruct ES as (A1 & A2 & A3 & A4 & A5 & A6).
    destruct (is_ok rc) eqn:EO. 2:{ apply is_ok_false in EO. rewrite enc_file_rest_fail by assumption. eauto. }
    apply is_ok_spec in EO. subst rc. destruct (A6 eq_refl) as (h & d & B1 & B2 & B3 & B4 & -> & ->).
    destruct (enc_file_rest_ok M hp e fi fo lb1 ms P1 passwd h HH B1 HI HP) as (rcf & hpf & fi' & fo' & EF & _). rewrite EF. eauto.
  Qed.
End Defined.

Lemma d0_5_value : is_finite d0_5 = true /\ B2R d0_5 = (1 / 2)%R.
Proof.
  split; [reflexivity|]. rewrite <- SF2R_B2SF. assert (B2SF d0_5 = S754_finite false 4503599627370496 (-53)%Z) as -> by (vm_compute; reflexivity).
  unfold SF2R, F2R. cbn [Fnum Fexp bpow cond_Zopp]. change (Z.pow_pos radix2 53) with 9007199254740992%Z. lra.
Qed.
Lemma limits_number x : dlt x d0 = false -> deq x d0 = false -> dlt d0_5 x = false -> is_nan x = false -> is_finite x = true /\ (0 < B2R x <= 1 / 2)%R.
Proof.
  intros H1 H2 H3 HN. destruct (number_cases x HN) as [F|[-> | ->]]; [|discriminate H3|discriminate H1].
  split; [exact F|]. destruct d0_5_value as [F5 E5]. rewrite dlt_fin in H1, H3 by (exact F || exact F5 || reflexivity).
  change (deq x d0) with (Beqb x d0) in H2. rewrite Beqb_correct in H2 by (exact F || reflexivity).
  rewrite E5 in H3. change (B2R d0) with 0%R in *.
  destruct (Rlt_bool_spec (B2R x) 0) as [|G1]; [discriminate|]. destruct (Rlt_bool_spec (1 / 2) (B2R x)) as [|G3]; [discriminate|].
  unfold Req_bool in H2. destruct (Rcompare_spec (B2R x) 0); try discriminate; lra.
Qed.
Lemma print_error_total rc i o : rc <> SCRYPT_OK -> print_error rc i o = Ok [E_error rc i o].
Proof. intros H. unfold print_error. rewrite print_error_text by exact H. reflexivity. Qed.
Lemma ask_total W s dec : exists rp, ask W s dec = Ok rp.
Proof.
  unfold ask. set (m := fst (method_of s)). set (a := snd (method_of s)). clearbody m a. unfold passphrase_entry_readpass. destruct m; try (eexists; reflexivity).
  1,2,3: match goal with |- exists _, readpass ?E ?st ?pr ?c ?d = _ => destruct (C41_total E st pr c d) as (x & -> & _); eauto end.
  - destruct (pe_getenv _ _); [destruct (pe_strdup _)|]; eauto.
  - destruct (readpass_file _ _ _ _); eauto.
Qed.

(** What the theorem excludes: decryption with explicit parameters, limits that are
    not numbers where the limits are used, and headers of files to be shown
    with an impossible N. *)
Definition reasonable (W : world) (m : mode) (s : settings) (i : option bytes) : Prop :=
  match m with
  | Enc => (s_force s = true /\ s_logN s <> 0%Z) \/ (is_nan (s_maxmemfrac s) = false /\ is_nan (s_maxtime s) = false)
  | Dec => s_logN s = 0%Z /\ (s_force s = true \/ is_nan (s_maxmemfrac s) = false)
  | Info => forall fi, input_stream W i = Some fi -> scrypt_header (stream_data fi) -> fh_logN (get_head (stream_data fi)) < 64
  end.
Lemma requested_frac W m rest s i o : requested W m rest s i o -> is_nan (s_maxmemfrac s) = false -> frac_ok (x_lim (params_of s)).
Proof. intros H HN. apply C39_ranges in H. destruct H as (_ & _ & H1 & H2 & H3 & _). exact (limits_number _ H1 H2 H3 HN). Qed.
Lemma requested_zero W m rest s i o : requested W m rest s i o -> all_zero (params_of s) || none_zero (params_of s) = true.
Proof. intros H. apply C39_ranges in H. destruct H as (H & _). unfold all_zero, none_zero, params_of. cbn [x_logN x_r x_p]. lia. Qed.
Theorem C52_defined : forall W prog m rest, sane W -> steady (w_env W) -> w_al1 W = true -> w_al2 W = true -> Forall cstring rest ->
  (forall s i o, requested W m rest s i o -> reasonable W m s i) ->
  exists r, main W (prog :: mode_word m :: rest) = Ok r.
Proof.
  intros W prog m rest HW HS HA1 HA2 HC HR. destruct (C39_validation W prog m rest HC) as (evs & args & HP & HV). cbv zeta in HV.
  destruct HV as [(s & i & o & H1 & H2 & H3 & ->)|[_ (evs' & -> & _)]]; [|eauto].
  assert (requested W m rest s i o) as HQ by (exists evs, args; auto). specialize (HR s i o HQ). clear evs args HP H1 H2 H3.
  destruct m; cbn [operation reasonable] in *.
  - (* enc *)
    unfold scrypt_mode_enc_dec. fold (input_stream W i). destruct (input_stream W i) as [fi|] eqn:EI; [|eauto].
    fold (ask W s false). destruct (ask_total W s false) as (rp & EA). rewrite EA, bind_Ok. destruct (ro_pass rp) as [pw|] eqn:EP; [|eauto]. cbv zeta.
    set (fi' := match i with None => ro_stdin rp | Some _ => fi end).
    assert (reads W s false i pw fi') as HRD by (exact (reads_intro W s false i pw fi' fi rp EI EA EP eq_refl)).
    destruct (sane_ready W s false i pw fi' HW HRD) as [[R1 R2 R3] [R4 R5]].
    assert (exists r, enc_dec_run W false (params_of s) (w_lb W) (w_heap W) None pw fi' (s_verbose s) (s_force s) i o = Ok r) as (r & ->); [|rewrite bind_Ok; eauto].
    unfold enc_dec_run. fold (output_stream W o). destruct (output_stream W o) as [fo|]; [|cbn [scryptdec_file_cookie_free]; rewrite bind_Ok, release_pass_ok, bind_Ok; eauto]. cbv zeta iota.
    destruct (enc_file_total (w_M W) (w_cfg W) R1 (w_lb W) (w_heap W) (w_env W) fi' fo pw (params_of s) (s_verbose s) (s_force s)) as (oc & ->); auto.
    { exact (requested_xp W Enc rest s i o HQ). } { exact (requested_zero W Enc rest s i o HQ). } { exact (sn_ent W HW). } { exact (sn_drbg W HW). }
    { destruct HR as [HR|[HR1 HR2]]; [right; exact HR|left]. destruct (requested_frac W Enc rest s i o HQ HR1) as [F1 F2]. split; [exact F1|]. split; [exact F2|exact HR2]. }
    rewrite !bind_Ok. cbn [scryptdec_file_cookie_free]. rewrite bind_Ok, release_pass_ok, bind_Ok. destruct (is_ok (oc_rc oc)) eqn:EO.
    + rewrite bind_Ok. destruct o; eauto.
    + rewrite print_error_total by (apply is_ok_false; exact EO). rewrite bind_Ok. destruct o; eauto.
  - (* dec *)
    unfold scrypt_mode_enc_dec. fold (input_stream W i). destruct (input_stream W i) as [fi|] eqn:EI; [|eauto].
    fold (ask W s true). destruct (ask_total W s true) as (rp & EA). rewrite EA, bind_Ok. destruct (ro_pass rp) as [pw|] eqn:EP; [|eauto]. cbv zeta.
    set (fi' := match i with None => ro_stdin rp | Some _ => fi end).
    assert (reads W s true i pw fi') as HRD by (exact (reads_intro W s true i pw fi' fi rp EI EA EP eq_refl)).
    destruct (sane_ready W s true i pw fi' HW HRD) as [[R1 R2 R3] [R4 R5]].
    destruct HR as [HZ HF]. pose proof (C39_ranges W Dec rest s i o HQ) as (HRG & _).
    assert (all_zero (params_of s) = true) as HAZ by (unfold all_zero, params_of; cbn [x_logN x_r x_p]; lia).
    pose proof HS as [S1 S2 S3 [S4 S5]].
    destruct (checkparams_total (w_M W) (w_cfg W) R1 (lb_smix (w_lb W)) (v_params (w_env W)) (x_lim (params_of s)) (Z.of_N (fh_logN (get_head (stream_data fi')))) (fh_r (get_head (stream_data fi')))
       (fh_p (get_head (stream_data fi'))) (s_verbose s) (s_force s)) as (sst & m & rc & ECP); auto.
    { destruct HF as [HF|HF]; [left; exact HF|right; exact (requested_frac W Dec rest s i o HQ HF)]. }
    destruct (prep_total (w_M W) (w_cfg W) (w_lb W) (w_heap W) (w_env W) fi' pw (params_of s) (s_verbose s) (s_force s) None sst m rc R1 R2 R3 R4 HAZ ltac:(intros _; exact ECP) S3) as (oc & EPR).
    rewrite EPR, bind_Ok. apply prep_inv in EPR; auto. destruct EPR as (_ & HD & HPR).
    destruct oc as [rc1 lb1 ms1 P1 dk1 hp1 [C1 fi1]]. cbn [oc_lib oc_heap oc_P oc_rc oc_val oc_msgs fst snd] in *.
    destruct (is_ok rc1) eqn:EO; cbn [negb].
    2:{ apply is_ok_false in EO. assert (C1 = None) as -> by (inversion HPR; subst; congruence). cbn [scryptdec_file_cookie_free]. rewrite bind_Ok, release_pass_ok, bind_Ok, print_error_total by exact EO. rewrite bind_Ok. eauto. }
    apply is_ok_spec in EO. subst rc1.
    inversion HPR as [|rc0 hd fi2 hp' B1 B2 B3 B4|rc0 fi2 ms lb' dk hp' B1 B2 B3 B4 B5|fi2 ms lb' hp' B1 B2 B3 B4]; subst; try congruence.
    pose proof (header_result_ok_inv fi' _ fi1 B2) as (_ & HL & _ & _ & _ & HI1 & HSD & HSF & HPX).
    pose proof (stream_data_ok fi' R4) as HFO.
    match goal with |- context [enc_dec_run W true ?p ?l ?hpx ?C ?pw0 ?f ?v ?fc ?i0 ?o0] =>
      assert (exists r, enc_dec_run W true p l hpx C pw0 f v fc i0 o0 = Ok r) as (r & ->); [|rewrite bind_Ok; eauto] end.
    unfold enc_dec_run. fold (output_stream W o). destruct (output_stream W o) as [fo|].
    2:{ cbn [scryptdec_file_cookie_free ck_addr]. rewrite zero_free_head by (apply heap_fresh; [exact R3|lia]). rewrite bind_Ok, release_pass_ok, bind_Ok. eauto. }
    cbv zeta iota.
    match goal with |- context [scryptdec_file_copy ?M ?hpx ?e (Some ?C) fi1 fo] =>
      assert (heap_ok hpx) as HHX by (unfold heap_ok; cbn [kh_live kh_next]; constructor; [cbn; lia|]; eapply Forall_impl; [|exact R3]; cbv beta; intros; lia);
      destruct (copy_ok M hpx e C fi1 fo HHX) as (rc0 & fi3 & fo' & hp2 & EC & HCR) end.
    { cbn [ck_dk]. apply keys_length. } { cbn [ck_dk]. apply keys_ok. } { cbn [ck_header]. apply bytes_ok_firstn, HFO. } { exact HI1. }
    { apply prefix_length in HPX. rewrite app_length in HPX. lia. }
    rewrite EC, !bind_Ok. cbn [ck_dk ck_header] in HCR. cbn [scryptdec_file_cookie_free ck_addr].
    destruct (dec_file_result_copy (w_M W) (w_cfg W) (w_lb W) (w_env W) (params_of s) pw fi' fo (s_verbose s) (s_force s) (w_heap W) fi1 ms1 lb' rc0 fi3 fo' hp2 R3 B1 B2 B3 HCR) as (hp3 & EF & _).
    rewrite EF, bind_Ok, release_pass_ok, bind_Ok. destruct (is_ok rc0) eqn:EO.
    + rewrite bind_Ok. destruct o; eauto.
    + rewrite print_error_total by (apply is_ok_false; exact EO). rewrite bind_Ok. destruct o; eauto.
  - (* info *)
    unfold scrypt_mode_info. fold (input_stream W i). destruct (input_stream W i) as [fi|] eqn:EI; [|eauto]. cbv zeta. rewrite HA1, HA2.
    assert (finite_stream fi) as HFS by (destruct i; [exact (sn_files W HW _ _ EI)|injection EI as <-; exact (sn_stdin W HW)]).
    destruct (finite_instream fi HFS) as [R4 R5].
    assert (scrypt_header (stream_data fi) \/ ~ scrypt_header (stream_data fi)) as [HH|HH].
    { unfold scrypt_header. destruct (le_dec 96 (List.length (stream_data fi))); [|right; tauto]. destruct (list_eq_dec N.eq_dec (firstn 6 (stream_data fi)) fmt_magic); [|right; tauto].
      destruct (N.eq_dec (nth 6 (stream_data fi) 0) 0); [left|right]; tauto. }
    + destruct (info_eq true true fi R4 HH) as (fi' & ->). cbv zeta. destruct (display_total (Z.of_N (fh_logN (get_head (stream_data fi)))) (fh_r (get_head (stream_data fi))) (fh_p (get_head (stream_data fi))) 0 d0 d0) as (m & ->).
      { specialize (HR fi eq_refl HH). lia. } { lia. } rewrite !bind_Ok. cbn [is_ok rcode_eqb negb]. eauto.
    + destruct (C44_errors true true fi R4 HH) as (rc & fi' & -> & HRC). rewrite bind_Ok. destruct (is_ok rc) eqn:EO; cbn [negb]; [eauto|].
      rewrite print_error_total by (apply is_ok_false; exact EO). rewrite bind_Ok. eauto.
Qed.

(** ** The exceptions are real *)
(** Decryption with explicit parameters: a failed assertion, after the passphrase has been asked for. *)
Theorem C52_dec_explicit_refuted : forall W prog rest s i o passwd fi, Forall cstring rest -> requested W Dec rest s i o -> s_logN s <> 0%Z ->
  reads W s true i passwd fi -> main W (prog :: str "dec" :: rest) = Abort.
Proof.
  intros W prog rest s i o passwd fi HC HQ HN [fi0 rp EI EA EP _]. change (str "dec") with (mode_word Dec). rewrite (C39_operation W prog Dec rest s i o HC HQ). cbn [operation].
  unfold scrypt_mode_enc_dec. fold (input_stream W i). rewrite EI. fold (ask W s true). rewrite EA, bind_Ok, EP. cbv zeta.
  unfold scryptdec_file_prep. assert (all_zero (params_of s) = false) as -> by (unfold all_zero, params_of; cbn [x_logN x_r x_p]; lia). reflexivity.
Qed.
Lemma enc_start W prog rest s i o passwd fi fo : Forall cstring rest -> requested W Enc rest s i o -> reads W s false i passwd fi -> output_stream W o = Some fo ->
  (scryptenc_setup (w_M W) (w_cfg W) (w_lb W) (w_env W) (params_of s) (scratch_bytes (jk (w_M W)) 96) (scratch_bytes (jk (w_M W)) 64) passwd (s_verbose s) (s_force s) = Abort ->
   main W (prog :: str "enc" :: rest) = Abort) /\
  (scryptenc_setup (w_M W) (w_cfg W) (w_lb W) (w_env W) (params_of s) (scratch_bytes (jk (w_M W)) 96) (scratch_bytes (jk (w_M W)) 64) passwd (s_verbose s) (s_force s) = UB ->
   main W (prog :: str "enc" :: rest) = UB).
Proof.
  intros HC HQ [fi0 rp EI EA EP ->] EO. change (str "enc") with (mode_word Enc). rewrite (C39_operation W prog Enc rest s i o HC HQ). cbn [operation].
  unfold scrypt_mode_enc_dec. fold (input_stream W i). rewrite EI. fold (ask W s false). rewrite EA, bind_Ok, EP. cbv zeta.
  unfold enc_dec_run. fold (output_stream W o). rewrite EO. cbv zeta iota. rewrite scryptenc_file_eq.
  assert (assert_ (all_zero (params_of s) || none_zero (params_of s)) = Ok tt) as -> by (rewrite (requested_zero W Enc rest s i o HQ); reflexivity). rewrite bind_Ok.
  split; intros ->; reflexivity.
Qed.
(** Encryption with a memory fraction that is not a number, where the limits are used:
    a failed assertion, after the output file has been opened (and so emptied). *)
Theorem C52_nan_memory_refuted : forall W prog rest s i o passwd fi fo, Forall cstring rest -> requested W Enc rest s i o -> reads W s false i passwd fi ->
  output_stream W o = Some fo -> s_maxmemfrac s = dnan -> s_force s = false \/ s_logN s = 0%Z -> main W (prog :: str "enc" :: rest) = Abort.
Proof.
  intros W prog rest s i o passwd fi fo HC HQ HR HO HF HL. apply (enc_start W prog rest s i o passwd fi fo HC HQ HR HO). unfold scryptenc_setup, setup_params.
  pose proof (C39_ranges W Enc rest s i o HQ) as (HG & _).
  assert (forall e szb, memtouse szb e (l_maxmem (x_lim (params_of s))) (l_maxmemfrac (x_lim (params_of s))) = Abort) as HM.
  { intros e szb. unfold params_of. cbn [x_lim l_maxmem l_maxmemfrac]. rewrite HF. reflexivity. }
  destruct (Z.eqb_spec (x_logN (params_of s)) 0) as [EZ|EZ]; cbn [negb].
  - unfold pickparams. rewrite HM. reflexivity.
  - unfold params_of in EZ. cbn [x_logN] in EZ. destruct HL as [HL|HL]; [|contradiction]. destruct HG as [HG|HG]; [lia|].
    unfold checkparams. rewrite HL, HM. unfold params_of. cbn [x_logN x_r x_p].
    assert ((s_logN s <? 1)%Z || (63 <? s_logN s)%Z = false) as -> by lia.
    assert (s_r s * s_p s <= 32 * 2048) as HRP by (apply N.mul_le_mono; lia).
    assert (w64 (s_r s * s_p s) = s_r s * s_p s) as -> by (apply w64_small; lia).
    assert (0x40000000 <=? s_r s * s_p s = false) as -> by lia. assert ((s_r s =? 0) || (s_p s =? 0) = false) as -> by lia. reflexivity.
Qed.
(** Encryption with a time limit that is not a number and chosen parameters: undefined behaviour. *)
Theorem C52_nan_time_refuted : forall W prog rest s i o passwd fi fo L opps, Forall cstring rest -> requested W Enc rest s i o -> reads W s false i passwd fi ->
  output_stream W o = Some fo -> s_maxtime s = dnan -> s_logN s = 0%Z ->
  budget (w_M W) (v_params (w_env W)) (x_lim (params_of s)) L -> speed (w_M W) (w_cfg W) (lb_smix (w_lb W)) (v_params (w_env W)) opps ->
  main W (prog :: str "enc" :: rest) = UB.
Proof.
  intros W prog rest s i o passwd fi fo L opps HC HQ HR HO HF HL HB HS. apply (enc_start W prog rest s i o passwd fi fo HC HQ HR HO). unfold scryptenc_setup, setup_params.
  assert ((x_logN (params_of s) =? 0)%Z = true) as -> by (unfold params_of; cbn [x_logN]; lia). cbn [negb].
  rewrite (C13_nan_refuted _ _ _ _ _ L opps (s_verbose s) HB HS) by exact HF. reflexivity.
Qed.
(** Showing a file whose header has an impossible N. *)
Theorem C52_info_refuted : forall W prog rest s i o logN r p, Forall cstring rest -> requested W Info rest s i o -> w_al1 W = true -> w_al2 W = true ->
  input_stream W i = Some (mk_in [(info_file logN r p, false)] false) -> 64 <= logN -> logN < 256 -> r < 2 ^ 32 -> p < 2 ^ 32 ->
  main W (prog :: str "info" :: rest) = UB.
Proof.
  intros W prog rest s i o logN r p HC HQ HA1 HA2 HI H1 H2 H3 H4. change (str "info") with (mode_word Info). rewrite (C39_operation W prog Info rest s i o HC HQ). cbn [operation].
  unfold scrypt_mode_info. fold (input_stream W i). rewrite HI, HA1, HA2. cbv zeta. rewrite (C44_shift_refuted logN r p H1 H2 H3 H4). reflexivity.
Qed.

(** ** Concrete cases *)
(** The hypotheses of C52_defined are met by a world and a command line that
    reaches the decryption. *)
Lemma ex_steady : steady ex_call.
Proof.
  assert (forall n, (0 <= n < 2 ^ 62)%Z -> reading_ok (sec n)) as HS. { intros n Hn. split; [cbn; lia|]. split; [exact I|discriminate]. }
  assert (forall n, (0 <= n < 2 ^ 62)%Z -> iteration_ok (ex_iter n)) as HT. { intros n Hn. split; [apply HS; exact Hn|repeat split]. }
  split; [|split| |].
  - unfold perf_ok. cbn [ex_call v_params ex_env pv_perf ex_perf pe_start1 pe_start2 pe_first1 pe_rest1 pe_first2 pe_rest2].
    split; [apply HS; lia|]. split; [apply HS; lia|]. split; repeat (apply Forall_cons; [apply HT; lia|]); apply Forall_nil.
  - apply C45_hyps.
  - reflexivity.
  - repeat split.
  - split; reflexivity.
Qed.
Example C52_hyps b : sane (ex_world b) /\ steady (w_env (ex_world b)) /\ w_al1 (ex_world b) = true /\ w_al2 (ex_world b) = true /\ Forall cstring ex_args /\
  requested (ex_world b) Dec ex_args ex_settings (Some (str "a")) (Some (str "b")) /\
  (forall s i o, requested (ex_world b) Dec ex_args s i o -> reasonable (ex_world b) Dec s i).
Proof.
  split; [apply ex_sane|]. split; [exact ex_steady|]. split; [reflexivity|]. split; [reflexivity|]. split; [exact ex_args_ok|]. split; [apply ex_requested|].
  intros s i o H. destruct (C39_determined _ _ _ _ _ _ _ _ _ (ex_requested b) H) as (-> & _ & _). split; [reflexivity|left; reflexivity].
Qed.
(** A world where every file is empty and "nan" is a number for strtod. *)
Definition nan_world (content : bytes) : world :=
  mk_world ex_machine ex_cfg ex_lib ex_heap ex_call ex_pp (mk_in [] false) (mk_out [] [] false)
    (fun n => Some (mk_in [(content, false)] false)) (fun _ => Some (mk_out [] [] false)) true true
    (fun s => if list_eqb s (str "nan") then (dnan, 3%nat, None) else (d0, 0%nat, None)) 0 true true.
Definition pw_args (l : list string) : list bytes := str "scrypt" :: map str l.
Open Scope string_scope.
Example C52_dec_explicit_case :
  main (nan_world []) (pw_args ["dec"; "--passphrase"; "env:PW"; "--logN"; "14"; "-r"; "8"; "-p"; "1"; "a"; "b"]) = Abort.
Proof. vm_compute. reflexivity. Qed.
Example C52_nan_memory_case : main (nan_world []) (pw_args ["enc"; "--passphrase"; "env:PW"; "-m"; "nan"; "a"; "b"]) = Abort.
Proof. vm_compute. reflexivity. Qed.
Example C52_info_case : main (nan_world (info_file 64 8 1)) (pw_args ["info"; "a"]) = UB.
Proof. vm_compute. reflexivity. Qed.
Example C52_nan_time_case : main (nan_world []) (pw_args ["enc"; "--passphrase"; "env:PW"; "-t"; "nan"; "a"; "b"]) = UB.
Proof.
  destruct (ex_speed None) as (opps & HS).
  apply (C52_nan_time_refuted (nan_world []) (str "scrypt") [str "--passphrase"; str "env:PW"; str "-t"; str "nan"; str "a"; str "b"]
    (mk_set false false (Some (PASSPHRASE_ENV, str "PW")) 0 d0_125 dnan 0 0 0) (Some (str "a")) (Some (str "b")) ex_passwd (mk_in [([], false)] false) (mk_out [] [] false) (2 ^ 30) opps).
  - repeat (apply Forall_cons; [unfold cstring; cbn; intuition discriminate|]). apply Forall_nil.
  - exists [Arg (str "--passphrase") (str "env:PW"); Arg (str "-t") (str "nan")], [str "a"; str "b"]. split; [|split; [|split]].
    + apply parse_arg; [do 2 eexists; reflexivity|cbn; intuition discriminate|cbn; tauto|].
      apply (parse_cluster scrypt_options 116 []); [discriminate|]. apply (cluster_arg scrypt_options 116 (str "nan")).
      * cbn. tauto.
      * apply (parse_other scrypt_options 97). discriminate.
    + eapply effs_cons; [apply (eff_pass _ _ false false 0 d0_125 (of_N 5) 0 0 0 (str "env:PW") PASSPHRASE_ENV (str "PW")); exact (ms_env (str "PW"))|].
      eapply effs_cons; [|apply effs_nil]. apply eff_t. exists 3%nat. split; [left; reflexivity|]. split; [reflexivity|]. split; [discriminate|]. split; reflexivity.
    + constructor. discriminate.
    + unfold acceptable. cbn [s_logN s_r s_p s_maxmemfrac s_method]. split; [left; auto|]. split; [reflexivity|]. intros [H _]. discriminate H.
  - eapply (reads_intro _ _ _ _ _ _ (mk_in [([], false)] false)); reflexivity.
  - reflexivity.
  - reflexivity.
  - reflexivity.
  - exact (ex_budget dnan).
  - exact HS.
Qed.
Definition Prop_defined_all := (C52_defined, C52_dec_explicit_refuted, C52_nan_memory_refuted, C52_nan_time_refuted, C52_info_refuted).
Print Assumptions Prop_defined_all.
