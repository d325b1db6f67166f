(** C61 for the program: what a run with -v displays. *)
From Coq Require Import String.
From Verif Require Import Base SpecAscii SpecText SpecBytes SpecSHA SpecScrypt SpecScryptAPI SpecAES SpecFormat SpecStream P_scrypt M_machine M_double M_smix M_stdio P_stdio M_memlimit M_cpuperf
  M_strto M_params Prop_params M_scryptenc SpecScryptenc M_getopt M_readpass M_print_error M_main M_memzero P_memzero SpecPass SpecGetopt SpecCLI P_scrypt_ref P_scryptenc P_scryptenc2 P_scryptenc3 P_scryptenc4
  P_scryptenc7 P_scryptenc8 P_scryptenc9 P_entropy M_entropy P_readpass Prop_getopt Prop_readpass Prop_enc Prop_dec Prop_io Prop_cli P_main Prop_main M_msg_text Prop_display Prop_verbose Prop_explicit.
Local Open Scope list_scope.

(** The reports on parameters that a run displays, in order. *)
Definition msg_reports (ms : list msg) : list params_msg := flat_map (fun m => match m with Msg_params p => [p] | _ => [] end) ms.
Definition run_reports (r : presult) : list params_msg :=
  flat_map (fun e => match e with E_msgs ms => msg_reports ms | _ => [] end) (pr_events r).

Definition silent (e : pevent) : Prop := match e with E_msgs _ => False | _ => True end.
Definition ev_reports (evs : list pevent) : list params_msg := flat_map (fun e => match e with E_msgs ms => msg_reports ms | _ => [] end) evs.
Lemma silent_none evs : Forall silent evs -> ev_reports evs = [].
Proof. induction 1 as [|e evs H _ IH]; [reflexivity|]. destruct e; try exact IH. destruct H. Qed.
Lemma ev_app a b : ev_reports (a ++ b) = ev_reports a ++ ev_reports b.
Proof. apply flat_map_app. Qed.
Lemma silent_close_in W i : Forall silent (close_in W i).
Proof. unfold close_in, warn_close. destruct i; [destruct (w_close_in W)|]; repeat constructor. Qed.
Lemma silent_close_out W i : Forall silent (close_out W i).
Proof. unfold close_out, warn_close. destruct i; [destruct (w_close_out W)|]; repeat constructor. Qed.
Lemma silent_error rc i o pe : print_error rc i o = Ok pe -> Forall silent pe.
Proof. unfold print_error. intros H. apply bind_inv in H. destruct H as (x & _ & H). apply Ok_inj in H. subst pe. repeat constructor. Qed.
Ltac sil := apply silent_none; repeat first [assumption | apply silent_close_in | apply silent_close_out | apply Forall_nil | (apply Forall_app; split) | (apply Forall_cons; [exact I|])].

(** What the messages of a run are: those of its one library call that checks or chooses parameters. *)
Inductive speaks (W : world) (s : settings) (i o : option bytes) (r : presult) : bool -> Prop :=
| S_none dec : pr_status r = 1%Z -> run_reports r = [] -> speaks W s i o r dec
| S_enc passwd fi fo oc : reads W s false i passwd fi -> output_stream W o = Some fo ->
    scryptenc_file (w_M W) (w_cfg W) (w_lb W) (w_heap W) (w_env W) fi fo passwd (params_of s) (s_verbose s) (s_force s) = Ok oc ->
    run_reports r = msg_reports (oc_msgs oc) -> (pr_status r = 0%Z -> oc_rc oc = SCRYPT_OK /\ put W r o (snd (oc_val oc))) -> speaks W s i o r false
| S_dec passwd fi oc : reads W s true i passwd fi ->
    scryptdec_file_prep (w_M W) (w_cfg W) (w_lb W) (w_heap W) (w_env W) fi passwd (params_of s) (s_verbose s) (s_force s) None = Ok oc ->
    run_reports r = msg_reports (oc_msgs oc) -> (pr_status r = 0%Z -> oc_rc oc = SCRYPT_OK) -> speaks W s i o r true.

Lemma enc_dec_speaks W s dec i o r :
  scrypt_mode_enc_dec W (params_of s) (fst (method_of s)) (snd (method_of s)) dec (s_verbose s) (s_force s) i o = Ok r -> speaks W s i o r dec.
Proof.
  unfold scrypt_mode_enc_dec. fold (input_stream W i). destruct (input_stream W i) as [fi0|] eqn:EI.
  2:{ intros H. apply Ok_inj in H. subst r. apply S_none; [reflexivity|]. unfold run_reports. cbn [fail pr_events]. change (ev_reports [E_open_in (or_name i []) false; E_warn (str "Cannot open input file: " ++ or_name i [])] = []). sil. }
  intros H. apply bind_inv in H. destruct H as (rp & ER & H). fold (ask W s dec) in ER.
  set (oi := match i with None => [] | Some n => [E_open_in n true] end) in H.
  assert (Forall silent oi) as HOI by (unfold oi; destruct i; repeat constructor). clearbody oi.
  destruct (ro_pass rp) as [passwd|] eqn:EP.
  2:{ apply Ok_inj in H. subst r. apply S_none; [reflexivity|]. unfold run_reports. cbn [fail pr_events]. fold (ev_reports (oi ++ [E_pass (ro_acts rp) false; E_warn (str "passphrase_entry_readpass")] ++ close_in W i)). sil. }
  set (fi := match i with None => ro_stdin rp | Some _ => fi0 end) in H.
  assert (reads W s dec i passwd fi) as HR by (econstructor; eauto; reflexivity). clearbody fi.
  destruct dec.
  - apply bind_inv in H. destruct H as (oc & EC & H). apply (S_dec W s i o r passwd fi oc HR EC).
    + destruct (is_ok (oc_rc oc)) eqn:EO; cbn [negb] in H.
      * apply bind_inv in H. destruct H as (r1 & E1 & H). apply Ok_inj in H. subst r. unfold run_reports, add_events. cbn [pr_events].
        fold (ev_reports (((oi ++ [E_pass (ro_acts rp) true]) ++ [E_msgs (oc_msgs oc); E_prep (oc_rc oc)]) ++ pr_events r1)).
        assert (ev_reports (pr_events r1) = []) as HN.
        { unfold enc_dec_run in E1. fold (output_stream W o) in E1. destruct (output_stream W o) as [fo|] eqn:EOUT.
          - apply bind_inv in E1. destruct E1 as ([[[rc ms] fo2] h2] & E2 & E1). apply bind_inv in E2. destruct E2 as ([[[rc' fi2] fo2'] h2'] & E2 & E3).
            apply Ok_inj in E3. assert (ms = []) as -> by congruence. clear E2 E3.
            apply bind_inv in E1. destruct E1 as (h3 & EF & E1). rewrite release_pass_ok, bind_Ok in E1. apply bind_inv in E1. destruct E1 as (pe & EPE & E1).
            assert (Forall silent pe) as HPE by (destruct (is_ok rc); [apply Ok_inj in EPE; subst pe; constructor|exact (silent_error _ _ _ _ EPE)]).
            assert (exists b, pr_events r1 = match o with None => [] | Some n => [E_open_out n true] end ++ [E_msgs []; E_run rc] ++ b /\ Forall silent b) as (b & -> & Hb).
            { eexists. split; [destruct o; apply Ok_inj in E1; subst r1; reflexivity|]. constructor; [exact I|]. repeat first [assumption | apply silent_close_in | apply silent_close_out | (apply Forall_app; split)]. }
            rewrite !ev_app, (silent_none b Hb). destruct o; reflexivity.
          - apply bind_inv in E1. destruct E1 as (h & EF & E1). rewrite release_pass_ok, bind_Ok in E1. apply Ok_inj in E1. subst r1. cbn [fail pr_events]. sil. }
        rewrite !ev_app, HN, (silent_none oi HOI). cbn. rewrite !app_nil_r. reflexivity.
      * apply bind_inv in H. destruct H as (h & EF & H). rewrite release_pass_ok, bind_Ok in H. apply bind_inv in H. destruct H as (pe & EPE & H). apply Ok_inj in H. subst r.
        pose proof (silent_error _ _ _ _ EPE) as HPE. unfold run_reports. cbn [fail pr_events].
        fold (ev_reports (((oi ++ [E_pass (ro_acts rp) true]) ++ [E_msgs (oc_msgs oc); E_prep (oc_rc oc)]) ++ E_pass_free (repeat 0 (S (List.length passwd))) :: close_in W i ++ pe)).
        rewrite !ev_app, (silent_none oi HOI).
        assert (ev_reports (E_pass_free (repeat 0 (S (List.length passwd))) :: close_in W i ++ pe) = []) as -> by sil.
        cbn. rewrite !app_nil_r. reflexivity.
    + intros HS. destruct (is_ok (oc_rc oc)) eqn:EO; [apply is_ok_spec, EO|]. cbn [negb] in H.
      apply bind_inv in H. destruct H as (h & EF & H). rewrite release_pass_ok, bind_Ok in H. apply bind_inv in H. destruct H as (pe & EPE & H). apply Ok_inj in H. subst r. discriminate HS.
  - apply bind_inv in H. destruct H as (r1 & E1 & H). apply Ok_inj in H. subst r.
    unfold enc_dec_run in E1. fold (output_stream W o) in E1. destruct (output_stream W o) as [fo|] eqn:EOUT.
    + apply bind_inv in E1. destruct E1 as ([[[rc ms] fo2] h2] & E2 & E1). apply bind_inv in E2. destruct E2 as (oc & E2 & E3).
      apply Ok_inj in E3. assert (rc = oc_rc oc) as -> by congruence. assert (ms = oc_msgs oc) as -> by congruence.
      assert (fo2 = snd (oc_val oc)) as -> by congruence. clear E3.
      apply bind_inv in E1. destruct E1 as (h3 & EF & E1). rewrite release_pass_ok, bind_Ok in E1. apply bind_inv in E1. destruct E1 as (pe & EPE & E1).
      assert (Forall silent pe) as HPE by (destruct (is_ok (oc_rc oc)); [apply Ok_inj in EPE; subst pe; constructor|exact (silent_error _ _ _ _ EPE)]).
      apply (S_enc W s i o _ passwd fi fo oc HR EOUT E2).
      * unfold run_reports, add_events. cbn [pr_events]. fold (ev_reports ((oi ++ [E_pass (ro_acts rp) true]) ++ pr_events r1)).
        assert (exists b, pr_events r1 = match o with None => [] | Some n => [E_open_out n true] end ++ [E_msgs (oc_msgs oc); E_run (oc_rc oc)] ++ b /\ Forall silent b) as (b & -> & Hb).
        { eexists. split; [destruct o; apply Ok_inj in E1; subst r1; reflexivity|]. constructor; [exact I|]. repeat first [assumption | apply silent_close_in | apply silent_close_out | (apply Forall_app; split)]. }
        rewrite !ev_app, (silent_none oi HOI), (silent_none b Hb). destruct o; cbn; rewrite ?app_nil_r; reflexivity.
      * unfold add_events. cbn [pr_status]. intros HS. assert (oc_rc oc = SCRYPT_OK /\ put W r1 o (snd (oc_val oc))) as [H1 H2]; [|split; [exact H1|destruct o; exact H2]].
        destruct (is_ok (oc_rc oc)) eqn:EO; [|destruct o; apply Ok_inj in E1; subst r1; discriminate HS].
        split; [apply is_ok_spec, EO|]. destruct o; apply Ok_inj in E1; subst r1; split; reflexivity.
    + apply bind_inv in E1. destruct E1 as (h & EF & E1). rewrite release_pass_ok, bind_Ok in E1. apply Ok_inj in E1. subst r1.
      apply S_none; [reflexivity|]. unfold run_reports, add_events. cbn [fail pr_events].
      match goal with |- flat_map _ ?l = [] => fold (ev_reports l) end. sil.
Qed.

Lemma msg_reports_none ms : (forall m, ~ In (Msg_params m) ms) -> msg_reports ms = [].
Proof.
  induction ms as [|m ms IH]; intros H; [reflexivity|]. cbn [msg_reports flat_map]. fold (msg_reports ms). rewrite IH.
  - destruct m as [pm| |]; try reflexivity. destruct (H pm). left. reflexivity.
  - intros m' HI. apply (H m'). right. exact HI.
Qed.
Lemma msg_reports_in m ms : In m (msg_reports ms) -> In (Msg_params m) ms.
Proof.
  unfold msg_reports. rewrite in_flat_map. intros (x & HX & HI). destruct x; try destruct HI; [|contradiction]. subst. exact HX.
Qed.

Section Program.
  Context (fmt_f1 : double -> bytes).

  (** Without -v, no run of enc or dec displays a report. *)
  Theorem C61_program_quiet : forall W prog m rest r s i o, sane W -> clock_sane (v_params (w_env W)) -> Forall cstring rest ->
    requested W m rest s i o -> m <> Info -> s_verbose s = false ->
    main W (prog :: mode_word m :: rest) = Ok r -> run_reports r = [].
  Proof.
    intros W prog m rest r s i o HW HC HCS HQ HM HV E. rewrite (C39_operation W prog m rest s i o HCS HQ) in E.
    pose proof (sn_size W HW) as HZ.
    assert (exists dec, speaks W s i o r dec) as (dec & HS).
    { destruct m; [eexists; exact (enc_dec_speaks _ _ _ _ _ _ E)|eexists; exact (enc_dec_speaks _ _ _ _ _ _ E)|congruence]. }
    destruct HS as [dec _ HN|passwd fi fo oc _ _ EC EQ _|passwd fi oc _ EC EQ _]; [exact HN| |].
    - rewrite EQ. apply msg_reports_none. exact (dp_quiet _ _ _ _ _ _ _ _ _ _ _ (C61_encrypt_stream fmt_f1 _ _ _ _ _ _ _ _ _ _ _ _ HZ HC EC) HV).
    - rewrite EQ. apply msg_reports_none. exact (dp_quiet _ _ _ _ _ _ _ _ _ _ _ (C61_prepare fmt_f1 _ _ _ _ _ _ _ _ _ _ _ _ HZ HC EC) HV).
  Qed.

  (** A successful encryption with -v displays exactly one report, and that
      report gives the parameters in the header of the file it wrote. *)
  Theorem C61_program_enc : forall W prog rest r s i o, sane W -> clock_sane (v_params (w_env W)) -> Forall cstring rest ->
    requested W Enc rest s i o -> s_verbose s = true ->
    main W (prog :: str "enc" :: rest) = Ok r -> pr_status r = 0%Z ->
    exists pm passwd fi fo fo' h, run_reports r = [pm] /\ reads W s false i passwd fi /\ output_stream W o = Some fo /\ put W r o fo' /\ fhead_ok h /\
      o_data fo' = o_data fo ++ fmt_file scrypt_wrapping passwd h (stream_data fi) /\
      (printable (P_of (x_lim (params_of s)) h) ->
       if s_force s && negb (s_logN s =? 0)%Z
       then report fmt_f1 (2 ^ fh_logN h) (fh_r h) (fh_p h) None (params_text fmt_f1 pm)
       else exists L opps, budget (w_M W) (v_params (w_env W)) (x_lim (params_of s)) L /\
              speed (w_M W) (w_cfg W) (lb_smix (w_lb W)) (v_params (w_env W)) opps /\
              report fmt_f1 (2 ^ fh_logN h) (fh_r h) (fh_p h) (Some (L, opps, l_maxtime (x_lim (params_of s)))) (params_text fmt_f1 pm)).
  Proof.
    intros W prog rest r s i o HW HC HCS HQ HV E HS. pose proof (sn_size W HW) as HZ.
    change (str "enc") with (mode_word Enc) in E. rewrite (C39_operation W prog Enc rest s i o HCS HQ) in E. cbn [operation] in E.
    apply enc_dec_speaks in E. inversion E as [dec H1 H2|passwd fi fo oc HR HO EC EQ HK|]; [congruence|]. clear E.
    destruct (HK HS) as [EO HP]. clear HK.
    pose proof (C61_encrypt_stream fmt_f1 _ _ _ _ _ _ _ _ _ _ _ _ HZ HC EC) as [_ HD HT].
    destruct (HD HV) as (pm & ms & Em & Hn). { rewrite EO. left. reflexivity. }
    destruct (sane_ready W s false i passwd fi HW HR) as [[R1 R2 R3] [R4 R5]].
    apply scryptenc_file_inv in EC; auto; [|exact (requested_xp W Enc rest s i o HQ)|exact (sn_ent W HW)|exact (sn_drbg W HW)].
    destruct EC as (_ & _ & _ & _ & HX & HE). rewrite EO in HE.
    assert (exists h, fhead_ok h /\ o_data (snd (oc_val oc)) = o_data fo ++ fmt_file kdf passwd h (stream_data fi) /\
        oc_P oc = P_of (x_lim (params_of s)) h) as (h & B0 & B3 & B5).
    { clear HX HD HT Em. revert HE. generalize (oc_P oc) (fst (oc_val oc)) (snd (oc_val oc)) (oc_heap oc). intros P' x1 x2 x3 HE.
      inversion HE as [|h rc' y1 y2 y3 B1 B2 B3 B4]; subst; [congruence|]. inversion B4 as [|rc3 z1 z2 K1 K2| | | |z1 z2 z3 K1 K2 K3 K4 K5 K6 K7 K8]; subst.
      - unfold aes_rc in K1. destruct (v_key_mem (w_env W)); discriminate.
      - exists h. auto. }
    exists pm, passwd, fi, fo, (snd (oc_val oc)), h.
    split; [rewrite EQ, Em; cbn [msg_reports flat_map app]; f_equal; apply msg_reports_none, Hn|].
    split; [exact HR|]. split; [exact HO|]. split; [exact HP|]. split; [exact B0|]. split; [exact B3|].
    intros HPr. rewrite B5 in HT. specialize (HT pm). rewrite Em in HT. specialize (HT (or_introl eq_refl) HPr).
    unfold reports, report_on, P_of in HT. cbn [x_logN x_r x_p x_lim params_of] in HT. rewrite N2Z.id in HT. exact HT.
  Qed.

  (** A successful decryption with -v displays exactly one report, and that
      report gives the parameters in the header of the file it read. *)
  Theorem C61_program_dec : forall W prog rest r s i o, sane W -> clock_sane (v_params (w_env W)) -> Forall cstring rest ->
    requested W Dec rest s i o -> s_verbose s = true ->
    main W (prog :: str "dec" :: rest) = Ok r -> pr_status r = 0%Z ->
    exists pm passwd fi h data, run_reports r = [pm] /\ reads W s true i passwd fi /\
      fhead_ok h /\ stream_data fi = fmt_file scrypt_wrapping passwd h data /\
      (printable (P_of (x_lim (params_of s)) h) ->
       if s_force s
       then report fmt_f1 (2 ^ fh_logN h) (fh_r h) (fh_p h) None (params_text fmt_f1 pm)
       else exists L opps, budget (w_M W) (v_params (w_env W)) (x_lim (params_of s)) L /\
              speed (w_M W) (w_cfg W) (lb_smix (w_lb W)) (v_params (w_env W)) opps /\
              report fmt_f1 (2 ^ fh_logN h) (fh_r h) (fh_p h) (Some (L, opps, l_maxtime (x_lim (params_of s)))) (params_text fmt_f1 pm)).
  Proof.
    intros W prog rest r s i o HW HC HCS HQ HV E HS. pose proof (sn_size W HW) as HZ.
    change (str "dec") with (mode_word Dec) in E. rewrite (C39_operation W prog Dec rest s i o HCS HQ) in E. cbn [operation] in E.
    pose proof E as E0. apply enc_dec_course in E0.
    apply enc_dec_speaks in E. inversion E as [dec H1 H2| |passwd fi oc HR EC EQ HK]; [congruence|]. clear E.
    pose proof (HK HS) as EO. clear HK.
    pose proof (C61_prepare fmt_f1 _ _ _ _ _ _ _ _ _ _ _ _ HZ HC EC) as [_ HD HT].
    destruct (HD HV) as (pm & ms & Em & Hn). { rewrite EO. left. reflexivity. }
    assert (exists data, fhead_ok (get_head (stream_data fi)) /\ stream_data fi = fmt_file kdf passwd (get_head (stream_data fi)) data) as (data & HF & HG).
    { destruct E0 as [A1 A2 A3 A4 A5|passwd' fi' oc' a b h A1 A2 A3 A4 A5 A6 A7 A8 A9 A10 A11 A12|passwd' fi' a b A1|passwd' fi' oc' a b h A1 A2 A3 A4 A5 A6 A7 A8 A9 A10 A11 A12 A13
        |passwd' fi' fo oc' a b A1|passwd' fi' fo oc' rc fi2 fo2 h2 h3 a b A1 A2 A3 A4 A5 A6 A7 A8 A9 A10 A11 A12 A13 A14]; try discriminate A1; try congruence.
      destruct (reads_unique _ _ _ _ _ _ _ _ HR A2) as [<- <-].
      rewrite A8 in HS. destruct (is_ok rc) eqn:EK; [|discriminate HS]. apply is_ok_spec in EK. subst rc.
      destruct (sane_ready W s true i passwd fi HW A2) as [R [R4 R5]]. pose proof R as [R1 R2 R3].
      pose proof (prep_verified _ _ _ _ _ _ _ _ _ _ _ _ R (conj R4 R5) A4 A5) as (V1 & V2 & V3 & V4 & V5 & V6 & V7).
      destruct (C50_one_call _ _ _ _ _ _ fo _ _ _ _ oc' (fst (oc_val oc')) (snd (oc_val oc')) SCRYPT_OK fi2 fo2 h2 h3 A4 A5 (surjective_pairing _) A6 A7) as (oo & EOO & B1 & B2 & _).
      apply scryptdec_file_inv in EOO; auto. destruct EOO as (_ & _ & _ & HE). rewrite B1, B2 in HE. cbn [fst snd] in HE.
      assert (stream_fails fi = false /\ (128 <= List.length (stream_data fi))%nat /\ trailer_ok passwd (stream_data fi) /\
        o_data fo2 = o_data fo ++ aes_ctr (key_enc kdf passwd (get_head (stream_data fi))) 0 0 (sub (stream_data fi) 96 (List.length (stream_data fi) - 128))) as (K1 & K2 & K3 & K4).
      { revert HE. generalize (oc_msgs oo) (oc_P oo) (oc_heap oo). intros x1 x2 x3 HE. inversion HE; subst; try congruence.
        - match goal with H : _ = aes_rc _ |- _ => unfold aes_rc in H; destruct (v_key_mem (w_env W)); discriminate end.
        - match goal with H : _ \/ _ |- _ => destruct H as [[_ H]|[H _]]; [|discriminate H] end. auto. }
      eexists. split; [exact V5|]. apply well_formed; auto using stream_data_ok. }
    destruct (sane_ready W s true i passwd fi HW HR) as [R RI].
    destruct R as [R1 R2 R3]. destruct RI as [R4 R5].
    apply prep_inv in EC; auto. destruct EC as (_ & _ & HE). rewrite EO in HE.
    assert (oc_P oc = P_of (x_lim (params_of s)) (get_head (stream_data fi))) as B5.
    { revert HE. generalize (oc_P oc) (oc_msgs oc) (fst (oc_val oc)) (snd (oc_val oc)) (oc_heap oc). intros P' x0 x1 x2 x3 HE.
      inversion HE; subst; congruence. }
    exists pm, passwd, fi, (get_head (stream_data fi)), data.
    split; [rewrite EQ, Em; cbn [msg_reports flat_map app]; f_equal; apply msg_reports_none, Hn|].
    split; [exact HR|]. split; [exact HF|]. split; [exact HG|].
    intros HPr. rewrite B5 in HT. specialize (HT pm). rewrite Em in HT. specialize (HT (or_introl eq_refl) HPr).
    unfold reports, report_on, P_of in HT. cbn [x_logN x_r x_p x_lim params_of] in HT. rewrite N2Z.id in HT. exact HT.
  Qed.
End Program.

(** Hypotheses met: the run "scrypt dec -v -f --passphrase env:PW a b" of C58_hyps (-f, so no limits). *)
Example C61_program_hyps fmt_f1 : let rest := str "-v" :: ex_args in
  sane (ex_world true) /\ clock_sane (v_params (w_env (ex_world true))) /\ Forall cstring rest /\
  requested (ex_world true) Dec rest (with_verbose true ex_settings) (Some (str "a")) (Some (str "b")) /\
  exists r pm, main (ex_world true) (str "scrypt" :: str "dec" :: rest) = Ok r /\ pr_status r = 0%Z /\ run_reports r = [pm] /\
    report fmt_f1 (2 ^ 14) 8 1 None (params_text fmt_f1 pm).
Proof.
  cbv zeta. destruct C58_hyps as (HC & HQ & _ & _ & r & _ & E & _ & ES).
  destruct C02_auto_hyps as (_ & _ & _ & _ & _ & _ & _ & _ & HK & _).
  change (clock_sane (v_params (w_env (ex_world true)))) in HK.
  split; [apply ex_sane|]. split; [exact HK|]. split; [exact HC|]. split; [exact HQ|].
  destruct (C61_program_dec fmt_f1 (ex_world true) (str "scrypt") _ r _ _ _ (ex_sane true) HK HC HQ eq_refl E ES) as (pm & pw & fi & h & data & HR & HRD & HF & HD & HT).
  assert (fi = mk_in [(ex_file, false)] false /\ pw = ex_passwd) as [-> ->].
  { assert (reads (ex_world true) (with_verbose true ex_settings) true (Some (str "a")) ex_passwd (mk_in [(ex_file, false)] false)) as H
      by (eapply (reads_intro _ _ _ _ _ _ (mk_in [(ex_file, false)] false)); reflexivity).
    destruct (reads_unique _ _ _ _ _ _ _ _ HRD H). auto. }
  assert (h = ex_h) as ->.
  { assert (stream_data (mk_in [(ex_file, false)] false) = ex_file) as HS by (exact (proj1 (delivered_data _ _ ex_delivered))).
    rewrite HS in HD. unfold ex_file in HD. apply (f_equal get_head) in HD. unfold fmt_file, fmt_body, fmt_96, fmt_64 in HD. rewrite <- !app_assoc in HD.
    rewrite !get_head_fmt in HD by (auto; exact ex_h_ok). symmetry. exact HD. }
  exists r, pm. split; [exact E|]. split; [exact ES|]. split; [exact HR|].
  apply HT. repeat split; vm_compute; congruence.
Qed.
Definition Prop_display2_all := (C61_program_quiet, C61_program_enc, C61_program_dec).
Print Assumptions Prop_display2_all.
