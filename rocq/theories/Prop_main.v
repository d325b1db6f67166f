(** C10, C11: output files and exit status of the program. *)
From Coq Require Import String.
From Verif Require Import Base SpecAscii SpecBytes SpecSHA SpecScrypt SpecScryptAPI SpecAES SpecFormat SpecStream P_scrypt M_machine M_double M_smix M_stdio P_stdio M_memlimit M_cpuperf
  M_strto M_params Prop_params M_scryptenc SpecScryptenc M_getopt M_readpass M_print_error M_main M_memzero P_memzero SpecPass SpecGetopt SpecCLI P_scrypt_ref P_scryptenc P_scryptenc2 P_scryptenc3 P_scryptenc4
  P_scryptenc7 P_scryptenc8 P_scryptenc9 P_entropy M_entropy P_readpass Prop_getopt Prop_readpass Prop_enc Prop_dec Prop_io Prop_cli P_main.
Local Open Scope list_scope.

(** The output of a run, and where it went. *)
Definition put (W : world) (r : presult) (o : option bytes) (fo : outstream) : Prop :=
  match o with None => pr_stdout r = fo /\ pr_file r = None | Some n => pr_stdout r = w_stdout W /\ pr_file r = Some (n, fo) end.
Definition untouched (W : world) (r : presult) : Prop :=
  pr_stdout r = w_stdout W /\ pr_file r = None /\ forall n ok, ~ In (E_open_out n ok) (pr_events r).

(** ** What a run does *)
Definition early (e : pevent) : Prop := match e with E_open_out _ _ | E_run _ | E_prep _ => False | _ => True end.
Lemma early_open evs : Forall early evs -> forall n ok, ~ In (E_open_out n ok) evs.
Proof. intros H n ok Hi. rewrite Forall_forall in H. exact (H _ Hi). Qed.
Lemma early_close_in W i : Forall early (close_in W i).
Proof. unfold close_in, warn_close. destruct i; [destruct (w_close_in W)|]; repeat constructor. Qed.
Lemma early_close_out W i : Forall early (close_out W i).
Proof. unfold close_out, warn_close. destruct i; [destruct (w_close_out W)|]; repeat constructor. Qed.
Lemma early_error rc i o pe : print_error rc i o = Ok pe -> Forall early pe.
Proof. unfold print_error. intros H. apply bind_inv in H. destruct H as (x & _ & H). apply Ok_inj in H. subst pe. repeat constructor. Qed.
Lemma release_pass_ok passwd : release_pass passwd = Ok (E_pass_free (repeat 0 (S (List.length passwd)))).
Proof.
  unfold release_pass. rewrite insecure_memzero_ok, bind_Ok by (rewrite app_length; lia).
  rewrite skipn_app, skipn_all, Nat.sub_diag. cbn [app skipn]. rewrite <- repeat_cons. reflexivity.
Qed.
Inductive course (W : world) (s : settings) (dec : bool) (i o : option bytes) (r : presult) : Prop :=
| K_nothing : pr_status r = 1%Z -> pr_stdout r = w_stdout W -> pr_file r = None -> pr_heap r = w_heap W -> Forall early (pr_events r) -> course W s dec i o r
| K_prep passwd fi oc a b h : dec = true -> reads W s true i passwd fi ->
    scryptdec_file_prep (w_M W) (w_cfg W) (w_lb W) (w_heap W) (w_env W) fi passwd (params_of s) (s_verbose s) (s_force s) None = Ok oc -> oc_rc oc <> SCRYPT_OK ->
    scryptdec_file_cookie_free (fst (oc_val oc)) (oc_heap oc) = Ok h ->
    pr_status r = 1%Z -> pr_stdout r = w_stdout W -> pr_file r = None -> pr_heap r = h ->
    pr_events r = a ++ E_prep (oc_rc oc) :: b -> Forall early a -> Forall early b -> course W s dec i o r
| K_no_output passwd fi a b : dec = false -> reads W s dec i passwd fi -> output_stream W o = None ->
    pr_status r = 1%Z -> pr_stdout r = w_stdout W -> pr_file r = None -> pr_heap r = w_heap W ->
    pr_events r = a ++ E_open_out (or_name o []) false :: b -> Forall early a -> Forall early b -> course W s dec i o r
| K_no_output_dec passwd fi oc a b h : dec = true -> reads W s dec i passwd fi -> output_stream W o = None ->
    scryptdec_file_prep (w_M W) (w_cfg W) (w_lb W) (w_heap W) (w_env W) fi passwd (params_of s) (s_verbose s) (s_force s) None = Ok oc -> oc_rc oc = SCRYPT_OK ->
    scryptdec_file_cookie_free (fst (oc_val oc)) (oc_heap oc) = Ok h ->
    pr_status r = 1%Z -> pr_stdout r = w_stdout W -> pr_file r = None -> pr_heap r = h ->
    pr_events r = a ++ E_prep SCRYPT_OK :: E_open_out (or_name o []) false :: b -> Forall early a -> Forall early b -> course W s dec i o r
| K_enc passwd fi fo oc a b : dec = false -> reads W s false i passwd fi -> output_stream W o = Some fo ->
    scryptenc_file (w_M W) (w_cfg W) (w_lb W) (w_heap W) (w_env W) fi fo passwd (params_of s) (s_verbose s) (s_force s) = Ok oc ->
    pr_status r = (if is_ok (oc_rc oc) then 0 else 1)%Z -> put W r o (snd (oc_val oc)) -> pr_heap r = oc_heap oc ->
    pr_events r = a ++ match o with None => [] | Some n => [E_open_out n true] end ++ E_msgs (oc_msgs oc) :: E_run (oc_rc oc) :: b -> Forall early a -> Forall early b ->
    (forall n, o = Some n -> In (E_close_out (w_close_out W)) b) -> course W s dec i o r
| K_dec passwd fi fo oc rc fi2 fo2 h2 h3 a b : dec = true -> reads W s true i passwd fi -> output_stream W o = Some fo ->
    scryptdec_file_prep (w_M W) (w_cfg W) (w_lb W) (w_heap W) (w_env W) fi passwd (params_of s) (s_verbose s) (s_force s) None = Ok oc -> oc_rc oc = SCRYPT_OK ->
    scryptdec_file_copy (w_M W) (oc_heap oc) (w_env W) (fst (oc_val oc)) (snd (oc_val oc)) fo = Ok (rc, fi2, fo2, h2) ->
    scryptdec_file_cookie_free (fst (oc_val oc)) h2 = Ok h3 ->
    pr_status r = (if is_ok rc then 0 else 1)%Z -> put W r o fo2 -> pr_heap r = h3 ->
    pr_events r = a ++ E_prep SCRYPT_OK :: match o with None => [] | Some n => [E_open_out n true] end ++ E_msgs [] :: E_run rc :: b -> Forall early a -> Forall early b ->
    (forall n, o = Some n -> In (E_close_out (w_close_out W)) b) -> course W s dec i o r.
Ltac ear := repeat first [assumption | apply early_close_in | apply early_close_out | apply Forall_nil | (apply Forall_app; split) | (apply Forall_cons; [exact I|])].
Lemma enc_dec_course W s dec i o r :
  scrypt_mode_enc_dec W (params_of s) (fst (method_of s)) (snd (method_of s)) dec (s_verbose s) (s_force s) i o = Ok r -> course W s dec i o r.
Proof.
  unfold scrypt_mode_enc_dec. fold (input_stream W i). destruct (input_stream W i) as [fi0|] eqn:EI.
  2:{ intros H. apply Ok_inj in H. subst r. apply K_nothing; try reflexivity. cbn [fail pr_events]. ear. }
  intros H. apply bind_inv in H. destruct H as (rp & ER & H). fold (ask W s dec) in ER.
  set (oi := match i with None => [] | Some n => [E_open_in n true] end) in H.
  assert (Forall early oi) as HOI by (unfold oi; destruct i; repeat constructor). clearbody oi.
  destruct (ro_pass rp) as [passwd|] eqn:EP.
  2:{ apply Ok_inj in H. subst r. apply K_nothing; try reflexivity. cbn [fail pr_events]. ear. }
  set (fi := match i with None => ro_stdin rp | Some _ => fi0 end) in H.
  assert (reads W s dec i passwd fi) as HR by (econstructor; eauto; reflexivity). clearbody fi.
  destruct dec.
  - apply bind_inv in H. destruct H as (oc & EC & H). destruct (is_ok (oc_rc oc)) eqn:EO; cbn [negb] in H.
    + apply is_ok_spec in EO. apply bind_inv in H. destruct H as (r1 & E1 & H). apply Ok_inj in H. subst r. rewrite EO.
      unfold enc_dec_run in E1. fold (output_stream W o) in E1. destruct (output_stream W o) as [fo|] eqn:EOUT.
      * apply bind_inv in E1. destruct E1 as ([[[rc ms] fo2] h2] & E2 & E1). apply bind_inv in E2. destruct E2 as ([[[rc' fi2] fo2'] h2'] & E2 & E3).
        apply Ok_inj in E3. assert (rc' = rc) as -> by congruence. assert (ms = []) as -> by congruence. assert (fo2' = fo2) as -> by congruence. assert (h2' = h2) as -> by congruence.
        apply bind_inv in E1. destruct E1 as (h3 & EF & E1). rewrite release_pass_ok, bind_Ok in E1. apply bind_inv in E1. destruct E1 as (pe & EPE & E1).
        assert (Forall early pe) as HPE by (destruct (is_ok rc); [apply Ok_inj in EPE; subst pe; constructor|exact (early_error _ _ _ _ EPE)]).
        assert (pr_events (add_events ((oi ++ [E_pass (ro_acts rp) true]) ++ [E_msgs (oc_msgs oc); E_prep SCRYPT_OK]) r1) =
          (oi ++ [E_pass (ro_acts rp) true; E_msgs (oc_msgs oc)]) ++ E_prep SCRYPT_OK :: match o with None => [] | Some n => [E_open_out n true] end ++
          E_msgs [] :: E_run rc :: (E_pass_free (repeat 0 (S (List.length passwd))) :: close_in W i ++ close_out W o ++ pe) /\ pr_status r1 = (if is_ok rc then 0 else 1)%Z /\ pr_heap r1 = h3 /\ put W r1 o fo2) as (A1 & A2 & A3 & A4).
        { destruct o; apply Ok_inj in E1; subst r1; unfold add_events; cbn [pr_events pr_status pr_heap put pr_stdout pr_file]; repeat split;
          rewrite <- ?app_assoc; cbn [app]; rewrite <- ?app_assoc; reflexivity. }
        eapply (K_dec W s true i o _ passwd fi fo oc rc fi2 fo2 h2 h3); try eassumption; try reflexivity.
        -- ear.
        -- ear.
        -- intros n ->. right. apply in_or_app. right. apply in_or_app. left. left. reflexivity.
      * apply bind_inv in E1. destruct E1 as (h & EF & E1). rewrite release_pass_ok, bind_Ok in E1. apply Ok_inj in E1. subst r1.
        eapply (K_no_output_dec W s true i o _ passwd fi oc (oi ++ [E_pass (ro_acts rp) true; E_msgs (oc_msgs oc)])
           (E_warn (str "Cannot open output file: " ++ or_name o []) :: E_pass_free (repeat 0 (S (List.length passwd))) :: close_in W i) h); try eassumption; try reflexivity.
        -- unfold add_events, fail. cbn [pr_events]. rewrite <- ?app_assoc. cbn [app]. rewrite <- ?app_assoc. reflexivity.
        -- ear.
        -- ear.
    + apply is_ok_false in EO. apply bind_inv in H. destruct H as (h & EF & H). rewrite release_pass_ok, bind_Ok in H. apply bind_inv in H. destruct H as (pe & EPE & H). apply Ok_inj in H. subst r.
      pose proof (early_error _ _ _ _ EPE) as HPE.
      eapply (K_prep W s true i o _ passwd fi oc (oi ++ [E_pass (ro_acts rp) true; E_msgs (oc_msgs oc)]) (E_pass_free (repeat 0 (S (List.length passwd))) :: close_in W i ++ pe) h); try eassumption; try reflexivity.
      * unfold fail. cbn [pr_events]. rewrite <- ?app_assoc. cbn [app]. rewrite <- ?app_assoc. reflexivity.
      * ear.
      * ear.
  - apply bind_inv in H. destruct H as (r1 & E1 & H). apply Ok_inj in H. subst r.
    unfold enc_dec_run in E1. fold (output_stream W o) in E1. destruct (output_stream W o) as [fo|] eqn:EOUT.
    + apply bind_inv in E1. destruct E1 as ([[[rc ms] fo2] h2] & E2 & E1). apply bind_inv in E2. destruct E2 as (oc & E2 & E3).
      apply Ok_inj in E3. assert (rc = oc_rc oc) as -> by congruence. assert (ms = oc_msgs oc) as -> by congruence.
      assert (fo2 = snd (oc_val oc)) as -> by congruence. assert (h2 = oc_heap oc) as -> by congruence.
      apply bind_inv in E1. destruct E1 as (h3 & EF & E1). cbn [scryptdec_file_cookie_free] in EF. apply Ok_inj in EF. subst h3. rewrite release_pass_ok, bind_Ok in E1. apply bind_inv in E1. destruct E1 as (pe & EPE & E1).
      assert (Forall early pe) as HPE by (destruct (is_ok (oc_rc oc)); [apply Ok_inj in EPE; subst pe; constructor|exact (early_error _ _ _ _ EPE)]).
      assert (pr_events (add_events (oi ++ [E_pass (ro_acts rp) true]) r1) =
          (oi ++ [E_pass (ro_acts rp) true]) ++ match o with None => [] | Some n => [E_open_out n true] end ++
          E_msgs (oc_msgs oc) :: E_run (oc_rc oc) :: (E_pass_free (repeat 0 (S (List.length passwd))) :: close_in W i ++ close_out W o ++ pe) /\ pr_status r1 = (if is_ok (oc_rc oc) then 0 else 1)%Z /\ pr_heap r1 = oc_heap oc /\ put W r1 o (snd (oc_val oc))) as (A1 & A2 & A3 & A4).
      { destruct o; apply Ok_inj in E1; subst r1; unfold add_events; cbn [pr_events pr_status pr_heap put pr_stdout pr_file]; repeat split;
          rewrite <- ?app_assoc; cbn [app]; rewrite <- ?app_assoc; reflexivity. }
      eapply (K_enc W s false i o _ passwd fi fo oc); try eassumption; try reflexivity.
      * ear.
      * ear.
      * intros n ->. right. apply in_or_app. right. apply in_or_app. left. left. reflexivity.
    + apply bind_inv in E1. destruct E1 as (h & EF & E1). cbn [scryptdec_file_cookie_free] in EF. apply Ok_inj in EF. subst h. rewrite release_pass_ok, bind_Ok in E1. apply Ok_inj in E1. subst r1.
      eapply (K_no_output W s false i o _ passwd fi (oi ++ [E_pass (ro_acts rp) true])
           (E_warn (str "Cannot open output file: " ++ or_name o []) :: E_pass_free (repeat 0 (S (List.length passwd))) :: close_in W i)); try eassumption; try reflexivity.
      all: ear.
Qed.

(** ** C10 *)
(** The header is complete and well-formed, the parameters are acceptable, the
    passphrase is right. *)
Definition verified (M : machine) (passwd f : bytes) : Prop :=
  (96 <= List.length f)%nat /\ firstn 6 f = fmt_magic /\ nth 6 f 0 = 0 /\ checksum_ok f /\ fhead_ok (get_head f) /\ computable M (get_head f) /\ passphrase_ok passwd f.
Lemma prep_verified M cfg lb hp e fi passwd P verbose force C0 oc : dec_ready M hp passwd -> instream_ok fi ->
  scryptdec_file_prep M cfg lb hp e fi passwd P verbose force C0 = Ok oc -> oc_rc oc = SCRYPT_OK -> verified M passwd (stream_data fi).
Proof.
  intros [Hs HPW HH] [D1 D2] E EO. apply prep_inv in E; auto. destruct E as (_ & _ & HR). rewrite EO in HR.
  assert (exists fi' ms lb' dk, header_result fi SCRYPT_OK (firstn 96 (stream_data fi)) fi' /\
    dec_setup_result M cfg lb e (x_lim P) passwd (stream_data fi) verbose force lb' ms dk SCRYPT_OK) as (fi' & ms & lb' & dk & A & B).
  { inversion HR; subst; try congruence. do 4 eexists. split; eassumption. }
  destruct (header_result_ok_inv fi _ fi' A) as (_ & HL & S1 & S2 & _). pose proof (stream_data_ok fi D1) as HO.
  apply dec_setup_class in B; auto. destruct B as [D|[(D & _)|[(D & _)|[(D & _)|(_ & F1 & F2 & F3 & F4)]]]]; try discriminate D; [cbn in D; intuition discriminate|].
  unfold verified. auto 10.
Qed.
Lemma rejected_untouched W r : rejected W (Ok r) -> untouched W r.
Proof.
  intros (evs & E & _ & HM). apply Ok_inj in E. subst r. split; [reflexivity|]. split; [reflexivity|]. cbn [pr_events]. intros n ok HI.
  rewrite Forall_forall in HM. exact (HM _ HI).
Qed.
Lemma mode_cases W prog m rest r : Forall cstring rest -> main W (prog :: mode_word m :: rest) = Ok r ->
  rejected W (Ok r) \/ exists s i o, requested W m rest s i o /\ operation W m s i o = Ok r.
Proof.
  intros HC E. destruct (C39_validation W prog m rest HC) as (evs & args & HP & HV). cbv zeta in HV. rewrite E in HV.
  destruct HV as [(s & i & o & H1 & H2 & H3 & H4)|[_ H]]; [|left; exact H]. right. exists s, i, o. split; [|symmetry; exact H4].
  exists evs, args. auto.
Qed.
Lemma sane_ready W s dec i passwd fi : sane W -> reads W s dec i passwd fi -> dec_ready (w_M W) (w_heap W) passwd /\ instream_ok fi.
Proof.
  intros HW HR. destruct (reads_sane W s dec i passwd fi HW HR) as [H1 H2]. split; [|apply finite_instream, H2].
  split; [exact (sn_size W HW)|exact H1|exact (sn_heap W HW)].
Qed.
Lemma app_untouched W r a rc b : pr_stdout r = w_stdout W -> pr_file r = None -> pr_events r = a ++ E_prep rc :: b -> Forall early a -> Forall early b -> untouched W r.
Proof.
  intros H1 H2 H3 H4 H5. split; [exact H1|]. split; [exact H2|]. intros n ok HI. rewrite H3 in HI. apply in_app_or in HI.
  destruct HI as [HI|[HI|HI]]; [exact (early_open _ H4 _ _ HI)|discriminate HI|exact (early_open _ H5 _ _ HI)].
Qed.
(** In decrypt mode, whatever the world is like: either the output was neither
    opened nor written to, or the header of the input was verified before. *)
Theorem C10_output_after_verification : forall W prog rest r, sane W -> Forall cstring rest ->
  main W (prog :: str "dec" :: rest) = Ok r ->
  untouched W r \/
  exists s i o passwd fi a b, requested W Dec rest s i o /\ reads W s true i passwd fi /\ verified (w_M W) passwd (stream_data fi) /\
    pr_events r = a ++ E_prep SCRYPT_OK :: b /\ forall n ok, ~ In (E_open_out n ok) a.
Proof.
  intros W prog rest r HW HC E. destruct (mode_cases W prog Dec rest r HC E) as [HR|(s & i & o & HQ & HO)].
  { left. apply rejected_untouched, HR. }
  cbn [operation] in HO. apply enc_dec_course in HO.
  destruct HO as [A1 A2 A3 A4 A5|passwd fi oc a b h A1 A2 A3 A4 A5 A6 A7 A8 A9 A10 A11 A12|passwd fi a b A1|passwd fi oc a b h A1 A2 A3 A4 A5 A6 A7 A8 A9 A10 A11 A12 A13
    |passwd fi fo oc a b A1|passwd fi fo oc rc fi2 fo2 h2 h3 a b A1 A2 A3 A4 A5 A6 A7 A8 A9 A10 A11 A12 A13 A14]; try discriminate A1.
  - left. split; [exact A2|]. split; [exact A3|]. apply early_open, A5.
  - left. eapply app_untouched; eassumption.
  - right. destruct (sane_ready W s true i passwd fi HW A2) as [R1 R2].
    exists s, i, o, passwd, fi, a. eexists. split; [exact HQ|]. split; [exact A2|]. split; [exact (prep_verified _ _ _ _ _ _ _ _ _ _ _ _ R1 R2 A4 A5)|].
    split; [exact A11|]. apply early_open, A12.
  - right. destruct (sane_ready W s true i passwd fi HW A2) as [R1 R2].
    exists s, i, o, passwd, fi, a. eexists. split; [exact HQ|]. split; [exact A2|]. split; [exact (prep_verified _ _ _ _ _ _ _ _ _ _ _ _ R1 R2 A4 A5)|].
    split; [exact A11|]. apply early_open, A12.
Qed.
(** So: a wrong passphrase, or anything wrong with the header, leaves the output alone. *)
Theorem C10_bad_header_untouched : forall W prog rest r s i o passwd fi, sane W -> Forall cstring rest ->
  requested W Dec rest s i o -> reads W s true i passwd fi -> ~ verified (w_M W) passwd (stream_data fi) ->
  main W (prog :: str "dec" :: rest) = Ok r -> untouched W r /\ pr_status r = 1%Z.
Proof.
  intros W prog rest r s i o passwd fi HW HC HQ HR HN E. pose proof E as E1. change (str "dec") with (mode_word Dec) in E1. rewrite (C39_operation W prog Dec rest s i o HC HQ) in E1.
  cbn [operation] in E1. apply enc_dec_course in E1.
  destruct E1 as [A1 A2 A3 A4 A5|passwd' fi' oc a b h A1 A2 A3 A4 A5 A6 A7 A8 A9 A10 A11 A12|passwd' fi' a b A1|passwd' fi' oc a b h A1 A2 A3 A4 A5 A6 A7 A8 A9 A10 A11 A12 A13
    |passwd' fi' fo oc a b A1|passwd' fi' fo oc rc fi2 fo2 h2 h3 a b A1 A2 A3 A4 A5 A6 A7 A8 A9 A10 A11 A12 A13 A14]; try discriminate A1.
  - split; [|exact A1]. split; [exact A2|]. split; [exact A3|]. apply early_open, A5.
  - split; [|exact A6]. eapply app_untouched; eassumption.
  - exfalso. apply HN. destruct (reads_unique _ _ _ _ _ _ _ _ HR A2) as [<- <-]. destruct (sane_ready W s true i passwd fi HW A2) as [R1 R2]. exact (prep_verified _ _ _ _ _ _ _ _ _ _ _ _ R1 R2 A4 A5).
  - exfalso. apply HN. destruct (reads_unique _ _ _ _ _ _ _ _ HR A2) as [<- <-]. destruct (sane_ready W s true i passwd fi HW A2) as [R1 R2]. exact (prep_verified _ _ _ _ _ _ _ _ _ _ _ _ R1 R2 A4 A5).
Qed.

(** ** C11 *)
(** The operation was completed: the output is complete (as far as fwrite tells). *)
Inductive completed (W : world) (rest : list bytes) (r : presult) : mode -> Prop :=
| C_enc s i o passwd fi fo fo' h : requested W Enc rest s i o -> reads W s false i passwd fi -> output_stream W o = Some fo ->
    stream_fails fi = false -> fhead_ok h -> computable (w_M W) h ->
    (s_logN s <> 0%Z -> Z.of_N (fh_logN h) = s_logN s /\ fh_r h = s_r s /\ fh_p h = s_p s) ->
    put W r o fo' -> o_data fo' = o_data fo ++ fmt_file scrypt_wrapping passwd h (stream_data fi) ->
    completed W rest r Enc
| C_dec s i o passwd fi fo fo' h data : requested W Dec rest s i o -> reads W s true i passwd fi -> output_stream W o = Some fo ->
    stream_fails fi = false -> fhead_ok h -> stream_data fi = fmt_file scrypt_wrapping passwd h data ->
    put W r o fo' -> o_data fo' = o_data fo ++ data -> completed W rest r Dec
| C_info s i o fi ms fi' : requested W Info rest s i o -> input_stream W i = Some fi ->
    scryptdec_file_printparams (w_al1 W) (w_al2 W) fi = Ok (SCRYPT_OK, ms, fi') -> In (E_msgs ms) (pr_events r) -> untouched W r -> completed W rest r Info.
Lemma requested_xp W m rest s i o : requested W m rest s i o -> xp_ok (params_of s).
Proof.
  intros H. apply C39_ranges in H. destruct H as (H & _). unfold xp_ok, params_of. cbn [x_r x_p]. change (2 ^ 32) with 4294967296. lia.
Qed.
Theorem C11_status : forall W prog m rest r, sane W -> Forall cstring rest -> main W (prog :: mode_word m :: rest) = Ok r ->
  (pr_status r = 0%Z \/ pr_status r = 1%Z) /\ (pr_status r = 0%Z -> completed W rest r m).
Proof.
  intros W prog m rest r HW HC E. destruct (mode_cases W prog m rest r HC E) as [(evs & HR & _)|(s & i & o & HQ & HO)].
  { apply Ok_inj in HR. subst r. cbn [pr_status]. split; [right; reflexivity|discriminate]. }
  destruct m; cbn [operation] in HO.
  - apply enc_dec_course in HO.
    destruct HO as [A1 A2 A3 A4 A5|passwd fi oc a b h A1|passwd fi a b A1 A2 A3 A4 A5 A6 A7 A8 A9|passwd fi oc a b h A1
    |passwd fi fo oc a b A1 A2 A3 A4 A5 A6 A7 A8 A9 A10 A11|passwd fi fo oc rc fi2 fo2 h2 h3 a b A1]; try discriminate A1.
    + rewrite A1. split; [right; reflexivity|discriminate].
    + rewrite A4. split; [right; reflexivity|discriminate].
    + rewrite A5. destruct (is_ok (oc_rc oc)) eqn:EO; [|split; [right; reflexivity|discriminate]]. split; [left; reflexivity|]. intros _. apply is_ok_spec in EO.
      destruct (sane_ready W s false i passwd fi HW A2) as [[R1 R2 R3] [R4 R5]].
      apply scryptenc_file_inv in A4; auto; [|exact (requested_xp W Enc rest s i o HQ)|exact (sn_ent W HW)|exact (sn_drbg W HW)].
      destruct A4 as (_ & _ & _ & _ & HX & HE). rewrite EO in HE.
      assert (exists h, fhead_ok h /\ stream_fails fi = false /\ o_data (snd (oc_val oc)) = o_data fo ++ fmt_file kdf passwd h (stream_data fi) /\
        computable (w_M W) h /\ oc_P oc = P_of (x_lim (params_of s)) h) as (h & B1 & B2 & B3 & B4 & B5).
      { clear HX. revert HE. generalize (oc_P oc) (fst (oc_val oc)) (snd (oc_val oc)) (oc_heap oc). intros P' x1 x2 x3 HE.
        inversion HE as [|h rc' y1 y2 y3 B1 B2 B3 B4]; subst; [congruence|]. inversion B4 as [|rc3 z1 z2 K1 K2| | | |z1 z2 z3 K1 K2 K3 K4 K5 K6 K7 K8]; subst.
        - unfold aes_rc in K1. destruct (v_key_mem (w_env W)); discriminate.
        - exists h. auto. }
      refine (C_enc W rest r s i o passwd fi fo _ h HQ A2 A3 B2 B1 B4 _ A6 B3).
      intros HL. specialize (HX HL). rewrite B5 in HX. unfold P_of, params_of in HX. injection HX as H1 H2 H3. auto.
  - apply enc_dec_course in HO.
    destruct HO as [A1 A2 A3 A4 A5|passwd fi oc a b h A1 A2 A3 A4 A5 A6 A7 A8 A9 A10 A11 A12|passwd fi a b A1|passwd fi oc a b h A1 A2 A3 A4 A5 A6 A7 A8 A9 A10 A11 A12 A13
    |passwd fi fo oc a b A1|passwd fi fo oc rc fi2 fo2 h2 h3 a b A1 A2 A3 A4 A5 A6 A7 A8 A9 A10 A11 A12 A13 A14]; try discriminate A1.
    + rewrite A1. split; [right; reflexivity|discriminate].
    + rewrite A6. split; [right; reflexivity|discriminate].
    + rewrite A7. split; [right; reflexivity|discriminate].
    + rewrite A8. destruct (is_ok rc) eqn:EO; [|split; [right; reflexivity|discriminate]]. split; [left; reflexivity|]. intros _. apply is_ok_spec in EO. subst rc.
      destruct (sane_ready W s true i passwd fi HW A2) as [R [R4 R5]]. pose proof R as [R1 R2 R3].
      pose proof (prep_verified _ _ _ _ _ _ _ _ _ _ _ _ R (conj R4 R5) A4 A5) as (V1 & V2 & V3 & V4 & V5 & V6 & V7).
      destruct (C50_one_call _ _ _ _ _ _ fo _ _ _ _ oc (fst (oc_val oc)) (snd (oc_val oc)) SCRYPT_OK fi2 fo2 h2 h3 A4 A5 (surjective_pairing _) A6 A7) as (oo & EOO & B1 & B2 & _).
      apply scryptdec_file_inv in EOO; auto. destruct EOO as (_ & _ & _ & HE). rewrite B1, B2 in HE. cbn [fst snd] in HE.
      assert (stream_fails fi = false /\ (128 <= List.length (stream_data fi))%nat /\ trailer_ok passwd (stream_data fi) /\
        o_data fo2 = o_data fo ++ aes_ctr (key_enc kdf passwd (get_head (stream_data fi))) 0 0 (sub (stream_data fi) 96 (List.length (stream_data fi) - 128))) as (K1 & K2 & K3 & K4).
      { revert HE. generalize (oc_msgs oo) (oc_P oo) (oc_heap oo). intros x1 x2 x3 HE. inversion HE; subst; try congruence.
        - match goal with H : _ = aes_rc _ |- _ => unfold aes_rc in H; destruct (v_key_mem (w_env W)); discriminate end.
        - match goal with H : _ \/ _ |- _ => destruct H as [[_ H]|[H _]]; [|discriminate H] end. auto. }
      eapply (C_dec W rest r s i o passwd fi fo fo2 (get_head (stream_data fi))); try eassumption.
      apply well_formed; auto using stream_data_ok.
  - unfold scrypt_mode_info in HO. fold (input_stream W i) in HO. destruct (input_stream W i) as [fi|] eqn:EI.
    2:{ apply Ok_inj in HO. subst r. cbn [fail pr_status]. split; [right; reflexivity|discriminate]. }
    apply bind_inv in HO. destruct HO as ([[rc ms] fi'] & EP & HO). destruct (is_ok rc) eqn:EO; cbn [negb] in HO.
    + apply is_ok_spec in EO. subst rc. apply Ok_inj in HO. subst r. cbn [pr_status]. split; [left; reflexivity|]. intros _.
      eapply (C_info W rest _ s i o fi ms fi'); try eassumption.
      * cbn [pr_events]. apply in_or_app. right. left. reflexivity.
      * split; [reflexivity|]. split; [reflexivity|]. cbn [pr_events]. intros n ok HI. apply in_app_or in HI. destruct HI as [HI|HI].
        { destruct i; cbn in HI; [destruct HI as [HI|[]]; discriminate HI|destruct HI]. }
        destruct HI as [HI|[HI|HI]]; try discriminate HI. exact (early_open _ (early_close_in W i) _ _ HI).
    + apply bind_inv in HO. destruct HO as (pe & _ & HO). apply Ok_inj in HO. subst r. cbn [fail pr_status]. split; [right; reflexivity|discriminate].
Qed.
(** A run that does not succeed says so: the last thing it does is a complaint,
    or closing files after one. *)
Definition complains (e : pevent) : Prop := match e with E_warn _ | E_usage | E_error _ _ _ => True | _ => False end.
Theorem C11_diagnosed : forall W prog m rest r, Forall cstring rest -> main W (prog :: mode_word m :: rest) = Ok r ->
  pr_status r <> 0%Z -> Exists complains (pr_events r).
Proof.
  intros W prog m rest r HC E HN. destruct (mode_cases W prog m rest r HC E) as [(evs & HR & HE & HM)|(s & i & o & HQ & HO)].
  { apply Ok_inj in HR. subst r. cbn [pr_events]. destruct HM as [|e evs HM _]; [congruence|]. constructor. destruct e; try destruct HM; exact I. }
  assert (forall rc a b pe, print_error rc a b = Ok pe -> Exists complains pe) as HP.
  { intros rc a b pe H. apply bind_inv in H. destruct H as (x & _ & H). apply Ok_inj in H. subst pe. constructor. exact I. }
  assert (forall dec, scrypt_mode_enc_dec W (params_of s) (fst (method_of s)) (snd (method_of s)) dec (s_verbose s) (s_force s) i o = Ok r -> Exists complains (pr_events r)) as HED.
  { intros dec H. unfold scrypt_mode_enc_dec in H. fold (input_stream W i) in H. destruct (input_stream W i) as [fi|].
    2:{ apply Ok_inj in H. subst r. cbn [fail pr_events]. apply Exists_cons_tl. constructor. exact I. }
    apply bind_inv in H. destruct H as (rp & _ & H). destruct (ro_pass rp) as [pw|].
    2:{ apply Ok_inj in H. subst r. cbn [fail pr_events]. apply Exists_app. right. apply Exists_app. left. apply Exists_cons_tl. constructor. exact I. }
    assert (forall dec' fi' lb' h' C r', enc_dec_run W dec' (params_of s) lb' h' C pw fi' (s_verbose s) (s_force s) i o = Ok r' -> pr_status r' <> 0%Z -> Exists complains (pr_events r')) as HRUN.
    { clear H HN. intros dec' fi' lb' h' C r' H HN. unfold enc_dec_run in H. fold (output_stream W o) in H. destruct (output_stream W o) as [fo|].
      - apply bind_inv in H. destruct H as ([[[rc ms] fo2] h2] & _ & H). apply bind_inv in H. destruct H as (h3 & _ & H). rewrite release_pass_ok, bind_Ok in H. apply bind_inv in H. destruct H as (pe & EPE & H).
        destruct (is_ok rc). { exfalso. apply HN. destruct o; apply Ok_inj in H; subst r'; reflexivity. }
        assert (pr_events r' = (match o with None => [] | Some n => [E_open_out n true] end ++ [E_msgs ms; E_run rc] ++ E_pass_free (repeat 0 (S (List.length pw))) :: close_in W i ++ close_out W o) ++ pe) as ->.
        { destruct o; apply Ok_inj in H; subst r'; cbn [pr_events]; repeat (rewrite <- app_assoc; cbn [app]); reflexivity. }
        apply Exists_app. right. exact (HP _ _ _ _ EPE).
      - apply bind_inv in H. destruct H as (h & _ & H). rewrite release_pass_ok, bind_Ok in H. apply Ok_inj in H. subst r'. cbn [fail pr_events app]. apply Exists_cons_tl. constructor. exact I. }
    destruct dec.
    - apply bind_inv in H. destruct H as (oc & _ & H). destruct (negb (is_ok (oc_rc oc))).
      + apply bind_inv in H. destruct H as (h & _ & H). rewrite release_pass_ok, bind_Ok in H. apply bind_inv in H. destruct H as (pe & EPE & H). apply Ok_inj in H. subst r. cbn [fail pr_events].
        apply Exists_app. right. apply Exists_cons_tl. apply Exists_app. right. exact (HP _ _ _ _ EPE).
      + apply bind_inv in H. destruct H as (r1 & H1 & H). apply Ok_inj in H. subst r. unfold add_events in *. cbn [pr_events pr_status] in *. apply Exists_app. right. exact (HRUN _ _ _ _ _ _ H1 HN).
    - apply bind_inv in H. destruct H as (r1 & H1 & H). apply Ok_inj in H. subst r. unfold add_events in *. cbn [pr_events pr_status] in *. apply Exists_app. right. exact (HRUN _ _ _ _ _ _ H1 HN). }
  destruct m; cbn [operation] in HO; [exact (HED _ HO)|exact (HED _ HO)|].
  unfold scrypt_mode_info in HO. fold (input_stream W i) in HO. destruct (input_stream W i) as [fi|].
  2:{ apply Ok_inj in HO. subst r. cbn [fail pr_events]. apply Exists_cons_tl. constructor. exact I. }
  apply bind_inv in HO. destruct HO as ([[rc ms] fi'] & EP & HO). destruct (is_ok rc) eqn:EO; cbn [negb] in HO.
  + apply Ok_inj in HO. subst r. cbn [pr_status] in HN. congruence.
  + apply bind_inv in HO. destruct HO as (pe & EPE & HO). apply Ok_inj in HO. subst r. cbn [fail pr_events]. apply Exists_app. right. apply Exists_app. right.
    apply Exists_app. left. exact (HP _ _ _ _ EPE).
Qed.

(** ** C51: the program decrypts what it encrypted *)
(** A valid file, the right passphrase, an output that accepts everything, no
    limits (-f), no explicit parameters, enough memory: success. *)
Theorem C51_decrypts : forall W prog rest s i o passwd fi fo h data, sane W -> Forall cstring rest ->
  requested W Dec rest s i o -> s_force s = true -> s_logN s = 0%Z -> reads W s true i passwd fi -> delivered (fmt_file scrypt_wrapping passwd h data) fi ->
  fhead_ok h -> computable (w_M W) h -> no_failure (w_env W) -> output_stream W o = Some fo -> out_good fo -> o_err fo = false ->
  exists r fo', main W (prog :: str "dec" :: rest) = Ok r /\ pr_status r = 0%Z /\ put W r o fo' /\ o_data fo' = o_data fo ++ data /\
    heap_clean (w_heap W) (pr_heap r) /\ forall n, o = Some n -> In (E_close_out (w_close_out W)) (pr_events r).
Proof.
  intros W prog rest s i o passwd fi fo h data HW HC HQ HF HL0 HR HD Hh Hc HN HO HG HE.
  change (str "dec") with (mode_word Dec). rewrite (C39_operation W prog Dec rest s i o HC HQ). cbn [operation].
  destruct (sane_ready W s true i passwd fi HW HR) as [R1 R2].
  assert (stream_data fi = fmt_file kdf passwd h data /\ data_ok (fmt_file kdf passwd h data)) as [ED DO].
  { destruct (delivered_data _ _ HD) as [E1 E2]. split; [exact E1|]. split.
    - rewrite <- E1. apply stream_data_ok, R2.
    - destruct R2 as [_ R2]. rewrite <- E1. rewrite (no_fail_same fi E2) in R2. exact R2. }
  assert (all_zero (params_of s) = true) as HZ.
  { pose proof (C39_ranges _ _ _ _ _ _ HQ) as (HX & _). unfold all_zero, params_of. cbn [x_logN x_r x_p].
    destruct HX as [(H1 & H2 & H3)|((H1 & _) & _)]; [rewrite H1, H2, H3; reflexivity|rewrite HL0 in H1; lia]. }
  destruct (C05_stream_accepts_iff (w_M W) (w_cfg W) (w_lb W) (w_heap W) (w_env W) _ fi fo passwd (params_of s) (s_verbose s) R1 DO HD HG HE HZ HN) as (oo & EOO & HI & HV).
  assert (oc_rc oo = SCRYPT_OK) as EO by (apply HI; exists h, data; auto). destruct (HV h data eq_refl Hh Hc) as [HV1 _].
  assert (heap_clean (w_heap W) (oc_heap oo)) as HCL by (destruct (C43_stream_decrypt _ _ _ _ _ _ _ _ _ _ _ _ R1 R2 EOO) as [HCL _]; apply HCL; rewrite EO; discriminate).
  clear HI HV. unfold scryptdec_file in EOO. apply bind_inv in EOO. destruct EOO as (u & _ & EOO). apply bind_inv in EOO. destruct EOO as (oc & EC & EOO).
  destruct (oc_val oc) as [C fi1] eqn:EV. destruct (is_ok (oc_rc oc)) eqn:EOC; cbn [negb] in EOO.
  2:{ exfalso. apply Ok_inj in EOO. subst oo. cbn [oc_rc] in EO. rewrite EO in EOC. discriminate EOC. }
  apply bind_inv in EOO. destruct EOO as ([[[rc fi2] fo2] h2] & ECP & EOO). apply bind_inv in EOO. destruct EOO as (h3 & EF & EOO). apply Ok_inj in EOO. subst oo.
  cbn [oc_rc oc_val oc_heap snd] in EO, HV1, HCL. subst rc.
  unfold scrypt_mode_enc_dec. destruct HR as [fi0 rp I1 I2 I3 ->]. fold (input_stream W i). rewrite I1.
  fold (ask W s true). rewrite I2, bind_Ok, I3. rewrite HF, EC, bind_Ok, EOC. cbn [negb]. unfold enc_dec_run. fold (output_stream W o). rewrite HO, EV. cbn [fst snd].
  rewrite ECP, !bind_Ok, EF, bind_Ok, release_pass_ok, bind_Ok. cbn [is_ok rcode_eqb]. rewrite bind_Ok.
  destruct o as [n|]; rewrite bind_Ok; eexists; exists fo2; (split; [reflexivity|]); unfold add_events; cbn [pr_status pr_heap pr_events put pr_stdout pr_file]; repeat (split; [solve [reflexivity|auto]|]).
  - intros n' _. repeat (rewrite in_app_iff; cbn [close_out In]). tauto.
  - intros n' H. discriminate H.
Qed.
(** Encrypt with one run of the program, in whatever circumstances; if it
    succeeds, decrypting the result elsewhere with the same passphrase gives the
    input back. *)
Theorem C51_round_trip : forall W1 prog1 rest1 r1 W2 prog2 rest2 s2 i2 o2 passwd fi2 fo2 file,
  sane W1 -> Forall cstring rest1 -> main W1 (prog1 :: str "enc" :: rest1) = Ok r1 -> pr_status r1 = 0%Z ->
  (forall s i o p fi fo, requested W1 Enc rest1 s i o -> reads W1 s false i p fi -> output_stream W1 o = Some fo -> p = passwd /\ o_data fo = []) ->
  (match pr_file r1 with None => file = o_data (pr_stdout r1) | Some (_, fo) => file = o_data fo end) ->
  sane W2 -> Forall cstring rest2 -> requested W2 Dec rest2 s2 i2 o2 -> s_force s2 = true -> s_logN s2 = 0%Z -> reads W2 s2 true i2 passwd fi2 ->
  delivered file fi2 -> (forall h, computable (w_M W1) h -> computable (w_M W2) h) -> no_failure (w_env W2) -> output_stream W2 o2 = Some fo2 -> out_good fo2 -> o_err fo2 = false ->
  exists s1 i1 fi1 o1 r2 fo2', requested W1 Enc rest1 s1 i1 o1 /\ reads W1 s1 false i1 passwd fi1 /\
    main W2 (prog2 :: str "dec" :: rest2) = Ok r2 /\ pr_status r2 = 0%Z /\ put W2 r2 o2 fo2' /\ o_data fo2' = o_data fo2 ++ stream_data fi1.
Proof.
  intros W1 prog1 rest1 r1 W2 prog2 rest2 s2 i2 o2 passwd fi2 fo2 file S1 C1 E1 Z1 HU HFILE S2 C2 Q2 F2 L2 RD2 D2 HCO N2 O2 G2 ER2.
  destruct (mode_cases W1 prog1 Enc rest1 r1 C1 E1) as [(evs & HR & _)|(s & i & o & HQ & HOP)].
  { apply Ok_inj in HR. subst r1. discriminate Z1. }
  cbn [operation] in HOP. apply enc_dec_course in HOP.
  destruct HOP as [A1 A2 A3 A4 A5|passwd1 fi oc a b h A1|passwd1 fi a b A1 A2 A3 A4 A5 A6 A7 A8 A9|passwd1 fi oc a b h A1
    |passwd1 fi fo oc a b A1 A2 A3 A4 A5 A6 A7 A8 A9 A10 A11|passwd1 fi fo oc rc fi3 fo3 h2 h3 a b A1]; try discriminate A1; try congruence.
  destruct (HU s i o passwd1 fi fo HQ A2 A3) as [-> HEMPTY].
  rewrite Z1 in A5. destruct (is_ok (oc_rc oc)) eqn:EO; [|discriminate A5]. apply is_ok_spec in EO.
  destruct (sane_ready W1 s false i passwd fi S1 A2) as [[R1 R2 R3] [R4 R5]].
  apply scryptenc_file_inv in A4; auto; [|exact (requested_xp W1 Enc rest1 s i o HQ)|exact (sn_ent W1 S1)|exact (sn_drbg W1 S1)].
  destruct A4 as (_ & _ & _ & _ & _ & HE). rewrite EO in HE.
  assert (exists h, fhead_ok h /\ computable (w_M W1) h /\ o_data (snd (oc_val oc)) = o_data fo ++ fmt_file kdf passwd h (stream_data fi)) as (h & B1 & B2 & B3).
  { revert HE. generalize (oc_P oc) (fst (oc_val oc)) (snd (oc_val oc)) (oc_heap oc). intros P' x1 x2 x3 HE.
    inversion HE as [|h rc' y1 y2 y3 B1 B2 B3 B4]; subst; [congruence|]. inversion B4 as [|rc3 z1 z2 K1 K2| | | |z1 z2 z3 K1 K2 K3 K4 K5 K6 K7 K8]; subst.
    - unfold aes_rc in K1. destruct (v_key_mem (w_env W1)); discriminate.
    - exists h. auto. }
  rewrite HEMPTY in B3. cbn [app] in B3.
  assert (file = fmt_file kdf passwd h (stream_data fi)) as ->.
  { rewrite <- B3. unfold put in A6. destruct o as [n|]; destruct A6 as [P1 P2]; rewrite P2 in HFILE; subst file; [reflexivity|rewrite P1; reflexivity]. }
  destruct (C51_decrypts W2 prog2 rest2 s2 i2 o2 passwd fi2 fo2 h (stream_data fi) S2 C2 Q2 F2 L2 RD2 D2 B1 (HCO h B2) N2 O2 G2 ER2) as (r2 & fo2' & M1 & M2 & M3 & M4 & _).
  exists s, i, fi, o, r2, fo2'. auto 10.
Qed.

(** ** A concrete world *)
Definition ex_file : bytes := fmt_file scrypt_wrapping ex_passwd ex_h ex_data.
Definition ex_pp : pp_env := mk_ppe (mk_rpe None false false true true true true) (fun n => if list_eqb n (str "PW") then Some ex_passwd else None) (fun _ => None) true.
Definition ex_world (close_ok : bool) : world :=
  mk_world ex_machine ex_cfg ex_lib ex_heap ex_call ex_pp (mk_in [] false) (mk_out [] [] false)
    (fun n => if list_eqb n (str "a") then Some (mk_in [(ex_file, false)] false) else None) (fun _ => Some (mk_out [] [] false)) true close_ok
    (fun _ => (d0, 0%nat, None)) 0 true true.
Definition ex_args : list bytes := [str "-f"; str "--passphrase"; str "env:PW"; str "a"; str "b"].
Definition ex_settings : settings := mk_set true false (Some (PASSPHRASE_ENV, str "PW")) 0 d0_5 (of_N 300) 0 0 0.
Lemma ex_args_ok : Forall cstring ex_args.
Proof. unfold ex_args. repeat (apply Forall_cons; [unfold cstring; cbn; intuition discriminate|]). apply Forall_nil. Qed.
Lemma ex_file_data : data_ok ex_file.
Proof.
  split; [apply fmt_file_ok; [exact ex_h_ok|repeat constructor]|]. unfold ex_file. rewrite fmt_file_length by reflexivity. reflexivity.
Qed.
Lemma ex_file_nonempty : ex_file <> [].
Proof. intros E. apply (f_equal (@List.length N)) in E. unfold ex_file in E. rewrite fmt_file_length in E by reflexivity. discriminate E. Qed.
Lemma ex_sane b : sane (ex_world b).
Proof.
  pose proof (ex_enc_ready ex_P ltac:(split; reflexivity)) as [[A1 A2 A3] B C D].
  assert (finite_stream (mk_in [] false)) as HE by (split; [constructor|reflexivity]).
  split; try assumption.
  - intros n s. cbn [w_open_in ex_world]. destruct (list_eqb n (str "a")); [|discriminate]. intros H. assert (s = mk_in [(ex_file, false)] false) as -> by congruence.
    unfold finite_stream, all_data. cbn [i_pieces map fst concat]. rewrite app_nil_r. exact ex_file_data.
  - discriminate.
  - discriminate.
  - intros n v. cbn [ex_world w_pp ex_pp pe_getenv]. destruct (list_eqb n (str "PW")); [|discriminate]. intros H. assert (v = ex_passwd) as -> by congruence. repeat constructor.
Qed.
Lemma ex_parse a b : parse scrypt_options a [] b -> parse scrypt_options (str "-f" :: str "--passphrase" :: str "env:PW" :: a)
  [Flag (str "-f"); Arg (str "--passphrase") (str "env:PW")] b.
Proof.
  intros H. apply (parse_cluster scrypt_options 102 []); [discriminate|]. apply (cluster_flag scrypt_options 102 []). { left. reflexivity. }
  apply cluster_end. apply parse_arg; [do 2 eexists; reflexivity|cbn; intuition discriminate| |exact H]. cbn. tauto.
Qed.
Lemma ex_requested b : requested (ex_world b) Dec ex_args ex_settings (Some (str "a")) (Some (str "b")).
Proof.
  exists [Flag (str "-f"); Arg (str "--passphrase") (str "env:PW")], [str "a"; str "b"]. split; [|split; [|split]].
  - apply ex_parse. apply (parse_other scrypt_options 97). discriminate.
  - eapply effs_cons; [apply eff_f|]. eapply effs_cons; [apply (eff_pass _ _ true false 0 d0_5 (of_N 300) 0 0 0 (str "env:PW") PASSPHRASE_ENV (str "PW")); exact (ms_env (str "PW"))|]. apply effs_nil.
  - constructor. discriminate.
  - unfold acceptable, ex_settings. cbn [s_logN s_r s_p s_maxmemfrac s_method]. split; [left; auto|]. split; [reflexivity|]. intros [H _]. discriminate H.
Qed.
Lemma ex_reads b : reads (ex_world b) ex_settings true (Some (str "a")) ex_passwd (mk_in [(ex_file, false)] false).
Proof. eapply (reads_intro _ _ _ _ _ _ (mk_in [(ex_file, false)] false)); reflexivity. Qed.
Lemma ex_delivered : delivered ex_file (mk_in [(ex_file, false)] false).
Proof.
  split; [reflexivity|]. split; [|cbn [i_pieces map fst concat]; apply app_nil_r]. constructor; [|constructor]. split; [exact ex_file_nonempty|reflexivity].
Qed.
(** All hypotheses of C51_decrypts (and so of C10 and C11) are met by this world. *)
Example C51_hyps b : exists r fo', main (ex_world b) (str "scrypt" :: str "dec" :: ex_args) = Ok r /\ pr_status r = 0%Z /\
  pr_file r = Some (str "b", fo') /\ o_data fo' = ex_data /\ In (E_close_out b) (pr_events r).
Proof.
  destruct (C51_decrypts (ex_world b) (str "scrypt") ex_args ex_settings (Some (str "a")) (Some (str "b")) ex_passwd _ (mk_out [] [] false) ex_h ex_data
    (ex_sane b) ex_args_ok (ex_requested b) eq_refl eq_refl (ex_reads b) ex_delivered ex_h_ok ex_h_computable ex_no_failure eq_refl ltac:(constructor) eq_refl)
    as (r & fo' & E1 & E2 & [_ E3] & E4 & _ & E5).
  exists r, fo'. split; [exact E1|]. split; [exact E2|]. split; [exact E3|]. split; [exact E4|]. exact (E5 _ eq_refl).
Qed.
(** Status 0 does not mean that the output arrived: when closing (flushing) the
    output file fails, only a warning is printed. *)
Theorem C11_close_refuted : exists W argv r, sane W /\ main W argv = Ok r /\ pr_status r = 0%Z /\ In (E_close_out false) (pr_events r).
Proof.
  destruct (C51_hyps false) as (r & fo' & E1 & E2 & _ & _ & E5). exists (ex_world false). eexists. exists r. split; [apply ex_sane|]. split; [exact E1|]. auto.
Qed.
Definition Prop_main_all := (C10_output_after_verification, C10_bad_header_untouched, C11_status, C11_diagnosed, C11_close_refuted, C51_decrypts, C51_round_trip).
Print Assumptions Prop_main_all.
