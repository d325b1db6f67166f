(** C64: "scrypt info" as a program run. *)
From Coq Require Import String.
From Verif Require Import Base SpecAscii SpecText SpecBytes SpecSHA SpecScrypt SpecScryptAPI SpecAES SpecFormat SpecStream P_scrypt M_machine M_double M_smix M_stdio P_stdio M_memlimit M_cpuperf
  M_strto M_humansize P_humansize M_params Prop_params M_scryptenc SpecScryptenc M_getopt M_readpass M_print_error M_main M_memzero P_memzero SpecPass SpecGetopt SpecCLI P_scrypt_ref P_scryptenc P_scryptenc2 P_scryptenc3 P_scryptenc4
  P_scryptenc7 P_scryptenc8 P_scryptenc9 P_entropy M_entropy P_readpass Prop_getopt Prop_readpass Prop_enc Prop_dec Prop_io M_msg_text Prop_info Prop_cli P_main Prop_main.
Local Open Scope list_scope.

(** Asks for no passphrase, opens no output, derives no key. *)
Definition harmless (e : pevent) : Prop :=
  match e with E_open_out _ _ | E_close_out _ | E_pass _ _ | E_pass_free _ | E_prep _ => False | _ => True end.
Lemma harmless_close W i : Forall harmless (close_in W i).
Proof. destruct i; [|constructor]. unfold close_in, warn_close. destruct (w_close_in W); repeat constructor. Qed.
Lemma harmless_open (i : option bytes) : Forall harmless (match i with None => [] | Some n => [E_open_in n true] end).
Proof. destruct i; repeat constructor. Qed.
Lemma print_error_ok rc i o l : print_error rc i o = Ok l -> l = [E_error rc i o].
Proof. unfold print_error. intros H. apply bind_inv in H. destruct H as (u & _ & H). injection H as <-. reflexivity. Qed.

Theorem C64_harmless : forall W prog rest r, Forall cstring rest -> main W (prog :: mode_word Info :: rest) = Ok r ->
  pr_stdout r = w_stdout W /\ pr_file r = None /\ pr_heap r = w_heap W /\ Forall harmless (pr_events r).
Proof.
  intros W prog rest r HC E. destruct (mode_cases W prog Info rest r HC E) as [(evs & ER & _ & HM)|(s & i & o & HQ & HO)].
  - apply Ok_inj in ER. subst r. cbn [pr_stdout pr_file pr_heap pr_events]. repeat (split; [reflexivity|]).
    eapply Forall_impl; [|exact HM]. intros []; cbn; tauto.
  - cbn [operation] in HO. unfold scrypt_mode_info in HO. fold (input_stream W i) in HO. destruct (input_stream W i) as [fi|].
    2:{ apply Ok_inj in HO. subst r. cbn [fail pr_stdout pr_file pr_heap pr_events]. repeat (split; [reflexivity|]). repeat constructor. }
    cbv zeta in HO. apply bind_inv in HO. destruct HO as ([[rc ms] fi'] & EP & HO).
    destruct (is_ok rc); cbn [negb] in HO.
    + apply Ok_inj in HO. subst r. cbn [pr_stdout pr_file pr_heap pr_events]. repeat (split; [reflexivity|]).
      apply Forall_app. split; [apply harmless_open|]. apply Forall_app. split; [repeat constructor|apply harmless_close].
    + apply bind_inv in HO. destruct HO as (pe & EE & HO). apply print_error_ok in EE. subst pe. apply Ok_inj in HO. subst r. cbn [fail pr_stdout pr_file pr_heap pr_events]. repeat (split; [reflexivity|]).
      apply Forall_app. split; [apply harmless_open|]. apply Forall_app. split; [repeat constructor|]. apply Forall_app. split; [repeat constructor|apply harmless_close].
Qed.
(** What a run on a readable header reports, and that it succeeds. *)
Theorem C64_report : forall W prog rest s i o fi fmt_f1, sane W -> Forall cstring rest -> requested W Info rest s i o ->
  w_al1 W = true -> w_al2 W = true -> input_stream W i = Some fi -> scrypt_header (stream_data fi) ->
  let h := get_head (stream_data fi) in
  fh_logN h < 64 -> fh_r h < 2 ^ 25 -> 128 * 2 ^ fh_logN h * fh_r h < 2 ^ 64 ->
  exists r m, main W (prog :: mode_word Info :: rest) = Ok r /\ pr_status r = 0%Z /\
    (forall ms, In (E_msgs ms) (pr_events r) <-> ms = [m]) /\ info_text (2 ^ fh_logN h) (fh_r h) (fh_p h) (msg_text fmt_f1 m).
Proof.
  intros W prog rest s i o fi fmt_f1 HW HC HQ HA1 HA2 EI HS h H1 H2 H3.
  assert (finite_stream fi) as HF. { unfold input_stream in EI. destruct i as [n|]; [exact (sn_files W HW n fi EI)|]. injection EI as <-. exact (sn_stdin W HW). }
  destruct (finite_instream fi HF) as [HI _]. destruct (C44_info fmt_f1 fi HI HS H1 H2 H3) as (m & fi' & EP & HT).
  rewrite (C39_operation W prog Info rest s i o HC HQ). cbn [operation]. unfold scrypt_mode_info. fold (input_stream W i). rewrite EI, HA1, HA2. cbv zeta. rewrite EP, bind_Ok.
  change (is_ok SCRYPT_OK) with true. cbn [negb]. exists (mk_pr 0 (match i with None => [] | Some n => [E_open_in n true] end ++ [E_msgs [m]; E_run SCRYPT_OK] ++ close_in W i) (w_stdout W) None (w_heap W)), m.
  split; [reflexivity|]. split; [reflexivity|]. split; [|exact HT]. intros ms. cbn [pr_events]. split.
  - intros HIN. apply in_app_or in HIN. destruct HIN as [HIN|HIN]; [destruct i; cbn [In] in HIN; intuition discriminate|].
    cbn [app In] in HIN. destruct HIN as [HIN|[HIN|HIN]]; [congruence|discriminate|]. unfold close_in, warn_close in HIN. destruct i; [|destruct HIN]. destruct (w_close_in W); cbn [In] in HIN; intuition discriminate.
  - intros ->. apply in_or_app. right. left. reflexivity.
Qed.
(** Status 0 exactly for a readable header. *)
Theorem C64_status : forall W prog rest r, sane W -> Forall cstring rest -> main W (prog :: mode_word Info :: rest) = Ok r ->
  (pr_status r = 0%Z <-> exists s i o fi, requested W Info rest s i o /\ input_stream W i = Some fi /\ scrypt_header (stream_data fi)) /\
  (pr_status r = 0%Z \/ pr_status r = 1%Z).
Proof.
  intros W prog rest r HW HC E.
  assert ((exists s i o fi, requested W Info rest s i o /\ input_stream W i = Some fi /\ scrypt_header (stream_data fi)) -> pr_status r = 0%Z) as HB.
  { intros (s & i & o & fi & HQ & EI & HS). rewrite (C39_operation W prog Info rest s i o HC HQ) in E. cbn [operation] in E. unfold scrypt_mode_info in E. fold (input_stream W i) in E. rewrite EI in E. cbv zeta in E.
    assert (finite_stream fi) as HF. { unfold input_stream in EI. destruct i as [n|]; [exact (sn_files W HW n fi EI)|]. injection EI as <-. exact (sn_stdin W HW). }
    destruct (finite_instream fi HF) as [HI _]. destruct (info_eq (w_al1 W) (w_al2 W) fi HI HS) as (fi' & EP). cbv zeta in EP. rewrite EP in E.
    apply bind_inv in E. destruct E as ([[rc ms] f1] & E1 & E). apply bind_inv in E1. destruct E1 as (m & _ & E1). assert (rc = SCRYPT_OK) as -> by congruence.
    change (is_ok SCRYPT_OK) with true in E. cbn [negb] in E. apply Ok_inj in E. subst r. reflexivity. }
  destruct (mode_cases W prog Info rest r HC E) as [(evs & ER & _)|(s & i & o & HQ & HO)].
  { apply Ok_inj in ER. subst r. cbn [pr_status] in *. split; [|right; reflexivity]. split; [discriminate|exact HB]. }
  cbn [operation] in HO. unfold scrypt_mode_info in HO. fold (input_stream W i) in HO. destruct (input_stream W i) as [fi|] eqn:EI.
  2:{ apply Ok_inj in HO. subst r. cbn [fail pr_status] in *. split; [|right; reflexivity]. split; [discriminate|exact HB]. }
  cbv zeta in HO. apply bind_inv in HO. destruct HO as ([[rc ms] fi'] & EP & HO).
  assert (finite_stream fi) as HF. { unfold input_stream in EI. destruct i as [n|]; [exact (sn_files W HW n fi EI)|]. injection EI as <-. exact (sn_stdin W HW). }
  destruct (finite_instream fi HF) as [HI _].
  destruct (is_ok rc) eqn:EO; cbn [negb] in HO.
  - apply is_ok_spec in EO. subst rc. apply Ok_inj in HO. subst r. cbn [pr_status] in *. split; [|left; reflexivity]. split; [intros _|exact HB].
    exists s, i, o, fi. split; [exact HQ|]. split; [exact EI|].
    destruct (load_header_ok fi HI) as (rc & hd & fi1 & EL & HR). unfold scryptdec_file_printparams in EP. rewrite EL in EP.
    destruct HR as [fi1 X1 X2 X3|fi1 A|fi1 A B|fi1 A B C|fi1 A B C]; [split; auto| | | |]; exfalso; try (destruct (stream_fails fi)); cbn [is_ok rcode_eqb negb] in EP; discriminate EP.
  - apply bind_inv in HO. destruct HO as (pe & EE & HO). apply Ok_inj in HO. subst r. cbn [fail pr_status] in *. split; [|right; reflexivity]. split; [discriminate|exact HB].
Qed.
(** Two runs - in whatever worlds - on inputs with the same first 16 bytes do the
    same: nothing else of the file, and nothing else of the world, matters. *)
Theorem C64_only_parameters : forall W1 W2 prog1 prog2 rest1 rest2 s1 s2 i o1 o2 fi1 fi2 r1,
  sane W1 -> sane W2 -> Forall cstring rest1 -> Forall cstring rest2 ->
  requested W1 Info rest1 s1 i o1 -> requested W2 Info rest2 s2 i o2 ->
  input_stream W1 i = Some fi1 -> input_stream W2 i = Some fi2 ->
  scrypt_header (stream_data fi1) -> scrypt_header (stream_data fi2) -> firstn 16 (stream_data fi1) = firstn 16 (stream_data fi2) ->
  w_al1 W1 = w_al1 W2 -> w_al2 W1 = w_al2 W2 -> w_close_in W1 = w_close_in W2 ->
  main W1 (prog1 :: mode_word Info :: rest1) = Ok r1 ->
  exists r2, main W2 (prog2 :: mode_word Info :: rest2) = Ok r2 /\ pr_status r2 = pr_status r1 /\ pr_events r2 = pr_events r1.
Proof.
  intros W1 W2 prog1 prog2 rest1 rest2 s1 s2 i o1 o2 fi1 fi2 r1 HW1 HW2 HC1 HC2 HQ1 HQ2 EI1 EI2 HS1 HS2 H16 HA1 HA2 HCL E.
  rewrite (C39_operation W1 prog1 Info rest1 s1 i o1 HC1 HQ1) in E. rewrite (C39_operation W2 prog2 Info rest2 s2 i o2 HC2 HQ2). cbn [operation] in *.
  unfold scrypt_mode_info in *. fold (input_stream W1 i) in E. fold (input_stream W2 i). rewrite EI1 in E. rewrite EI2. cbv zeta in *.
  assert (forall W i fi, sane W -> input_stream W i = Some fi -> input_ok fi) as HI.
  { clear. intros W i fi HW EI. assert (finite_stream fi) as HF. { unfold input_stream in EI. destruct i as [n|]; [exact (sn_files W HW n fi EI)|]. injection EI as <-. exact (sn_stdin W HW). }
    apply finite_instream in HF. apply HF. }
  apply bind_inv in E. destruct E as ([[rc ms] f1] & EP & E).
  destruct (C44_only_first_bytes (w_al1 W1) (w_al2 W1) fi1 fi2 (HI _ _ _ HW1 EI1) (HI _ _ _ HW2 EI2) HS1 HS2 H16 rc ms f1 EP) as (f2 & EP2).
  rewrite HA1, HA2 in EP2. rewrite EP2, bind_Ok. assert (close_in W1 i = close_in W2 i) as HCI by (unfold close_in; rewrite HCL; reflexivity). rewrite HCI in E.
  destruct (is_ok rc); cbn [negb] in *.
  - apply Ok_inj in E. subst r1. eexists. split; [reflexivity|]. split; reflexivity.
  - apply bind_inv in E. destruct E as (pe & EE & E). rewrite EE, bind_Ok. apply Ok_inj in E. subst r1. eexists. split; [reflexivity|]. split; reflexivity.
Qed.
(** "scrypt info a" in the example world, whose file "a" is an encryption of
    "hello". *)
Example C64_hyps : let W := ex_world true in exists s fi, sane W /\ Forall cstring [str "a"] /\ requested W Info [str "a"] s (Some (str "a")) None /\
  input_stream W (Some (str "a")) = Some fi /\ scrypt_header (stream_data fi) /\ w_al1 W = true /\ w_al2 W = true /\
  let h := get_head (stream_data fi) in fh_logN h < 64 /\ fh_r h < 2 ^ 25 /\ 128 * 2 ^ fh_logN h * fh_r h < 2 ^ 64.
Proof.
  cbv zeta. exists (default_settings false), (mk_in [(ex_file, false)] false). split; [apply ex_sane|]. split; [constructor; [unfold cstring; cbn; intuition discriminate|constructor]|].
  split; [|split; [reflexivity|]].
  - exists [], [str "a"]. split; [apply (parse_other scrypt_options 97); discriminate|]. split; [apply effs_nil|]. split; [constructor; discriminate|].
    unfold acceptable. cbn. split; [left; auto|]. split; [reflexivity|]. intros [H _]. discriminate H.
  - assert (stream_data (mk_in [(ex_file, false)] false) = ex_file) as ES by (apply delivered_data, ex_delivered). rewrite ES.
    assert (get_head ex_file = ex_h) as EH. { unfold ex_file, fmt_file, fmt_body, fmt_96, fmt_64. rewrite <- !app_assoc. apply get_head_fmt. exact ex_h_ok. }
    rewrite EH. split; [|cbn; lia]. split; [unfold ex_file; rewrite fmt_file_length by reflexivity; lia|].
    unfold ex_file, fmt_file, fmt_body, fmt_96, fmt_64, fmt_48. rewrite <- !app_assoc. split; reflexivity.
Qed.
Definition Prop_inspect_all := (C64_harmless, C64_report, C64_status, C64_only_parameters).
Print Assumptions Prop_inspect_all.
