(** C58 for the program: -v changes nothing but the messages. *)
From Coq Require Import String.
From Flocq Require Import IEEE754.BinarySingleNaN.
From Verif Require Import Base SpecAscii SpecBytes SpecScryptAPI SpecFormat SpecStream P_scrypt M_machine M_double M_smix M_stdio M_memlimit M_cpuperf
  M_strto M_params Prop_params M_scryptenc SpecScryptenc M_getopt M_readpass M_print_error M_main SpecPass SpecGetopt SpecCLI P_scrypt_ref P_scryptenc
  P_main Prop_getopt Prop_cli Prop_readpass Prop_enc Prop_main Prop_monotone.
Local Open Scope N_scope.
Local Open Scope list_scope.

(** The same settings with -v given or not. *)
Definition with_verbose (v : bool) (s : settings) : settings :=
  mk_set (s_force s) v (s_method s) (s_maxmem s) (s_maxmemfrac s) (s_maxtime s) (s_logN s) (s_r s) (s_p s).
(** The same event, up to the parameters displayed by the library. *)
Definition ev_alike (v : bool) (x y : pevent) : Prop :=
  match x with E_msgs a => exists b, y = E_msgs b /\ msgs_alike v a b | _ => y = x end.
(** The same run, up to the display of the parameters, which r' lacks unless v. *)
Record run_alike (v : bool) (r r' : presult) : Prop := mk_run_alike {
  ra_status : pr_status r' = pr_status r; ra_stdout : pr_stdout r' = pr_stdout r; ra_file : pr_file r' = pr_file r;
  ra_heap : pr_heap r' = pr_heap r; ra_events : Forall2 (ev_alike v) (pr_events r) (pr_events r') }.

(** No message of the first run is a display (it is only used for the events both runs share). *)
Definition no_display (x : pevent) : Prop := match x with E_msgs a => a = [] | _ => True end.
Lemma ev_same v l : Forall no_display l -> Forall2 (ev_alike v) l l.
Proof.
  induction 1 as [|x l Hx _ IH]; constructor; [|exact IH]. destruct x; cbn in *; try reflexivity. subst. exists []. split; [reflexivity|apply msgs_nil].
Qed.
Lemma ev_mid v l1 l2 a b : Forall no_display l1 -> Forall no_display l2 -> msgs_alike v a b ->
  Forall2 (ev_alike v) (l1 ++ E_msgs a :: l2) (l1 ++ E_msgs b :: l2).
Proof.
  intros H1 H2 H. apply Forall2_app; [apply ev_same; exact H1|]. constructor; [exists b; auto|apply ev_same; exact H2].
Qed.
Lemma close_in_nd W i : Forall no_display (close_in W i).
Proof. unfold close_in. destruct i; [|constructor]. destruct (w_close_in W); repeat constructor. Qed.
Lemma close_out_nd W i : Forall no_display (close_out W i).
Proof. unfold close_out. destruct i; [|constructor]. destruct (w_close_out W); repeat constructor. Qed.
Lemma print_error_nd rc i o l : print_error rc i o = Ok l -> Forall no_display l.
Proof. unfold print_error. destruct (scryptenc_print_error _ _ _ _); cbn [bind]; intros E; try discriminate E. injection E as <-. repeat constructor. Qed.
Lemma release_nd pw w : release_pass pw = Ok w -> no_display w.
Proof. unfold release_pass. destruct (M_memzero.insecure_memzero _ _); cbn [bind]; intros E; try discriminate E. injection E as <-. exact I. Qed.
Lemma open_nd {A} (n : option A) (f : A -> pevent) : (forall a, no_display (f a)) -> Forall no_display (match n with None => [] | Some a => [f a] end).
Proof. intros H. destruct n; repeat constructor. apply H. Qed.
Ltac nd :=
  repeat first [ apply close_in_nd | apply close_out_nd | apply Forall_app; split | apply Forall_cons; [exact I|] | apply Forall_nil
               | eapply print_error_nd; eassumption | apply Forall_cons; [eapply release_nd; eassumption|] | assumption
               | match goal with |- Forall _ (match ?n with _ => _ end) => destruct n end ].

Section Run.
  Context (W : world) (v v' : bool).
  Context (Hs : size_bits (m_szb (w_M W))) (HA : can_display v' (v_params (w_env W))).
  Lemma enc_dec_run_alike dec P lb h C pw fi force i o r :
    enc_dec_run W dec P lb h C pw fi v force i o = Ok r -> exists r', enc_dec_run W dec P lb h C pw fi v' force i o = Ok r' /\ run_alike v' r r'.
  Proof.
    unfold enc_dec_run. destruct (match o with None => Some (w_stdout W) | Some n => w_open_out W n end) as [fo|].
    2:{ destruct (scryptdec_file_cookie_free C h); cbn [bind]; try discriminate. destruct (release_pass pw) eqn:ER; cbn [bind]; try discriminate.
        intros H. injection H as <-. eexists. split; [reflexivity|]. constructor; try reflexivity. cbn [fail pr_events]. apply ev_same. nd. }
    assert (forall rc ms ms' fo h,
      msgs_alike v' ms ms' ->
      (h <- scryptdec_file_cookie_free C h;; wipe <- release_pass pw;; pe <- (if is_ok rc then Ok [] else print_error rc i o);;
       match o with
       | None => Ok (mk_pr (if is_ok rc then 0%Z else 1%Z) ((match o with None => [] | Some n => [E_open_out n true] end) ++ [E_msgs ms; E_run rc] ++ wipe :: close_in W i ++ close_out W o ++ pe) fo None h)
       | Some n => Ok (mk_pr (if is_ok rc then 0%Z else 1%Z) ((match o with None => [] | Some n => [E_open_out n true] end) ++ [E_msgs ms; E_run rc] ++ wipe :: close_in W i ++ close_out W o ++ pe) (w_stdout W) (Some (n, fo)) h)
       end) = Ok r ->
      exists r',
      (h <- scryptdec_file_cookie_free C h;; wipe <- release_pass pw;; pe <- (if is_ok rc then Ok [] else print_error rc i o);;
       match o with
       | None => Ok (mk_pr (if is_ok rc then 0%Z else 1%Z) ((match o with None => [] | Some n => [E_open_out n true] end) ++ [E_msgs ms'; E_run rc] ++ wipe :: close_in W i ++ close_out W o ++ pe) fo None h)
       | Some n => Ok (mk_pr (if is_ok rc then 0%Z else 1%Z) ((match o with None => [] | Some n => [E_open_out n true] end) ++ [E_msgs ms'; E_run rc] ++ wipe :: close_in W i ++ close_out W o ++ pe) (w_stdout W) (Some (n, fo)) h)
       end) = Ok r' /\ run_alike v' r r') as HT.
    { intros rc ms ms' fo1 h1 HM. destruct (scryptdec_file_cookie_free C h1); cbn [bind]; try discriminate.
      destruct (release_pass pw) eqn:ER; cbn [bind]; try discriminate.
      destruct (if is_ok rc then Ok [] else print_error rc i o) as [pe| |] eqn:EP; cbn [bind]; try discriminate.
      assert (Forall no_display pe) as HP. { destruct (is_ok rc); [injection EP as <-; constructor|eapply print_error_nd; exact EP]. }
      destruct o; intros H; injection H as <-; (eexists; split; [reflexivity|]; constructor; try reflexivity; cbn [pr_events app]).
      - apply (ev_mid v' [_]); [nd|nd|exact HM].
      - apply (ev_mid v' []); [nd|nd|exact HM]. }
    destruct dec.
    - destruct (scryptdec_file_copy _ _ _ _ _ _) as [[[[rc x] fo1] h1]| |]; cbn [bind]; try discriminate. apply HT, msgs_nil.
    - destruct (scryptenc_file _ _ _ _ _ _ _ _ _ v _) as [oc| |] eqn:EE; cbn [bind]; try discriminate.
      destruct (C58_encrypt_stream _ _ _ _ _ _ v' Hs HA _ _ _ _ _ _ EE) as (oc' & -> & [Q1 Q2 Q3 Q4 Q5 Q6 Q7 Q8]). cbn [bind].
      rewrite Q1, Q5, Q6. apply HT. split; assumption.
  Qed.
  Lemma add_alike a b r r' : Forall2 (ev_alike v') a b -> run_alike v' r r' -> run_alike v' (add_events a r) (add_events b r').
  Proof. intros H [H1 H2 H3 H4 H5]. constructor; cbn [add_events pr_status pr_stdout pr_file pr_heap pr_events]; auto. apply Forall2_app; assumption. Qed.
  Lemma enc_dec_alike P m marg dec force i o r :
    scrypt_mode_enc_dec W P m marg dec v force i o = Ok r -> exists r', scrypt_mode_enc_dec W P m marg dec v' force i o = Ok r' /\ run_alike v' r r'.
  Proof.
    unfold scrypt_mode_enc_dec. destruct (match i with None => Some (w_stdin W) | Some n => w_open_in W n end) as [fi|].
    2:{ intros H. injection H as <-. eexists. split; [reflexivity|]. constructor; try reflexivity. cbn [fail pr_events]. apply ev_same. nd. }
    destruct (passphrase_entry_readpass _ _ _ _ _ _ _) as [rp| |]; cbn [bind]; try discriminate.
    destruct (ro_pass rp) as [pw|].
    2:{ intros H. injection H as <-. eexists. split; [reflexivity|]. constructor; try reflexivity. cbn [fail pr_events]. apply ev_same. nd. }
    set (fi1 := match i with None => ro_stdin rp | Some _ => fi end). clearbody fi1.
    set (op := match i with None => [] | Some n => [E_open_in n true] end). assert (Forall no_display op) as HOP by (unfold op; nd).
    clearbody op. destruct dec.
    - destruct (scryptdec_file_prep _ _ _ _ _ _ _ _ v _ _) as [oc| |] eqn:EE; cbn [bind]; try discriminate.
      destruct (C58_prepare _ _ _ _ _ _ v' Hs HA _ _ _ _ _ _ EE) as (oc' & -> & [Q1 Q2 Q3 Q4 Q5 Q6 Q7 Q8]). cbn [bind].
      rewrite Q1, Q2, Q5, Q6.
      assert (forall l, Forall no_display l -> Forall2 (ev_alike v') ((op ++ [E_pass (ro_acts rp) true]) ++ E_msgs (oc_msgs oc) :: l) ((op ++ [E_pass (ro_acts rp) true]) ++ E_msgs (oc_msgs oc') :: l)) as HM.
      { intros l Hl. apply ev_mid; [nd|exact Hl|split; assumption]. }
      destruct (negb (is_ok (oc_rc oc))).
      + destruct (scryptdec_file_cookie_free _ _); cbn [bind]; try discriminate. destruct (release_pass pw) eqn:ER; cbn [bind]; try discriminate.
        destruct (print_error _ _ _) eqn:EP; cbn [bind]; try discriminate. intros H. injection H as <-. eexists. split; [reflexivity|].
        constructor; try reflexivity. cbn [fail pr_events]. rewrite <- !(app_assoc (op ++ _)). cbn [app]. apply HM. nd.
      + destruct (enc_dec_run _ _ _ _ _ _ _ _ v _ _ _) as [r1| |] eqn:E1; cbn [bind]; try discriminate. intros H. injection H as <-.
        destruct (enc_dec_run_alike _ _ _ _ _ _ _ _ _ _ _ E1) as (r2 & -> & HR). cbn [bind]. eexists. split; [reflexivity|].
        apply add_alike; [|exact HR]. apply HM. nd.
    - destruct (enc_dec_run _ _ _ _ _ _ _ _ v _ _ _) as [r1| |] eqn:E1; cbn [bind]; try discriminate. intros H. injection H as <-.
      destruct (enc_dec_run_alike _ _ _ _ _ _ _ _ _ _ _ E1) as (r2 & -> & HR). cbn [bind]. eexists. split; [reflexivity|].
      apply add_alike; [|exact HR]. apply ev_same. nd.
  Qed.
End Run.

(** C58.  Two command lines that ask for the same encryption or decryption, one
    with and one without -v. *)
Theorem C58_program W prog m rest rest' s v i o r :
  size_bits (m_szb (w_M W)) -> can_display v (v_params (w_env W)) -> Forall cstring rest -> Forall cstring rest' -> m <> Info ->
  requested W m rest s i o -> requested W m rest' (with_verbose v s) i o ->
  main W (prog :: mode_word m :: rest) = Ok r ->
  exists r', main W (prog :: mode_word m :: rest') = Ok r' /\ run_alike v r r'.
Proof.
  intros Hs HA HC HC' HI HQ HQ' E. rewrite (C39_operation W prog m rest s i o HC HQ) in E.
  rewrite (C39_operation W prog m rest' _ i o HC' HQ'). destruct m; cbn [operation] in *; [| |contradiction].
  - exact (enc_dec_alike W (s_verbose s) v Hs HA _ _ _ _ _ _ _ _ E).
  - exact (enc_dec_alike W (s_verbose s) v Hs HA _ _ _ _ _ _ _ _ E).
Qed.
(** For info, no setting makes any difference. *)
Theorem C58_info W prog rest rest' s s' i o o' :
  Forall cstring rest -> Forall cstring rest' -> requested W Info rest s i o -> requested W Info rest' s' i o' ->
  main W (prog :: str "info" :: rest') = main W (prog :: str "info" :: rest).
Proof.
  intros HC HC' HQ HQ'. change (str "info") with (mode_word Info).
  rewrite (C39_operation W prog Info rest s i o HC HQ), (C39_operation W prog Info rest' s' i o' HC' HQ'). reflexivity.
Qed.
(** -v -f --passphrase env:PW a b, in the world of C51_hyps. *)
Example C58_hyps : let rest' := str "-v" :: ex_args in
  Forall cstring rest' /\ requested (ex_world true) Dec rest' (with_verbose true ex_settings) (Some (str "a")) (Some (str "b")) /\
  can_display true (v_params (w_env (ex_world true))) /\
  exists r r', main (ex_world true) (str "scrypt" :: str "dec" :: ex_args) = Ok r /\ main (ex_world true) (str "scrypt" :: str "dec" :: rest') = Ok r' /\
    run_alike true r r' /\ pr_status r' = 0%Z.
Proof.
  cbv zeta.
  assert (Forall cstring (str "-v" :: ex_args)) as HC by (apply Forall_cons; [unfold cstring; cbn; intuition discriminate|exact ex_args_ok]).
  assert (requested (ex_world true) Dec (str "-v" :: ex_args) (with_verbose true ex_settings) (Some (str "a")) (Some (str "b"))) as HQ.
  { exists [Flag (str "-v"); Flag (str "-f"); Arg (str "--passphrase") (str "env:PW")], [str "a"; str "b"]. split; [|split; [|split]].
    - apply (parse_cluster scrypt_options 118 []); [discriminate|]. apply (cluster_flag scrypt_options 118 []). { cbn. tauto. }
      apply cluster_end. apply ex_parse. apply (parse_other scrypt_options 97). discriminate.
    - eapply effs_cons; [apply eff_v|]. eapply effs_cons; [apply eff_f|].
      eapply effs_cons; [apply (eff_pass _ _ true true 0 d0_5 (of_N 300) 0 0 0 (str "env:PW") PASSPHRASE_ENV (str "PW")); exact (ms_env (str "PW"))|]. apply effs_nil.
    - constructor. discriminate.
    - unfold acceptable, with_verbose, ex_settings. cbn [s_logN s_r s_p s_maxmemfrac s_method]. split; [left; auto|]. split; [reflexivity|]. intros [H _]. discriminate H. }
  assert (can_display true (v_params (w_env (ex_world true)))) as HA by (intros _; split; reflexivity).
  split; [exact HC|]. split; [exact HQ|]. split; [exact HA|].
  destruct (C51_hyps true) as (r & fo & E & E2 & _). exists r.
  destruct (C58_program (ex_world true) (str "scrypt") Dec ex_args (str "-v" :: ex_args) ex_settings true _ _ r (or_intror eq_refl) HA ex_args_ok HC ltac:(discriminate) (ex_requested true) HQ E) as (r' & E' & HR).
  exists r'. split; [exact E|]. split; [exact E'|]. split; [exact HR|]. rewrite (ra_status _ _ _ HR). exact E2.
Qed.
Definition Prop_verbose_all := (C58_encrypt_buffer, C58_decrypt_buffer, C58_encrypt_stream, C58_prepare, C58_decrypt_stream, C58_program, C58_info).
Print Assumptions Prop_verbose_all.
