(** C61: what a verbose run displays. *)
From Coq Require Import Reals Lra String.
From Flocq Require Import Core IEEE754.BinarySingleNaN.
From Verif Require Import Base SpecAscii SpecText SpecBytes SpecSHA SpecScrypt SpecScryptAPI SpecAES SpecDouble SpecFormat SpecStream
  M_smix P_scrypt P_scrypt_ref M_machine M_double P_double M_memlimit P_memlimit M_cpuperf M_humansize P_humansize
  M_params P_params Prop_params M_stdio P_stdio M_scryptenc SpecScryptenc P_scryptenc P_scryptenc2 P_scryptenc3 P_scryptenc4 Prop_enc Prop_explicit Prop_dec Prop_info M_msg_text.
From Coq Require Import Lia.
Local Open Scope list_scope.
Local Open Scope N_scope.

(** s is v rounded down to the form that humansize.h documents. *)
Definition rounded (v : N) (s : bytes) : Prop :=
  exists u, human u s /\ u <= v /\ (forall u' s', human u' s' -> u' <= v -> u' <= u).
(** The report on parameters N, r, p: with [None], only the requirement; with a memory
    budget of L bytes, a speed of opps operations per second and a time limit, also
    these.  fmt_f1 is printf's %.1f; of_N is the conversion to double and ddiv the
    division of doubles. *)
Definition report (fmt_f1 : double -> bytes) (N_ r p : N) (lim : option (N * double * double)) (t : bytes) : Prop := exists sN sr sp sm,
  decimal N_ sN /\ decimal r sr /\ decimal p sp /\ rounded (128 * N_ * r) sm /\
  let head := str "Parameters used: N = " ++ sN ++ str "; r = " ++ sr ++ str "; p = " ++ sp ++ str ";" ++ [newline]
   ++ str "    Decrypting this file requires at least " ++ sm ++ str " of memory" in
  match lim with
  | None => t = head ++ str "." ++ [newline]
  | Some (L, opps, maxtime) => exists sL, rounded L sL /\
      t = head ++ str " (" ++ sL ++ str " available)," ++ [newline] ++ str "    and will take approximately " ++
          fmt_f1 (ddiv (of_N (4 * N_ * r * p)) opps) ++ str " seconds (limit: " ++ fmt_f1 maxtime ++ str " seconds)." ++ [newline]
  end.
(** Parameters whose memory requirement and work fit 64 bits (and 128 r fits 32). *)
Definition printable (P : xparams) : Prop :=
  (1 <= x_logN P <= 63)%Z /\ x_r P < 2 ^ 25 /\ 128 * 2 ^ Z.to_N (x_logN P) * x_r P < 2 ^ 64 /\ 4 * 2 ^ Z.to_N (x_logN P) * x_r P * x_p P < 2 ^ 64.
Definition report_on (fmt_f1 : double -> bytes) (P : xparams) (lim : option (N * double * double)) (t : bytes) : Prop :=
  report fmt_f1 (2 ^ Z.to_N (x_logN P)) (x_r P) (x_p P) lim t.

Section Display.
  Context (fmt_f1 : double -> bytes).
  Lemma humansize_rounded al v s : v < 2 ^ 64 -> humansize al v = Ok (Some s) -> rounded v s.
  Proof.
    intros Hv E. destruct (humansize_spec v Hv) as (s' & u & E' & H1 & H2 & H3).
    assert (s' = s) as <-. { unfold humansize in E, E'. apply bind_inv in E. destruct E as (x & Ex & E). rewrite Ex, bind_Ok in E'. destruct al; congruence. }
    exists u. auto.
  Qed.
  Lemma display_inv al1 al2 P L opps mt m : printable P -> L < 2 ^ 64 -> display_params al1 al2 (x_logN P) (x_r P) (x_p P) L opps mt = Ok m ->
    exists sm, rounded (128 * 2 ^ Z.to_N (x_logN P) * x_r P) sm /\ pm_N m = 2 ^ Z.to_N (x_logN P) /\ pm_r m = x_r P /\ pm_p m = x_p P /\ pm_mem m = sm /\
      (if 0 <? L then exists sL, rounded L sL /\ pm_avail m = Some sL else pm_avail m = None) /\
      pm_time m = if dlt d0 opps then Some (ddiv (of_N (4 * 2 ^ Z.to_N (x_logN P) * x_r P * x_p P)) opps, mt) else None.
  Proof.
    intros (H1 & H2 & H3 & H4) HL E. unfold display_params in E.
    assert ((0 <=? x_logN P)%Z && (x_logN P <? 64)%Z = true) as EZ by lia. rewrite EZ in E. cbn [negb] in E. clear EZ.
    assert (2 ^ Z.to_N (x_logN P) < 2 ^ 64) as HN by (apply N.pow_lt_mono_r; lia).
    rewrite one_shl in E by lia. set (N_ := 2 ^ Z.to_N (x_logN P)) in *.
    assert (w32 (128 * x_r P) = 128 * x_r P) as E1 by (apply w32_small; lia).
    assert (w64 (128 * x_r P * N_) = 128 * N_ * x_r P) as E2 by (rewrite w64_small; lia).
    rewrite E1, E2 in E. clear E1 E2. cbv zeta in E.
    apply bind_inv in E. destruct E as (hL & EL & E). apply bind_inv in E. destruct E as (hm & EM & E). destruct hm as [hm|]; [|discriminate E].
    apply bind_inv in E. destruct E as (av & EA & E). injection E as <-. cbn [pm_N pm_r pm_p pm_mem pm_avail pm_time].
    exists hm. split; [exact (humansize_rounded _ _ _ H3 EM)|]. split; [reflexivity|]. split; [reflexivity|]. split; [reflexivity|]. split; [reflexivity|]. split.
    - destruct (0 <? L); [|congruence]. destruct hL as [hL|]; [|discriminate EA]. exists hL. split; [exact (humansize_rounded _ _ _ HL EL)|congruence].
    - destruct (dlt d0 opps); [|reflexivity].
      assert (w64 (w64 (w64 (4 * N_) * x_r P) * x_p P) = 4 * N_ * x_r P * x_p P) as ->; [|reflexivity].
      rewrite !w64_mod. rewrite (N.mul_mod_idemp_l (4 * N_)) by discriminate. rewrite N.mul_mod_idemp_l by discriminate. apply N.mod_small. exact H4.
  Qed.
  Lemma display_limited al1 al2 P L opps mt m : printable P -> 0 < L < 2 ^ 64 -> dlt d0 opps = true ->
    display_params al1 al2 (x_logN P) (x_r P) (x_p P) L opps mt = Ok m -> report_on fmt_f1 P (Some (L, opps, mt)) (params_text fmt_f1 m).
  Proof.
    intros HP [HL HL2] HO E. destruct (display_inv _ _ _ _ _ _ _ HP HL2 E) as (sm & H1 & H2 & H3 & H4 & H5 & H6 & H7). rewrite HO in H7.
    destruct (N.ltb_spec 0 L); [|lia]. destruct H6 as (sL & H6 & H8). unfold report_on, report, params_text. rewrite H2, H3, H4, H5, H7, H8.
    do 4 eexists. split; [apply print_dec_decimal|]. split; [apply print_dec_decimal|]. split; [apply print_dec_decimal|]. split; [exact H1|].
    exists sL. split; [exact H6|].
    change (str "    Decrypting this file requires at least ") with (str "    Decrypting this file requires at least" ++ str " ").
    change (str " available),") with (str " available)" ++ str ",").
    change (str " seconds (limit: ") with (str " " ++ str "seconds (limit: ").
    change (str " seconds).") with (str " seconds)" ++ str ".").
    rewrite <- !app_assoc. reflexivity.
  Qed.
  Lemma display_plain al1 al2 P mt m : printable P ->
    display_params al1 al2 (x_logN P) (x_r P) (x_p P) 0 d0 mt = Ok m -> report_on fmt_f1 P None (params_text fmt_f1 m).
  Proof.
    intros HP E. assert (0 < 2 ^ 64) as HL by reflexivity. destruct (display_inv _ _ _ _ _ _ _ HP HL E) as (sm & H1 & H2 & H3 & H4 & H5 & H6 & H7).
    change (dlt d0 d0) with false in H7. change (0 <? 0) with false in H6. cbv iota in H6, H7. unfold report_on, report, params_text. rewrite H2, H3, H4, H5, H6, H7.
    do 4 eexists. split; [apply print_dec_decimal|]. split; [apply print_dec_decimal|]. split; [apply print_dec_decimal|]. split; [exact H1|].
    change (str "    Decrypting this file requires at least ") with (str "    Decrypting this file requires at least" ++ str " ").
    rewrite <- !app_assoc. cbn [app]. reflexivity.
  Qed.

  Context (M : machine) (cfg : clk_cfg).
  (** The report of a call with environment e and limits lim: none of the measured
      quantities if [forced]. *)
  Definition reports (sst : M_scrypt_sel.smix_state) (e : params_env) (lim : limits) (forced : bool) (P : xparams) (m : params_msg) : Prop :=
    if forced then report_on fmt_f1 P None (params_text fmt_f1 m)
    else exists L opps, budget M e lim L /\ speed M cfg sst e opps /\ report_on fmt_f1 P (Some (L, opps, l_maxtime lim)) (params_text fmt_f1 m).
  Lemma measured e lim sst L opps sst' : size_bits (m_szb M) -> clock_sane e -> memtouse (m_szb M) (pv_mem e) (l_maxmem lim) (l_maxmemfrac lim) = Ok (Some L) ->
    scryptenc_cpuperf M cfg sst (pv_perf e) = Ok (sst', inr opps) -> 0 < L < 2 ^ 64 /\ dlt d0 opps = true.
  Proof.
    intros Hs [HC1 HC2] HB HS. destruct (memtouse_range _ _ _ _ _ Hs HB) as [H1 H2].
    assert (0 < L < 2 ^ 64) as HL by lia. split; [exact HL|].
    destruct (C45_estimate _ _ _ _ _ _ HS HC1 HC2) as (rd & st & k & d & _ & _ & _ & _ & _ & _ & _ & F & Q).
    rewrite dlt_fin by (exact F || reflexivity). apply Rlt_bool_true. assert (B2R d0 = 0)%R as -> by reflexivity. exact Q.
  Qed.
  (** The statuses at which the parameters have been displayed, if verbose. *)
  Definition shown : list rcode := [SCRYPT_OK; SCRYPT_ETOOBIG; SCRYPT_ETOOSLOW; SCRYPT_EBIGSLOW; SCRYPT_EPASS].
  Lemma einval_shown : ~ In SCRYPT_EINVAL shown. Proof. cbn. intuition discriminate. Qed.
  Lemma check_report sst e lim P verbose force sst' om rc : size_bits (m_szb M) -> clock_sane e ->
    checkparams M cfg sst e lim (x_logN P) (x_r P) (x_p P) verbose force = Ok (sst', om, rc) ->
    (verbose = false -> om = None) /\ (verbose = true -> In rc shown -> om <> None) /\
    (forall m, om = Some m -> printable P -> reports sst e lim force P m).
  Proof.
    intros Hs HC E. unfold checkparams in E.
    destruct (_ || _)%bool; [injection E as _ <- <-; repeat split; try congruence; intros _ HI; destruct (einval_shown HI)|].
    destruct (0x40000000 <=? _); [injection E as _ <- <-; repeat split; try congruence; intros _ HI; destruct (einval_shown HI)|].
    destruct (_ || _)%bool; [injection E as _ <- <-; repeat split; try congruence; intros _ HI; destruct (einval_shown HI)|].
    destruct force.
    - apply bind_inv in E. destruct E as (om' & EM & E). assert (om' = om) as -> by congruence. clear E. destruct verbose.
      + apply bind_inv in EM. destruct EM as (d & ED & EM). injection EM as <-. split; [discriminate|]. split; [discriminate|].
        intros m Em HP. injection Em as ->. exact (display_plain _ _ _ _ _ HP ED).
      + injection EM as <-. split; [reflexivity|]. split; discriminate.
    - apply bind_inv in E. destruct E as ([L|] & EB & E); [|injection E as _ <- <-; repeat split; try congruence; cbn; intuition discriminate].
      apply bind_inv in E. destruct E as ([s1 [rc1|opps]] & ES & E).
      + apply cpuperf_codes in ES. injection E as _ <- <-. repeat split; try congruence. intros _ HI. exfalso. cbn in HI. destruct ES as [-> | ->]; intuition discriminate.
      + apply bind_inv in E. destruct E as (om' & EM & E). assert (om' = om) as -> by congruence. clear E.
        destruct (measured _ _ _ _ _ _ Hs HC EB ES) as [HL HO]. destruct verbose.
        * apply bind_inv in EM. destruct EM as (d & ED & EM). injection EM as <-. split; [discriminate|]. split; [discriminate|].
          intros m Em HP. injection Em as ->. exists L, opps. split; [exact EB|]. split; [eexists; exact ES|]. exact (display_limited _ _ _ _ _ _ _ HP HL HO ED).
        * injection EM as <-. split; [reflexivity|]. split; discriminate.
  Qed.
  Lemma pick_report sst e lim verbose sst' om l r p : size_bits (m_szb M) -> clock_sane e ->
    pickparams M cfg sst e lim verbose = Ok (sst', om, inr (l, r, p)) ->
    (verbose = false -> om = None) /\ (verbose = true -> om <> None) /\
    (forall m, om = Some m -> printable (mk_xp lim (Z.of_N l) r p) -> reports sst e lim false (mk_xp lim (Z.of_N l) r p) m).
  Proof.
    intros Hs HC E. unfold pickparams in E.
    apply bind_inv in E. destruct E as ([L|] & EB & E); [|discriminate E].
    apply bind_inv in E. destruct E as ([s1 [rc1|opps]] & ES & E); [discriminate E|].
    apply bind_inv in E. destruct E as ([[l1 r1] p1] & EP & E). apply bind_inv in E. destruct E as (om' & EM & E). injection E as _ <- <- <- <-.
    destruct (measured _ _ _ _ _ _ Hs HC EB ES) as [HL HO]. destruct verbose.
    - apply bind_inv in EM. destruct EM as (d & ED & EM). injection EM as <-. split; [discriminate|]. split; [discriminate|].
      intros m Em HP. injection Em as ->. exists L, opps. split; [exact EB|]. split; [eexists; exact ES|]. exact (display_limited _ _ _ _ _ _ _ HP HL HO ED).
    - injection EM as <-. split; [reflexivity|]. split; discriminate.
  Qed.
  Lemma pick_fails sst e lim verbose sst' om rc : pickparams M cfg sst e lim verbose = Ok (sst', om, inl rc) -> om = None /\ ~ In rc shown.
  Proof.
    intros E. split; [|apply pickparams_codes in E; cbn in E |- *; intuition congruence]. unfold pickparams in E.
    apply bind_inv in E. destruct E as ([L|] & EB & E); [|congruence].
    apply bind_inv in E. destruct E as ([s1 [rc1|opps]] & ES & E); [congruence|].
    apply bind_inv in E. destruct E as ([[l1 r1] p1] & EP & E). apply bind_inv in E. destruct E as (om' & EM & E). congruence.
  Qed.
  (** The messages of a call: no report unless verbose; exactly one, first, if verbose
      and successful; and any report is truthful. *)
  Record displayed (sst : M_scrypt_sel.smix_state) (e : params_env) (lim : limits) (forced verbose : bool) (P : xparams) (rc : rcode) (ms : list msg) : Prop := mk_disp {
    dp_quiet : verbose = false -> forall m, ~ In (Msg_params m) ms;
    dp_once : verbose = true -> In rc shown -> exists m rest, ms = Msg_params m :: rest /\ forall m', ~ In (Msg_params m') rest;
    dp_true : forall m, In (Msg_params m) ms -> printable P -> reports sst e lim forced P m }.
  Lemma displayed_of sst e lim forced verbose P rc (om : option params_msg) ws :
    (verbose = false -> om = None) -> (verbose = true -> In rc shown -> om <> None) -> (forall m, om = Some m -> printable P -> reports sst e lim forced P m) ->
    (forall m, ~ In (Msg_params m) ws) -> displayed sst e lim forced verbose P rc (opt_msg om ++ ws).
  Proof.
    intros H1 H2 H3 H4. split.
    - intros HV m HI. rewrite (H1 HV) in HI. exact (H4 m HI).
    - intros HV HR. destruct om as [m|]; [|destruct (H2 HV HR); reflexivity]. exists m, ws. split; [reflexivity|exact H4].
    - intros m HI. apply in_app_or in HI. destruct HI as [HI|HI]; [|destruct (H4 m HI)]. destruct om as [m'|]; [|destruct HI].
      destruct HI as [HI|[]]. apply H3. congruence.
  Qed.
  Lemma displayed_nil sst e lim forced verbose P rc : ~ In rc shown -> displayed sst e lim forced verbose P rc [].
  Proof. intros H. split; [auto|tauto|intros m []]. Qed.
  Lemma displayed_rc sst e lim forced verbose P rc rc' ms : (In rc' shown -> In rc shown) ->
    displayed sst e lim forced verbose P rc ms -> displayed sst e lim forced verbose P rc' ms.
  Proof. intros H [A B C]. split; auto. Qed.
  Lemma setup_params_displayed lb e P verbose force lb1 ms P1 rc : size_bits (m_szb M) -> clock_sane (v_params e) ->
    setup_params M cfg lb e P verbose force = Ok (lb1, ms, P1, rc) ->
    displayed (lb_smix lb) (v_params e) (x_lim P) (force && negb (x_logN P =? 0)%Z) verbose P1 rc ms.
  Proof.
    intros Hs HC E. unfold setup_params in E. destruct (Z.eqb_spec (x_logN P) 0) as [HZ|HZ]; cbn [negb] in E.
    - rewrite Bool.andb_false_r. apply bind_inv in E. destruct E as ([[s om] [rc1|[[l r] p]]] & EP & E).
      + destruct (pick_fails _ _ _ _ _ _ _ EP) as [-> HR]. injection E as _ <- <- <-. apply displayed_nil. exact HR.
      + destruct (pick_report _ _ _ _ _ _ _ _ _ Hs HC EP) as (H1 & H2 & H3). injection E as _ <- <- <-. rewrite <- (app_nil_r (opt_msg om)).
        apply displayed_of; auto.
    - rewrite Bool.andb_true_r. apply bind_inv in E. destruct E as ([[s om] rc1] & EC & E). cbv zeta in E.
      destruct (check_report _ _ _ _ _ _ _ _ _ Hs HC EC) as (H1 & H2 & H3). clear EC. injection E as _ <- <- <-.
      apply displayed_of; [exact H1| |exact H3|].
      + intros HV HR. apply (H2 HV). clear - HR. destruct rc1; cbn in HR |- *; intuition discriminate.
      + intros m HI. apply in_app_or in HI. clear - HI. destruct HI as [HI|HI]; destruct (_ || _) in HI; cbn in HI; intuition discriminate.
  Qed.
  Lemma enc_setup_displayed lb e P hd0 dk0 pw verbose force lb1 ms P1 hd dk rc : size_bits (m_szb M) -> clock_sane (v_params e) ->
    scryptenc_setup M cfg lb e P hd0 dk0 pw verbose force = Ok (lb1, ms, P1, hd, dk, rc) ->
    displayed (lb_smix lb) (v_params e) (x_lim P) (force && negb (x_logN P =? 0)%Z) verbose P1 rc ms.
  Proof.
    intros Hs HC E. unfold scryptenc_setup in E. apply bind_inv in E. destruct E as ([[[lb2 ms2] P2] rc2] & E1 & E).
    apply setup_params_displayed in E1; [|assumption|assumption].
    destruct (is_ok rc2) eqn:ER; cbn [negb] in E; [|injection E as _ <- <- _ _ <-; exact E1]. apply is_ok_spec in ER. subst rc2.
    assert (ms2 = ms /\ P2 = P1) as [<- <-]; [|revert E1; apply displayed_rc; intros _; left; reflexivity].
    apply bind_inv in E. destruct E as (u & _ & E). apply bind_inv in E. destruct E as ([s d] & _ & E).
    destruct s as [salt|]; [|split; congruence]. apply bind_inv in E. destruct E as ([[ok dk2] lb3] & _ & E).
    destruct ok; cbn [negb] in E; [|split; congruence]. apply bind_inv in E. destruct E as (hd2 & _ & E). split; congruence.
  Qed.
  Lemma dec_setup_displayed lb e P hd dk0 pw verbose force lb1 ms P1 dk rc : size_bits (m_szb M) -> clock_sane (v_params e) ->
    scryptdec_setup M cfg lb e P hd dk0 pw verbose force = Ok (lb1, ms, P1, dk, rc) ->
    displayed (lb_smix lb) (v_params e) (x_lim P) force verbose P1 rc ms.
  Proof.
    intros Hs HC E. unfold scryptdec_setup in E. do 3 (apply bind_inv in E; destruct E as (? & _ & E)). cbv zeta in E.
    do 5 (apply bind_inv in E; destruct E as (? & _ & E)).
    destruct (negb _); [injection E as _ <- _ _ <-; apply displayed_nil, einval_shown|].
    apply bind_inv in E. destruct E as ([[s om] rc1] & EC & E). cbv zeta in E. cbn [x_logN x_r x_p x_lim] in EC.
    match type of EC with checkparams _ _ _ _ _ ?l ?r ?p _ _ = _ => set (P2 := mk_xp (x_lim P) l r p) in *; change (checkparams M cfg (lb_smix lb) (v_params e) (x_lim P) (x_logN P2) (x_r P2) (x_p P2) verbose force = Ok (s, om, rc1)) in EC end.
    destruct (check_report _ _ _ _ _ _ _ _ _ Hs HC EC) as (H1 & H2 & H3). clear EC.
    assert (displayed (lb_smix lb) (v_params e) (x_lim P) force verbose P2 rc1 (opt_msg om)) as HD.
    { rewrite <- (app_nil_r (opt_msg om)). apply displayed_of; auto. }
    destruct (is_ok rc1) eqn:ER; cbn [negb] in E; [|injection E as _ <- <- _ <-; exact HD]. apply is_ok_spec in ER. subst rc1.
    assert (opt_msg om = ms /\ P2 = P1) as [<- <-]; [|revert HD; apply displayed_rc; intros _; left; reflexivity].
    apply bind_inv in E. destruct E as ([[ok dk2] lb3] & _ & E). destruct ok; cbn [negb] in E; [|split; congruence].
    do 5 (apply bind_inv in E; destruct E as (? & _ & E)). destruct (negb _); split; congruence.
  Qed.
  Ltac done_M H := apply f_equal with (f := fun x => match x with Ok o => Some (oc_rc o, oc_P o, oc_msgs o) | _ => None end) in H; cbn [oc_rc oc_P oc_msgs] in H.
  Ltac kept ER := match type of ER with displayed _ _ _ _ _ ?P1 _ ?ms => match goal with |- displayed _ _ _ _ _ (oc_P ?o) _ _ =>
    assert (oc_P o = P1 /\ oc_msgs o = ms) as [-> ->]; [|revert ER; apply displayed_rc; intros _; left; reflexivity] end end.

  (** C61, for each of the four functions of the API: what is displayed is [displayed]
      of the returned parameters. *)
  Theorem C61_encrypt_buffer lb hp e d ob pw P verbose force o : size_bits (m_szb M) -> clock_sane (v_params e) ->
    scryptenc_buf M cfg lb hp e d ob pw P verbose force = Ok o ->
    displayed (lb_smix lb) (v_params e) (x_lim P) (force && negb (x_logN P =? 0)%Z) verbose (oc_P o) (oc_rc o) (oc_msgs o).
  Proof.
    intros Hs HC E. unfold scryptenc_buf in E. apply bind_inv in E. destruct E as (u & _ & E).
    apply bind_inv in E. destruct E as ([[[[[lb1 ms] P1] hd] dk] rc] & ES & E).
    apply enc_setup_displayed in ES; [|assumption|assumption].
    destruct (is_ok rc) eqn:ER; cbn [negb] in E.
    2:{ apply bind_inv in E. destruct E as (z & _ & E). injection E as <-. exact ES. }
    apply is_ok_spec in ER. subst rc. kept ES. clear - E.
    apply bind_inv in E. destruct E as (k & _ & E). apply bind_inv in E. destruct E as ([h a] & _ & E). destruct a as [rc|[[ki si] AES]].
    { apply bind_inv in E. destruct E as (z & _ & E). done_M E. split; congruence. }
    apply bind_inv in E. destruct E as ([ct AES'] & _ & E).
    repeat (apply bind_inv in E; destruct E as (? & _ & E)). done_M E. split; congruence.
  Qed.
  Theorem C61_encrypt_stream lb hp e fi fo pw P verbose force o : size_bits (m_szb M) -> clock_sane (v_params e) ->
    scryptenc_file M cfg lb hp e fi fo pw P verbose force = Ok o ->
    displayed (lb_smix lb) (v_params e) (x_lim P) (force && negb (x_logN P =? 0)%Z) verbose (oc_P o) (oc_rc o) (oc_msgs o).
  Proof.
    intros Hs HC E. unfold scryptenc_file in E. apply bind_inv in E. destruct E as (u & _ & E).
    apply bind_inv in E. destruct E as ([[[[[lb1 ms] P1] hd] dk] rc] & ES & E).
    apply enc_setup_displayed in ES; [|assumption|assumption].
    destruct (is_ok rc) eqn:ER; cbn [negb] in E.
    2:{ apply bind_inv in E. destruct E as (z & _ & E). injection E as <-. exact ES. }
    apply is_ok_spec in ER. subst rc. kept ES. clear - E.
    apply bind_inv in E. destruct E as (k & _ & E). apply bind_inv in E. destruct E as (h1 & _ & E). apply bind_inv in E. destruct E as (h2 & _ & E).
    destruct (fwrite hd fo) as [ok fo1]. destruct ok; cbn [negb] in E.
    2:{ apply bind_inv in E. destruct E as (z & _ & E). done_M E. split; congruence. }
    apply bind_inv in E. destruct E as ([h a] & _ & E). destruct a as [rc|[[ki si] AES]].
    { apply bind_inv in E. destruct E as (z & _ & E). done_M E. split; congruence. }
    apply bind_inv in E. destruct E as ([[[[eof AES'] hc] fi1] fo2] & _ & E). apply bind_inv in E. destruct E as (h3 & _ & E).
    destruct eof; cbn [negb] in E.
    2:{ apply bind_inv in E. destruct E as (z & _ & E). apply bind_inv in E. destruct E as (z2 & _ & E). done_M E. split; congruence. }
    apply bind_inv in E. destruct E as (h4 & _ & E). apply bind_inv in E. destruct E as (h5 & _ & E).
    destruct (ferror fi1).
    { apply bind_inv in E. destruct E as (z & _ & E). done_M E. split; congruence. }
    apply bind_inv in E. destruct E as ([hb hc2] & _ & E). destruct (fwrite hb fo2) as [ok fo3]. apply bind_inv in E. destruct E as (z & _ & E). done_M E. split; congruence.
  Qed.
  Theorem C61_decrypt_buffer lb hp e d ob ol pw P verbose force o : size_bits (m_szb M) -> clock_sane (v_params e) ->
    scryptdec_buf M cfg lb hp e d ob ol pw P verbose force = Ok o ->
    displayed (lb_smix lb) (v_params e) (x_lim P) force verbose (oc_P o) (oc_rc o) (oc_msgs o).
  Proof.
    intros Hs HC E. unfold scryptdec_buf in E. apply bind_inv in E. destruct E as (u & _ & E). cbv zeta in E.
    assert (forall rc lb P dk h v, rc = SCRYPT_EINVAL \/ rc = SCRYPT_EVERSION -> Ok (mk_oc rc lb [] P dk h v) = Ok o ->
      displayed (lb_smix lb) (v_params e) (x_lim P) force verbose (oc_P o) (oc_rc o) (oc_msgs o)) as HE.
    { intros rc ? ? ? ? ? HR H. injection H as <-. cbn [oc_P oc_rc oc_msgs]. apply displayed_nil. destruct HR as [-> | ->]; cbn; intuition discriminate. }
    destruct (Nat.ltb _ 7). { revert E. apply HE. auto. }
    apply bind_inv in E. destruct E as (m6 & _ & E). destruct (negb _). { revert E. apply HE. auto. }
    apply bind_inv in E. destruct E as (v & _ & E). destruct (negb _). { revert E. apply HE. auto. }
    destruct (Nat.ltb _ 128). { revert E. apply HE. auto. }
    clear HE. apply bind_inv in E. destruct E as ([[[[lb1 ms] P1] dk] rc] & ES & E).
    apply dec_setup_displayed in ES; [|assumption|assumption].
    destruct (is_ok rc) eqn:ER; cbn [negb] in E.
    2:{ apply bind_inv in E. destruct E as (z & _ & E). injection E as <-. exact ES. }
    apply is_ok_spec in ER. subst rc. kept ES. clear - E.
    apply bind_inv in E. destruct E as ([h a] & _ & E). destruct a as [rc|[[ki si] AES]].
    { apply bind_inv in E. destruct E as (z & _ & E). done_M E. split; congruence. }
    apply bind_inv in E. destruct E as (ct & _ & E). apply bind_inv in E. destruct E as ([pt AES'] & _ & E).
    repeat (apply bind_inv in E; destruct E as (? & _ & E)). done_M E. split; congruence.
  Qed.
  Theorem C61_prepare lb hp e fi pw P verbose force C0 o : size_bits (m_szb M) -> clock_sane (v_params e) ->
    scryptdec_file_prep M cfg lb hp e fi pw P verbose force C0 = Ok o ->
    displayed (lb_smix lb) (v_params e) (x_lim P) force verbose (oc_P o) (oc_rc o) (oc_msgs o).
  Proof.
    intros Hs HC E. unfold scryptdec_file_prep in E. apply bind_inv in E. destruct E as (u & _ & E).
    destruct (v_cookie_mem e); cbn [negb] in E.
    2:{ injection E as <-. apply displayed_nil. cbn. intuition discriminate. }
    destruct (kh_alloc _ _) as [ci h1]. destruct (load_header fi) as [[rc hd] fi1] eqn:EL.
    destruct (is_ok rc) eqn:ER; cbn [negb] in E.
    2:{ apply bind_inv in E. destruct E as (z & _ & E). injection E as <-. cbn [oc_P oc_rc oc_msgs]. apply displayed_nil.
      clear - EL ER. unfold load_header in EL. destruct (fread_n 7 fi) as [[h1 ok1] f1].
      assert (forall b x y z w, (if b : bool then SCRYPT_ERDFILE else SCRYPT_EINVAL, x : bytes, y : instream) = (rc, z, w) -> ~ In rc shown) as H1.
      { intros b ? ? ? ? H. injection H as <- _ _. destruct b; cbn; intuition discriminate. }
      destruct ok1; cbn [negb] in EL; [|exact (H1 _ _ _ _ _ EL)].
      destruct (negb _) in EL; [injection EL as <- _ _; cbn; intuition discriminate|].
      destruct (negb _) in EL; [injection EL as <- _ _; cbn; intuition discriminate|].
      destruct (fread_n 89 f1) as [[h2 ok2] f2]. destruct ok2; cbn [negb] in EL; [|exact (H1 _ _ _ _ _ EL)].
      injection EL as <- _ _. discriminate ER. }
    apply bind_inv in E. destruct E as ([[[[lb1 ms] P1] dk] rc1] & ES & E).
    apply dec_setup_displayed in ES; [|assumption|assumption]. apply bind_inv in E. destruct E as (h2 & _ & E).
    destruct (is_ok rc1) eqn:ER1; cbn [negb] in E.
    2:{ apply bind_inv in E. destruct E as (z & _ & E). injection E as <-. exact ES. }
    apply is_ok_spec in ER1. subst rc1. injection E as <-. exact ES.
  Qed.
  Theorem C61_decrypt_stream lb hp e fi fo pw P verbose force o : size_bits (m_szb M) -> clock_sane (v_params e) ->
    scryptdec_file M cfg lb hp e fi fo pw P verbose force = Ok o ->
    displayed (lb_smix lb) (v_params e) (x_lim P) force verbose (oc_P o) (oc_rc o) (oc_msgs o).
  Proof.
    intros Hs HC E. unfold scryptdec_file in E. apply bind_inv in E. destruct E as (u & _ & E).
    apply bind_inv in E. destruct E as (o1 & EP & E). apply C61_prepare in EP; [|assumption|assumption].
    destruct (oc_val o1) as [C fi1]. destruct (is_ok (oc_rc o1)) eqn:ER; cbn [negb] in E; [|injection E as <-; exact EP].
    apply is_ok_spec in ER. rewrite ER in EP. kept EP. clear - E.
    apply bind_inv in E. destruct E as ([[[rc fi2] fo2] h2] & _ & E). apply bind_inv in E. destruct E as (h3 & _ & E). done_M E. split; congruence.
  Qed.
End Display.

(** N = 2^14, r = 8, p = 1 given explicitly, verbose: the report is displayed. *)
Example C61_hyps fmt_f1 : exists o m rest L opps, size_bits (m_szb ex_machine) /\ clock_sane (v_params ex_call) /\
  scryptenc_buf ex_machine ex_cfg ex_lib ex_heap ex_call ex_data (repeat 0 133) ex_passwd ex_P true false = Ok o /\ oc_rc o = SCRYPT_OK /\
  printable (oc_P o) /\ oc_msgs o = Msg_params m :: rest /\
  report fmt_f1 (2 ^ 14) 8 1 (Some (L, opps, l_maxtime (x_lim ex_P))) (params_text fmt_f1 m).
Proof.
  destruct C47_hyps as (L & opps & salt & d & H1 & H2 & H3 & H4 & H5 & H6 & H7 & H8).
  destruct (C47_valid ex_machine ex_cfg ex_lib ex_heap ex_call ex_data (repeat 0 133) ex_passwd ex_P true L opps salt d H1 H2 (le_n _) H3 H4 H5 H6 H7 H8) as (o & big & slow & disp & E & E1 & E2 & _).
  assert (size_bits (m_szb ex_machine)) as HZ by (right; reflexivity).
  destruct C02_auto_hyps as (_ & _ & _ & _ & _ & _ & _ & _ & HC & _).
  pose proof (C61_encrypt_buffer fmt_f1 ex_machine ex_cfg ex_lib ex_heap ex_call ex_data (repeat 0 133) ex_passwd ex_P true false o HZ HC E) as [_ HO HT].
  assert (printable (oc_P o)) as HP. { rewrite E2. repeat split; vm_compute; congruence. }
  assert (In (oc_rc o) shown) as HI by (rewrite E1; left; reflexivity).
  destruct (HO eq_refl HI) as (m & rest & EM & _).
  assert (In (Msg_params m) (oc_msgs o)) as HM by (rewrite EM; left; reflexivity).
  specialize (HT m HM HP). destruct HT as (L1 & opps1 & _ & _ & HR). rewrite E2 in HR.
  exists o, m, rest, L1, opps1. split; [exact HZ|]. split; [exact HC|]. split; [exact E|]. split; [exact E1|]. split; [exact HP|]. split; [exact EM|exact HR].
Qed.
Definition Prop_display_all := (C61_encrypt_buffer, C61_encrypt_stream, C61_decrypt_buffer, C61_prepare, C61_decrypt_stream).
Print Assumptions Prop_display_all.
