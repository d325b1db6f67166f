(** C59: decryption with the limits in force (no -f). *)
From Coq Require Import Reals Lra.
From Flocq Require Import Core IEEE754.BinarySingleNaN.
From Verif Require Import Base SpecBytes SpecSHA SpecScrypt SpecScryptAPI SpecAES SpecDRBG SpecDouble SpecFormat SpecStream
  M_endian P_endian M_smix M_aes_hw M_aesctr P_aes P_aesctr Prop_aes P_scrypt P_scrypt_ref M_scrypt_sel Prop_scrypt M_machine M_double M_memlimit M_cpuperf
  M_params Prop_params M_stdio P_stdio M_scryptenc SpecScryptenc P_scryptenc P_scryptenc2 P_scryptenc3 P_scryptenc4 P_scryptenc5
  P_scryptenc6 P_scryptenc7 P_scryptenc8 P_scryptenc9 P_scryptenc10 P_scryptenc11 SpecVerdict P_unforced Prop_enc Prop_dec Prop_monotone.
From Coq Require Import Lia.
Local Opaque ENCBLOCK.
Local Open Scope N_scope.

(** Status v is a judgement of header h against a memory budget of L bytes and an
    operation limit ops: "too big" exactly when the table 128*N*r exceeds L, "too
    slow" up to the rounding of the limit (C16). *)
Definition judges (L : N) (ops : double) (h : fhead) (v : rcode) : Prop :=
  exists big slow, v = verdict big slow /\
    (big = true <-> L < 128 * 2 ^ fh_logN h * fh_r h) /\
    (fits (4 * 2 ^ fh_logN h * fh_r h * fh_p h) ops -> slow = false) /\
    (is_nan ops = false -> slow = false ->
     at_most (IZR (Z.of_N (4 * 2 ^ fh_logN h * fh_r h * fh_p h)) / (1 + bpow radix2 (-51))) ops).

Section Unforced.
  Context (M : machine) (cfg : clk_cfg) (lb : lib) (hp : kheap) (e : call_env) (f passwd : bytes) (P : xparams) (verbose : bool) (L : N) (opps : double).
  Hypothesis HR : dec_ready M hp passwd.
  Hypothesis HD : data_ok f.
  Hypothesis HZ : all_zero P = true.
  Hypothesis HN : no_failure e.
  Hypothesis HB : budget M (v_params e) (x_lim P) L.
  Hypothesis HS : speed M cfg (lb_smix lb) (v_params e) opps.

  Lemma judged_check : (96 <= length f)%nat -> exists v, checked M cfg lb e (x_lim P) f verbose false v /\
    (fhead_ok (get_head f) -> judges L (dmul opps (l_maxtime (x_lim P))) (get_head f) v).
  Proof using HR HD HZ HN HB HS.
    intros HL. destruct HR as [Hs HPW HH], HD as [HD1 HD2]. pose proof HN as (_ & _ & _ & _ & _ & N6 & N7).
    assert (fh_r (get_head f) < 2 ^ 32 /\ fh_p (get_head f) < 2 ^ 32) as [Hr Hp].
    { split; [apply (proj2 (be32dec_be_val f 8 HD1 ltac:(lia)))|apply (proj2 (be32dec_be_val f 12 HD1 ltac:(lia)))]. }
    pose proof (get_head_ok_iff f HD1 ltac:(lia)) as HI.
    assert (fhead_ok (get_head f) \/ ~ fhead_ok (get_head f)) as [HK|HK].
    { set (h := get_head f) in *. destruct (N.leb_spec 1 (fh_logN h)), (N.leb_spec (fh_logN h) 63), (N.ltb_spec 0 (fh_r h)), (N.ltb_spec 0 (fh_p h)),
        (N.ltb_spec (fh_r h * fh_p h) (2 ^ 30)); solve [left; apply HI; auto|right; intros HQ; apply HI in HQ; lia]. }
    - apply HI in HK as HK2. destruct HK2 as (K1 & K2 & K3 & K4).
      destruct (checkparams_total M cfg (lb_smix lb) (v_params e) (x_lim P) _ _ _ L opps K1 K2 K3 K4 HB HS) as (s1 & rc & E).
      destruct (C16_limit_checks _ _ _ _ _ _ _ _ _ _ _ _ _ _ K1 K2 K3 K4 HB HS E) as (big & slow & EV & D).
      assert (can_display verbose (v_params e)) as HA by (intros _; split; assumption).
      destruct (check_any _ _ _ _ _ _ _ _ _ verbose _ _ _ _ Hs HA E) as (m' & E' & _).
      exists rc. split; [exists s1, m', rc; auto|]. intros _. exists big, slow. auto.
    - exists SCRYPT_OK. split; [|contradiction]. exists (lb_smix lb), None, SCRYPT_EINVAL. split; [|auto]. unfold checkparams.
      assert (w64 (fh_r (get_head f) * fh_p (get_head f)) = fh_r (get_head f) * fh_p (get_head f)) as -> by (apply w64_small; clear - Hr Hp; nia).
      destruct ((_ <? 1)%Z || (63 <? _)%Z)%bool eqn:E1; [reflexivity|].
      destruct (N.leb_spec 0x40000000 (fh_r (get_head f) * fh_p (get_head f))) as [E2|E2]; [reflexivity|].
      destruct ((_ =? 0) || (_ =? 0))%bool eqn:E3; [reflexivity|]. exfalso. apply HK, HI.
      apply Bool.orb_false_iff in E1, E3. lia.
  Qed.
  Lemma judged_exists n : (96 <= n)%nat -> exists v, ((n <= length f)%nat -> checked M cfg lb e (x_lim P) f verbose false v) /\
    (reaches_limits n f -> judges L (dmul opps (l_maxtime (x_lim P))) (get_head f) v).
  Proof using HR HD HZ HN HB HS.
    intros Hn. destruct (le_lt_dec n (length f)) as [HL|HL].
    - destruct (judged_check ltac:(lia)) as (v & H1 & H2). exists v. split; [auto|]. intros (_ & _ & _ & _ & H). auto.
    - exists SCRYPT_OK. split; [lia|]. intros (H & _). lia.
  Qed.
  Lemma class_fun_buffer (outbuf : bytes) : (length f - 128 <= length outbuf)%nat -> forall r1 r2, dec_class M passwd f r1 -> dec_class M passwd f r2 -> r1 = r2.
  Proof using HR HD HZ HN lb cfg.
    intros HO r1 r2 H1 H2. destruct (C06_status_buffer M cfg lb hp e f outbuf 0 passwd P false HR HD HO HZ HN) as (o & _ & HC).
    apply HC in H1, H2. congruence.
  Qed.

  (** C59, buffers: the status is a function of the input and of the judgement of its
      header; the data comes out exactly when the input is a file made with this
      passphrase whose parameters the limits admit. *)
  Theorem C59_status_buffer (outbuf : bytes) outlen : (length f - 128 <= length outbuf)%nat -> exists o v,
    scryptdec_buf M cfg lb hp e f outbuf outlen passwd P verbose false = Ok o /\
    (reaches_limits 128 f -> judges L (dmul opps (l_maxtime (x_lim P))) (get_head f) v) /\
    (forall rc, oc_rc o = rc <-> limited 128 f (dec_class M passwd f) v rc) /\
    (oc_rc o = SCRYPT_OK <-> v = SCRYPT_OK /\ exists h data, f = fmt_file scrypt_wrapping passwd h data /\ fhead_ok h /\ computable M h) /\
    (forall h data, oc_rc o = SCRYPT_OK -> f = fmt_file scrypt_wrapping passwd h data -> fhead_ok h ->
       oc_val o = (data ++ skipn (length data) outbuf, N.of_nat (length data)) /\
       oc_P o = mk_xp (x_lim P) (Z.of_N (fh_logN h)) (fh_r h) (fh_p h)).
  Proof using HR HD HZ HN HB HS.
    intros HO. destruct (judged_exists 128 ltac:(lia)) as (v & HK & HJ). pose proof HR as [Hs HPW HH]. pose proof HD as [HD1 HD2].
    destruct (scryptdec_buf_checked M cfg lb hp e f outbuf outlen passwd P verbose false v Hs HPW HH HD1 HD2 HO HZ HN HK) as (o & E & HC').
    exists o, v. split; [exact E|]. split; [exact HJ|]. clear HK HJ.
    assert (forall r1 r2, limited 128 f (dec_class M passwd f) v r1 -> limited 128 f (dec_class M passwd f) v r2 -> r1 = r2) as HF.
    { intros r1 r2 [A1 A2|r1' A1 A2] [B1 B2|r2' B1 B2]; [reflexivity|exfalso; tauto..|]. eapply class_fun_buffer; eauto. }
    split; [intros rc; split; [intros <-; exact HC'|intros H; eapply HF; eauto]|].
    apply scryptdec_buf_inv in E; auto. destruct E as (_ & _ & _ & _ & HRR).
    split.
    - split.
      + intros EO. rewrite EO in HC'. inversion HC' as [Y1 Y2 Y3|rc Y1 Y2 Y3]; [congruence|]. subst rc.
        inversion Y2 as [| | | | | | | |A1 A2 A3 A4 A5 A6 A7 A8]. split.
        * destruct Y1 as [Y1|Y1]; [exact Y1|]. exfalso. apply Y1. unfold reaches_limits. auto.
        * exists (get_head f). eexists. split; [|auto]. apply well_formed; auto.
      + intros (-> & h & data & Ef & H1 & H2). eapply HF; [exact HC'|]. apply L_class; [auto|].
        destruct (fmt_file_checks passwd h data H1) as (B1 & B2 & B3 & B4 & B5 & B6 & B7). rewrite <- Ef in *.
        assert (length f = (length data + 128)%nat) as LF by (rewrite Ef; apply fmt_file_length; apply H1).
        apply DC_ok; try rewrite B1; auto. lia.
    - intros h data EO Ef Hh. rewrite EO in HRR. destruct (fmt_file_checks passwd h data Hh) as (B1 & B2 & B3 & B4 & B5 & B6 & B7).
      assert (length f = (length data + 128)%nat) as LF by (rewrite Ef; apply fmt_file_length; apply Hh).
      rewrite <- Ef in *.
      revert HRR. generalize (oc_msgs o) (oc_P o) (oc_val o). intros ms0 P0 V0 HRR.
      inversion HRR as [| | |rc lb' ms dk A1 A2 A3 A4 A5|rc lb' ms dk A1 A2 A3 A4 A5 A6|rc lb' ms dk A1 A2 A3 A4 A5 A6 A7]; subst P0 V0; try congruence.
      + rewrite A5 in *. unfold aes_rc in *. destruct (v_key_mem e); discriminate.
      + rewrite B1, B7. split; [|reflexivity].
        rewrite aes_ctr_involutive. replace (length f - 128)%nat with (length data) by lia. reflexivity.
  Qed.

  (** C59, streams, whatever the read schedule. *)
  Theorem C59_status_stream fi fo : delivered f fi -> out_good fo -> o_err fo = false -> exists o v,
    scryptdec_file M cfg lb hp e fi fo passwd P verbose false = Ok o /\
    (reaches_limits 96 f -> judges L (dmul opps (l_maxtime (x_lim P))) (get_head f) v) /\
    (forall rc, oc_rc o = rc <-> limited 96 f (dec_class_stream M passwd f) v rc) /\
    (oc_rc o = SCRYPT_OK <-> v = SCRYPT_OK /\ exists h data, f = fmt_file scrypt_wrapping passwd h data /\ fhead_ok h /\ computable M h) /\
    (forall h data, oc_rc o = SCRYPT_OK -> f = fmt_file scrypt_wrapping passwd h data -> fhead_ok h ->
       o_data (snd (oc_val o)) = o_data fo ++ data /\
       oc_P o = mk_xp (x_lim P) (Z.of_N (fh_logN h)) (fh_r h) (fh_p h)).
  Proof using HR HD HZ HN HB HS.
    intros HDE HG HER. destruct (judged_exists 96 ltac:(lia)) as (v & HK & HJ). pose proof HR as [Hs HPW HH]. pose proof HD as [HD1 HD2].
    destruct (dec_file_checked M cfg lb hp e f fi fo passwd P verbose false v Hs HPW HH HD1 HD2 HDE HG HER HZ HN HK) as (o & E & HC & HO & _).
    exists o, v. split; [exact E|]. split; [exact HJ|]. clear HK HJ.
    assert (forall r1 r2, limited 96 f (dec_class_stream M passwd f) v r1 -> limited 96 f (dec_class_stream M passwd f) v r2 -> r1 = r2) as HF.
    { intros r1 r2 [A1 A2|r1' A1 A2] [B1 B2|r2' B1 B2]; [reflexivity|exfalso; tauto..|].
      destruct (C06_status_stream M cfg lb hp e f fi fo passwd P false HR HD HDE HG HER HZ HN) as (o' & _ & HC'). apply HC' in A2, B2. congruence. }
    split; [intros rc; split; [intros <-; exact HC|intros H; eapply HF; eauto]|].
    split.
    - split.
      + intros EO. rewrite EO in HC. inversion HC as [Y1 Y2 Y3|rc Y1 Y2 Y3]; [congruence|]. subst rc.
        inversion Y2 as [rc _ HC2| | | | | | |]. subst rc. inversion HC2 as [| | | | | | | |A1 A2 A3 A4 A5 A6 A7 A8]. split.
        * destruct Y1 as [Y1|Y1]; [exact Y1|]. exfalso. apply Y1. unfold reaches_limits. repeat (split; [solve [auto|lia]|]). auto.
        * exists (get_head f). eexists. split; [|auto]. apply well_formed; auto.
      + intros (-> & h & data & Ef & H1 & H2). eapply HF; [exact HC|]. apply L_class; [auto|].
        destruct (fmt_file_checks passwd h data H1) as (B1 & B2 & B3 & B4 & B5 & B6 & B7). rewrite <- Ef in *.
        assert (length f = (length data + 128)%nat) as LF by (rewrite Ef; apply fmt_file_length; apply H1).
        apply DCS_same; [lia|]. apply DC_ok; try rewrite B1; auto. lia.
    - intros h data EO Ef Hh. destruct (HO EO) as [W EP].
      destruct (fmt_file_checks passwd h data Hh) as (B1 & _ & _ & _ & _ & _ & B7). rewrite <- Ef in *.
      rewrite W, EP, B1, B7, aes_ctr_involutive. auto.
  Qed.
End Unforced.

(** What a judgement means. *)
Lemma judges_within L ops h v : judges L ops h v -> 128 * 2 ^ fh_logN h * fh_r h <= L -> fits (4 * 2 ^ fh_logN h * fh_r h * fh_p h) ops -> v = SCRYPT_OK.
Proof.
  intros (big & slow & -> & D1 & D2 & _) HL HF. rewrite (D2 HF). destruct big; [exfalso; pose proof (proj1 D1 eq_refl); lia|reflexivity].
Qed.
Lemma judges_ok L ops h : judges L ops h SCRYPT_OK -> 128 * 2 ^ fh_logN h * fh_r h <= L.
Proof.
  intros (big & slow & E & D1 & _). destruct (N.le_gt_cases (128 * 2 ^ fh_logN h * fh_r h) L) as [|HX]; [assumption|].
  apply D1 in HX. subst big. destruct slow; discriminate E.
Qed.

(** -f only relaxes: what a run with the limits in force decrypts (in whatever
    environment it ran), a forced run that meets no failure decrypts too, to the same
    bytes and with the same parameters. *)
Theorem C59_force_buffer M cfg lb hp e f outbuf outlen passwd P verbose o :
  dec_ready M hp passwd -> data_ok f -> (length f - 128 <= length outbuf)%nat -> all_zero P = true ->
  scryptdec_buf M cfg lb hp e f outbuf outlen passwd P verbose false = Ok o -> oc_rc o = SCRYPT_OK ->
  forall lb2 e2 verbose2, no_failure e2 -> exists o2,
    scryptdec_buf M cfg lb2 hp e2 f outbuf outlen passwd P verbose2 true = Ok o2 /\
    oc_rc o2 = SCRYPT_OK /\ oc_val o2 = oc_val o /\ oc_P o2 = oc_P o.
Proof.
  intros HR HD HO HZ E EO lb2 e2 verbose2 HN.
  destruct (C06_any_environment_buffer _ _ _ _ _ _ _ _ _ _ _ _ _ HR HD HO E) as [HX|HX]; rewrite EO in HX; [cbn in HX; intuition discriminate|].
  inversion HX as [| | | | | | | |A1 A2 A3 A4 A5 A6 A7 A8]. clear HX.
  assert (exists data, f = fmt_file scrypt_wrapping passwd (get_head f) data) as [data Ef] by (eexists; apply well_formed; auto; apply HD).
  destruct (C05_accepts_iff M cfg lb2 hp e2 f outbuf outlen passwd P verbose2 HR HD HO HZ HN) as (o2 & E2 & HI & HV).
  assert (oc_rc o2 = SCRYPT_OK) as EO2 by (apply HI; eauto).
  exists o2. split; [exact E2|]. split; [exact EO2|]. destruct (HV _ _ Ef A5 A6) as [-> ->]. clear HI HV E2 EO2.
  destruct HR as [Hs HPW HH], HD as [HD1 HD2].
  apply scryptdec_buf_inv in E; auto. destruct E as (_ & _ & _ & _ & HRR). rewrite EO in HRR.
  destruct (fmt_file_checks passwd _ data A5) as (_ & _ & _ & _ & _ & _ & B7). rewrite <- Ef in B7.
  assert (length f = (length data + 128)%nat) as LF by (rewrite Ef at 1; apply fmt_file_length; apply A5).
  revert HRR. generalize (oc_msgs o) (oc_P o) (oc_val o). intros ms0 P0 V0 HRR.
  inversion HRR as [| | |rc lb' ms dk Y1 Y2 Y3 Y4 Y5|rc lb' ms dk Y1 Y2 Y3 Y4 Y5 Y6|rc lb' ms dk Y1 Y2 Y3 Y4 Y5 Y6 Y7]; subst P0 V0; try congruence.
  - rewrite Y5 in *. unfold aes_rc in *. destruct (v_key_mem e); discriminate.
  - rewrite B7, aes_ctr_involutive. replace (length f - 128)%nat with (length data) by lia. auto.
Qed.
Theorem C59_force_stream M cfg lb hp e fi fo passwd P verbose o :
  dec_ready M hp passwd -> instream_ok fi -> all_zero P = true ->
  scryptdec_file M cfg lb hp e fi fo passwd P verbose false = Ok o -> oc_rc o = SCRYPT_OK ->
  forall lb2 e2 verbose2 fi2 fo2, no_failure e2 -> delivered (stream_data fi) fi2 -> out_good fo2 -> o_err fo2 = false ->
  exists o2 data,
    scryptdec_file M cfg lb2 hp e2 fi2 fo2 passwd P verbose2 true = Ok o2 /\
    oc_rc o2 = SCRYPT_OK /\ oc_P o2 = oc_P o /\
    o_data (snd (oc_val o)) = o_data fo ++ data /\ o_data (snd (oc_val o2)) = o_data fo2 ++ data.
Proof.
  intros HR HD HZ E EO lb2 e2 verbose2 fi2 fo2 HN HDE HG HER.
  destruct (C06_any_environment_stream _ _ _ _ _ _ _ _ _ _ _ _ HR HD E) as [HX|HX]; rewrite EO in HX; [cbn in HX; intuition discriminate|].
  inversion HX as [rc C0 HC| | | | | | |]. subst rc. inversion HC as [| | | | | | | |A1 A2 A3 A4 A5 A6 A7 A8]. clear HX HC.
  pose proof HR as [Hs HPW HH]. pose proof HD as [HD1 HD2]. pose proof (stream_data_ok fi HD1) as HFO.
  assert (data_ok (stream_data fi)) as HDO.
  { split; [exact HFO|]. destruct (stream_data_prefix fi) as [c HPX]. rewrite HPX, app_length in HD2. lia. }
  set (f := stream_data fi) in *.
  assert (exists data, f = fmt_file scrypt_wrapping passwd (get_head f) data) as [data Ef] by (eexists; apply well_formed; auto; apply HD).
  destruct (C05_stream_accepts_iff M cfg lb2 hp e2 f fi2 fo2 passwd P verbose2 HR HDO HDE HG HER HZ HN) as (o2 & E2 & HI & HV).
  assert (oc_rc o2 = SCRYPT_OK) as EO2 by (apply HI; eauto).
  exists o2, data. split; [exact E2|]. split; [exact EO2|]. destruct (HV _ _ Ef A5 A6) as [-> ->]. clear HI HV E2 EO2.
  apply scryptdec_file_inv in E; auto. destruct E as (_ & _ & _ & HRR). rewrite EO in HRR.
  destruct (fmt_file_checks passwd _ data A5) as (_ & _ & _ & _ & _ & _ & B7). rewrite <- Ef in B7.
  revert HRR. generalize (oc_msgs o) (oc_P o) (oc_val o) (oc_heap o). intros ms0 P0 [fi0 fo0] hp0 HRR. cbn [fst snd] in *.
  inversion HRR as [A|rc1 hd fi' hp' B1 B2 B3 B4|rc1 fi' ms lb' dk hp' B1 B2 B3 B4 B5|rc1 fi1 ms lb' dk hp' B1 B2 B3 B4 B5| | | |rc1 fi1 ms lb' dk fi' fo' hp' Y1 Y2 Y3 Y4 Y5 Y6 Y8 Y9 Y10 Y11 Y12 Y13]; try congruence.
  - unfold aes_rc in *. destruct (v_key_mem e); congruence.
  - fold f in Y11. rewrite Y11, B7, aes_ctr_involutive. auto.
Qed.

(** A file and limits for which the hypotheses hold: 1/8 of the example machine's
    memory and 5 seconds admit ex_h. *)
Example C59_hyps : exists opps, let f := fmt_file scrypt_wrapping ex_passwd ex_h ex_data in
  dec_ready ex_machine ex_heap ex_passwd /\ data_ok f /\ all_zero ex_P0 = true /\ no_failure ex_call /\
  budget ex_machine (v_params ex_call) (ex_lim (of_N 5)) (2 ^ 30) /\ speed ex_machine ex_cfg (lb_smix ex_lib) (v_params ex_call) opps /\
  reaches_limits 128 f /\ 128 * 2 ^ fh_logN (get_head f) * fh_r (get_head f) <= 2 ^ 30.
Proof.
  destruct (ex_speed (lb_smix ex_lib)) as [opps HS]. exists opps. intros f. destruct C05_hyps as (H1 & H2 & H3 & H4 & H5 & H6). fold f in H4.
  split; [exact H3|]. split; [exact H4|]. split; [exact H5|]. split; [exact H6|]. split; [exact (ex_budget (of_N 5))|]. split; [exact HS|].
  destruct (fmt_file_checks ex_passwd ex_h ex_data H1) as (B1 & B2 & B3 & B4 & B5 & B6 & B7). fold f in B1, B2, B3, B4, B5, B6, B7.
  split.
  - unfold reaches_limits. rewrite B1. assert (length f = 130%nat \/ (128 <= length f)%nat) as HL by (right; unfold f; rewrite fmt_file_length by apply H1; lia).
    split; [lia|]. auto.
  - rewrite B1. vm_compute. discriminate.
Qed.
Definition Prop_unforced_all := (C59_status_buffer, C59_status_stream, judges_within, judges_ok, C59_force_buffer, C59_force_stream).
Print Assumptions Prop_unforced_all.
