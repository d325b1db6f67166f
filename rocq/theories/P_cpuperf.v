From Coq Require Import Reals Lra.
From Flocq Require Import Core IEEE754.BinarySingleNaN.
From Verif Require Import Base M_smix M_scrypt_sel P_scrypt P_scrypt_ref M_machine Prop_scrypt M_double SpecDouble P_double P_params M_cpuperf.

Lemma d1em9_val : is_finite d1em9 = true /\ (bpow radix2 (-30) <= B2R d1em9 <= 1)%R.
Proof.
  assert (is_finite d1em9 = true) as F by (vm_compute; reflexivity).
  destruct (of_N_exact 1) as [F1 E1]; [lia|]. destruct (of_N_exact 1000000000) as [F2 E2]; [lia|].
  change (IZR (Z.of_N 1)) with 1%R in E1. change (IZR (Z.of_N 1000000000)) with 1000000000%R in E2. fold d1 in F1, E1.
  split; [exact F|]. unfold d1em9, ddiv in *.
  pose proof (Bdiv_correct 53 1024 _ _ mode_NE d1 (of_N 1000000000) ltac:(lra)) as H. rewrite E1, E2 in H.
  assert (bpow radix2 (-30) <= rnd (1 / 1000000000) <= 1)%R as HR.
  { split.
    - rewrite <- (rnd_fmt (bpow radix2 (-30))) by (apply fmt_bpow; lia). apply rnd_le.
      change (bpow radix2 (-30)) with (/ 1073741824)%R. lra.
    - apply rnd_upper; [apply (fmt_int 1); lia|lra]. }
  pose proof (bpow_gt_0 radix2 (-30)). assert (1 < bpow radix2 1024)%R by (change 1%R with (bpow radix2 0); apply bpow_lt; lia).
  rewrite Rlt_bool_true in H by (rewrite Rabs_pos_eq; lra).
  destruct H as (-> & _). exact HR.
Qed.
Lemma d1em6_val : is_finite d1em6 = true /\ (0 <= B2R d1em6 <= 1)%R.
Proof.
  assert (is_finite d1em6 = true) as F by (vm_compute; reflexivity).
  destruct (of_N_exact 1) as [F1 E1]; [lia|]. destruct (of_N_exact 1000000) as [F2 E2]; [lia|].
  change (IZR (Z.of_N 1)) with 1%R in E1. change (IZR (Z.of_N 1000000)) with 1000000%R in E2. fold d1 in F1, E1.
  split; [exact F|]. unfold d1em6, ddiv in *.
  pose proof (Bdiv_correct 53 1024 _ _ mode_NE d1 (of_N 1000000) ltac:(lra)) as H. rewrite E1, E2 in H.
  assert (0 <= rnd (1 / 1000000) <= 1)%R as HR.
  { split.
    - rewrite <- (rnd_fmt 0 fmt_0) at 1. apply rnd_le. lra.
    - apply rnd_upper; [apply (fmt_int 1); lia|lra]. }
  assert (1 < bpow radix2 1024)%R by (change 1%R with (bpow radix2 0); apply bpow_lt; lia).
  rewrite Rlt_bool_true in H by (rewrite Rabs_pos_eq; lra).
  destruct H as (-> & _). exact HR.
Qed.
(** (double)a + (double)b * c for bounded a, b and 0 <= c <= 1 *)
Lemma lin_fin a b c : (Z.abs a <= 2 ^ 63)%Z -> (Z.abs b <= 2 ^ 63)%Z -> is_finite c = true -> (0 <= B2R c <= 1)%R ->
  is_finite (dadd (of_Z a) (dmul (of_Z b) c)) = true /\
  B2R (dadd (of_Z a) (dmul (of_Z b) c)) = rnd (rnd (IZR a) + rnd (rnd (IZR b) * B2R c)) /\
  (Rabs (B2R (dadd (of_Z a) (dmul (of_Z b) c))) <= bpow radix2 64)%R.
Proof.
  intros Ha Hb Fc Hc.
  destruct (of_Z_spec a) as [Fa Ea]; [lia|]. destruct (of_Z_spec b) as [Fb Eb]; [lia|].
  assert (forall z, (Z.abs z <= 2 ^ 63)%Z -> (Rabs (rnd (IZR z)) <= bpow radix2 63)%R) as HZ.
  { intros z Hz. apply abs_round_le_generic; try typeclasses eauto; [apply fmt_bpow; lia|].
    rewrite <- abs_IZR, <- pow2_bpow by lia. apply IZR_le. exact Hz. }
  assert (Rabs (rnd (rnd (IZR b) * B2R c)) <= bpow radix2 63)%R as HM.
  { apply abs_round_le_generic; try typeclasses eauto; [apply fmt_bpow; lia|].
    rewrite Rabs_mult, (Rabs_pos_eq (B2R c)) by lra. pose proof (HZ b Hb). pose proof (Rabs_pos (rnd (IZR b))).
    pose proof (bpow_gt_0 radix2 63). nra. }
  assert (bpow radix2 63 < bpow radix2 1024)%R as HB by (apply bpow_lt; lia).
  pose proof (Bmult_correct 53 1024 _ _ mode_NE (of_Z b) c) as H1. rewrite Eb in H1.
  rewrite Rlt_bool_true in H1 by lra. destruct H1 as (E1 & F1 & _). rewrite Fb, Fc in F1.
  pose proof (Bplus_correct 53 1024 _ _ mode_NE (of_Z a) (dmul (of_Z b) c) Fa F1) as H2.
  unfold dmul in H2. rewrite Ea, E1 in H2.
  assert (Rabs (rnd (rnd (IZR a) + rnd (rnd (IZR b) * B2R c))) <= bpow radix2 64)%R as HS.
  { apply abs_round_le_generic; try typeclasses eauto; [apply fmt_bpow; lia|].
    eapply Rle_trans; [apply Rabs_triang|]. pose proof (HZ a Ha).
    assert (bpow radix2 64 = 2 * bpow radix2 63)%R as -> by (change 64%Z with (1 + 63)%Z; rewrite bpow_plus; reflexivity). lra. }
  assert (bpow radix2 64 < bpow radix2 1024)%R as HB2 by (apply bpow_lt; lia).
  rewrite Rlt_bool_true in H2 by lra. destruct H2 as (E2 & F2 & _).
  unfold dadd, dmul. repeat split; [exact F2|exact E2|]. rewrite E2. exact HS.
Qed.
Lemma timeval_diff_fin x y d : timeval_diff x y = Ok d -> is_finite d = true /\ (Rabs (B2R d) <= bpow radix2 64)%R.
Proof.
  unfold timeval_diff, sub_long.
  destruct ((- 2 ^ 63 <=? fst y - fst x)%Z && (fst y - fst x <? 2 ^ 63)%Z) eqn:E1; cbn [bind]; [|discriminate].
  destruct ((- 2 ^ 63 <=? snd y - snd x)%Z && (snd y - snd x <? 2 ^ 63)%Z) eqn:E2; cbn [bind]; [|discriminate].
  intros H. injection H as <-. destruct d1em6_val as [F6 H6].
  destruct (lin_fin (fst y - fst x) (snd y - snd x) d1em6) as (A & _ & B); auto; lia.
Qed.
(** A reported resolution of at least a nanosecond is at least 2^-30 as a double. *)
Definition res_positive (s ns : Z) : Prop := (0 <= s <= 2 ^ 62)%Z /\ (0 <= ns <= 2 ^ 62)%Z /\ (0 < s + ns)%Z.
Lemma res_double_pos s ns : res_positive s ns ->
  is_finite (res_double s ns) = true /\ (bpow radix2 (-30) <= B2R (res_double s ns))%R.
Proof.
  intros (Hs & Hn & Hp). destruct d1em9_val as [F9 H9]. pose proof (bpow_gt_0 radix2 (-30)) as HB.
  destruct (lin_fin s ns d1em9) as (A & B & _); [lia|lia|exact F9|lra|].
  unfold res_double. split; [exact A|]. rewrite B.
  assert (bpow radix2 (-30) <= 1)%R as HB1 by (change 1%R with (bpow radix2 0); apply bpow_le; lia).
  rewrite <- (rnd_fmt (bpow radix2 (-30))) by (apply fmt_bpow; lia). apply rnd_le.
  assert (forall z, (0 <= z)%Z -> (0 <= rnd (IZR z))%R) as H0.
  { intros z Hz. rewrite <- (rnd_fmt 0 fmt_0) at 1. apply rnd_le. apply (IZR_le 0). exact Hz. }
  assert (forall z, (1 <= z)%Z -> (1 <= rnd (IZR z))%R) as H1.
  { intros z Hz. rewrite <- (rnd_fmt 1) at 1 by (apply (fmt_int 1); lia). apply rnd_le. apply (IZR_le 1). exact Hz. }
  assert (0 <= rnd (rnd (IZR ns) * B2R d1em9))%R as H2.
  { rewrite <- (rnd_fmt 0 fmt_0) at 1. apply rnd_le. specialize (H0 ns ltac:(lia)). nra. }
  destruct (Z.eq_dec s 0) as [->|Hs0].
  - assert (bpow radix2 (-30) <= rnd (rnd (IZR ns) * B2R d1em9))%R as H3.
    { rewrite <- (rnd_fmt (bpow radix2 (-30))) by (apply fmt_bpow; lia). apply rnd_le. specialize (H1 ns ltac:(lia)). nra. }
    specialize (H0 0%Z ltac:(lia)). lra.
  - specialize (H1 s ltac:(lia)). lra.
Qed.
Lemma tod_res : is_finite (ddiv d1 (of_N 1000000)) = true /\ (bpow radix2 (-30) <= B2R (ddiv d1 (of_N 1000000)))%R.
Proof.
  destruct (of_N_exact 1) as [F1 E1]; [lia|]. destruct (of_N_exact 1000000) as [F2 E2]; [lia|].
  change (IZR (Z.of_N 1)) with 1%R in E1. change (IZR (Z.of_N 1000000)) with 1000000%R in E2. fold d1 in F1, E1.
  assert (is_finite (ddiv d1 (of_N 1000000)) = true) as F by (vm_compute; reflexivity). split; [exact F|].
  destruct (ddiv_lower d1 (of_N 1000000) (bpow radix2 (-30)) F2) as [H|[_ H]].
  - lra.
  - apply fmt_bpow; lia.
  - apply bpow_gt_0.
  - right. split; [exact F1|]. rewrite E1, E2. change (bpow radix2 (-30)) with (/ 1073741824)%R. lra.
  - exfalso. rewrite H in F. exact (diff_false_true F).
  - exact H.
Qed.
(** The environment reports a positive clock resolution (as POSIX requires). *)
Definition clk_positive (c : clk) : Prop := match c with CLK_ok s ns => res_positive s ns | _ => True end.
Definition resolution_positive (c : clock_read) : Prop := clk_positive (cr_mono c) /\ clk_positive (cr_real c).
Lemma Some_inj {A} (a b : A) : Some a = Some b -> a = b.
Proof. intros H. injection H as H. exact H. Qed.
Lemma getres_pos cfg c r : resolution_positive c -> monoclock_getres cfg c = Some r ->
  is_finite r = true /\ (bpow radix2 (-30) <= B2R r)%R.
Proof.
  intros [H1 H2]. unfold monoclock_getres.
  assert (forall r, real_getres cfg c = Some r -> is_finite r = true /\ (bpow radix2 (-30) <= B2R r)%R) as HR.
  { intros r'. unfold real_getres. destruct (use_realtime cfg).
    - destruct (cr_real c) as [s ns| |]; intros E; try discriminate E. apply Some_inj in E. subst r'. apply res_double_pos. exact H2.
    - intros E. apply Some_inj in E. subst r'. exact tod_res. }
  destruct (use_monotonic cfg); [|exact (HR r)].
  destruct (cr_mono c) as [s ns| |]; [|exact (HR r)|discriminate].
  intros E. apply Some_inj in E. subst r. apply res_double_pos. exact H1.
Qed.

Section Perf.
  Context (M : machine) (cfg : clk_cfg).
  Lemma count_loop_inv : forall rest sst st resd i it sst' j d,
    count_loop M cfg sst st resd i it rest = Ok (sst', inr (j, d)) ->
    exists k, (k <= length rest)%nat /\ (i + 512 * (N.of_nat k + 1) < 2 ^ 64 -> j = i + 512 * (N.of_nat k + 1)) /\
      getclockdiff cfg st (it_clock (nth k (it :: rest) it)) = Ok (Some d) /\ dlt resd d = true.
  Proof.
    induction rest as [|it' rest IH]; intros sst st resd i it sst' j d; cbn [count_loop];
      (destruct (perf_scrypt M sst it 128) as [[ok s1]| |]; cbn [bind]; try discriminate);
      (destruct (negb ok); [intros H; congruence|]);
      (destruct (getclockdiff cfg st (it_clock it)) as [[d1|]| |] eqn:EG; cbn [bind]; try discriminate);
      (destruct (dlt resd d1) eqn:ED).
    - intros H. exists O. cbn [nth length]. assert (d1 = d /\ j = w64 (i + 512)) as [-> ->] by (split; congruence).
      repeat split; auto; try lia. intros HL. rewrite w64_small; lia.
    - intros H; congruence.
    - intros H. exists O. cbn [nth length]. assert (d1 = d /\ j = w64 (i + 512)) as [-> ->] by (split; congruence).
      repeat split; auto; try lia. intros HL. rewrite w64_small; lia.
    - intros H. apply IH in H. destruct H as (k & Hk & Hj & HG & HD). exists (S k). cbn [length].
      repeat split; try lia; auto.
      + intros HL. rewrite w64_small in Hj by lia. rewrite Hj; lia.
      + cbn [nth] in *. destruct k; [exact HG|]. rewrite (nth_indep _ it it') by lia. exact HG.
  Qed.
  (** The value returned on success. *)
  Theorem cpuperf_value sst e sst' opps :
    scryptenc_cpuperf M cfg sst e = Ok (sst', inr opps) ->
    resolution_positive (pe_res e) -> N.of_nat (length (pe_rest2 e)) < 2 ^ 54 ->
    exists resd st k d,
      monoclock_getres cfg (pe_res e) = Some resd /\ monoclock_get cfg (pe_start2 e) = Some st /\
      getclockdiff cfg st (it_clock (nth k (pe_first2 e :: pe_rest2 e) (pe_first2 e))) = Ok (Some d) /\
      (k <= length (pe_rest2 e))%nat /\ (0 < B2R resd < B2R d)%R /\
      opps = ddiv (of_N (512 * (N.of_nat k + 1))) d /\ is_finite d = true /\
      is_finite opps = true /\ (bpow radix2 (-100) <= B2R opps <= bpow radix2 100)%R.
  Proof.
    intros H HR HL. unfold scryptenc_cpuperf in H.
    destruct (monoclock_getres cfg (pe_res e)) as [resd|] eqn:ER; [|congruence].
    destruct (monoclock_get cfg (pe_start1 e)) as [st1|]; [|congruence].
    destruct (tick_loop M cfg sst st1 (pe_first1 e) (pe_rest1 e)) as [[s1 [rc|[]]]| |]; cbn [bind] in H; try discriminate H.
    destruct (monoclock_get cfg (pe_start2 e)) as [st2|] eqn:E2; [|congruence].
    destruct (count_loop M cfg s1 st2 resd 0 (pe_first2 e) (pe_rest2 e)) as [[s2 [rc|[i d]]]| |] eqn:EC; cbn [bind] in H; try discriminate H.
    apply count_loop_inv in EC. destruct EC as (k & Hk & Hi & HG & HD).
    rewrite Hi in H by lia. clear Hi. rewrite N.add_0_l in H.
    destruct (getres_pos cfg (pe_res e) resd HR ER) as [FR HRp].
    assert (is_finite d = true /\ (Rabs (B2R d) <= bpow radix2 64)%R) as [Fd Hd].
    { unfold getclockdiff in HG. destruct (monoclock_get cfg (it_clock (nth k (pe_first2 e :: pe_rest2 e) (pe_first2 e)))) as [en|]; [|congruence].
      destruct (timeval_diff st2 en) as [d'| |] eqn:ET; cbn [bind] in HG; try discriminate HG. assert (d' = d) as -> by congruence.
      exact (timeval_diff_fin _ _ _ ET). }
    rewrite dlt_fin in HD by assumption. destruct (Rlt_bool_spec (B2R resd) (B2R d)) as [HD'|]; [|discriminate].
    pose proof (bpow_gt_0 radix2 (-30)) as Hb30.
    exists resd, st2, k, d. split; [reflexivity|]. split; [reflexivity|]. split; [exact HG|]. split; [exact Hk|].
    split; [lra|]. assert (opps = ddiv (of_N (512 * (N.of_nat k + 1))) d) as EO by congruence. split; [exact EO|]. split; [exact Fd|].
    set (n := 512 * (N.of_nat k + 1)) in *. assert (512 <= n < 2 ^ 64) as Hn by lia. clearbody n.
    destruct (of_N_spec n) as [Fn En]; [lia|].
    assert (1 <= B2R (of_N n) <= bpow radix2 64)%R as HnR.
    { split; [apply of_N_pos; lia|]. rewrite En. rewrite <- (rnd_fmt (bpow radix2 64)) by (apply fmt_bpow; lia).
      apply rnd_le. rewrite <- pow2_bpow by lia. apply IZR_le. lia. }
    rewrite Rabs_pos_eq in Hd by lra. subst opps. unfold ddiv.
    pose proof (Bdiv_correct 53 1024 _ _ mode_NE (of_N n) d ltac:(lra)) as HDiv.
    assert (bpow radix2 (-100) <= rnd (B2R (of_N n) / B2R d) <= bpow radix2 100)%R as HQ.
    { split.
      - rewrite <- (rnd_fmt (bpow radix2 (-100))) by (apply fmt_bpow; lia). apply rnd_le.
        apply Rmult_le_reg_r with (B2R d); [lra|]. unfold Rdiv. rewrite Rmult_assoc, Rinv_l by lra.
        apply Rle_trans with (bpow radix2 (-100) * bpow radix2 64)%R.
        + apply Rmult_le_compat_l; [apply bpow_ge_0|exact Hd].
        + rewrite <- bpow_plus. apply Rle_trans with 1%R; [change 1%R with (bpow radix2 0); apply bpow_le; lia|lra].
      - rewrite <- (rnd_fmt (bpow radix2 100)) by (apply fmt_bpow; lia). apply rnd_le.
        apply Rmult_le_reg_r with (B2R d); [lra|]. unfold Rdiv. rewrite Rmult_assoc, Rinv_l by lra.
        apply Rle_trans with (bpow radix2 64)%R; [lra|].
        apply Rle_trans with (bpow radix2 100 * bpow radix2 (-30))%R; [rewrite <- bpow_plus; apply bpow_le; lia|].
        apply Rmult_le_compat_l; [apply bpow_ge_0|lra]. }
    assert (bpow radix2 100 < bpow radix2 1024)%R by (apply bpow_lt; lia). pose proof (bpow_gt_0 radix2 (-100)).
    rewrite Rlt_bool_true in HDiv by (rewrite Rabs_pos_eq; lra).
    destruct HDiv as (E & F & _). rewrite F, E. split; [exact Fn|exact HQ].
  Qed.
End Perf.
