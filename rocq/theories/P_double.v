(** Facts about binary64 arithmetic used for the parameter choice. *)
From Coq Require Import Reals Lra.
From Flocq Require Import Core IEEE754.BinarySingleNaN Relative Mult_error.
From Verif Require Import Base M_double SpecDouble.

Notation fexp53 := (SpecFloat.fexp 53 1024).
Notation rnd := (round radix2 (SpecFloat.fexp 53 1024) (round_mode mode_NE)).
Notation fmt := (generic_format radix2 (SpecFloat.fexp 53 1024)).

Lemma fexp_FLT : fexp53 = FLT_exp (-1074) 53.
Proof. reflexivity. Qed.
#[global] Instance valid_fexp : Valid_exp fexp53.
Proof. rewrite fexp_FLT. apply FLT_exp_valid. reflexivity. Qed.

Lemma rnd_le x y : (x <= y)%R -> (rnd x <= rnd y)%R.
Proof. apply round_le; typeclasses eauto. Qed.
Lemma rnd_fmt x : fmt x -> rnd x = x.
Proof. apply round_generic. typeclasses eauto. Qed.
Lemma fmt_B2R (x : double) : fmt (B2R x).
Proof. apply generic_format_B2R. Qed.
Lemma fmt_bpow e : (-1074 <= e)%Z -> fmt (bpow radix2 e).
Proof. intros H. apply generic_format_bpow. unfold SpecFloat.fexp, SpecFloat.emin. lia. Qed.
(** Integers times powers of two with at most 53 bits are representable. *)
Lemma fmt_IZR m e : (Z.abs m <= 2 ^ 53)%Z -> (-1074 <= e)%Z -> fmt (IZR m * bpow radix2 e).
Proof.
  intros Hm He.
  destruct (Z.eq_dec (Z.abs m) (2 ^ 53)) as [E|E].
  - assert (m = 2 ^ 53 \/ m = - 2 ^ 53)%Z as [-> | ->] by lia.
    + change (2 ^ 53)%Z with (radix2 ^ 53)%Z. rewrite IZR_Zpower by lia. rewrite <- bpow_plus. apply fmt_bpow. lia.
    + rewrite opp_IZR. change (2 ^ 53)%Z with (radix2 ^ 53)%Z. rewrite IZR_Zpower by lia.
      rewrite Ropp_mult_distr_l_reverse. apply generic_format_opp. rewrite <- bpow_plus. apply fmt_bpow. lia.
  - rewrite fexp_FLT. apply generic_format_FLT. exists (Float radix2 m e); [reflexivity| |exact He].
    cbn [Fnum]. change (radix2 ^ 53)%Z with (2 ^ 53)%Z. lia.
Qed.
Lemma fmt_int m : (Z.abs m <= 2 ^ 53)%Z -> fmt (IZR m).
Proof. intros H. rewrite <- (Rmult_1_r (IZR m)). apply (fmt_IZR m 0); lia. Qed.
Lemma rnd_upper x c : fmt c -> (x <= c)%R -> (rnd x <= c)%R.
Proof. intros Hc H. rewrite <- (rnd_fmt c Hc). apply rnd_le. exact H. Qed.
Lemma rnd_lower x c : fmt c -> (c <= x)%R -> (c <= rnd x)%R.
Proof. intros Hc H. rewrite <- (rnd_fmt c Hc). apply rnd_le. exact H. Qed.
Lemma fmt_0 : fmt 0.
Proof. apply generic_format_0. Qed.

Lemma pow2_bpow k : (0 <= k)%Z -> IZR (2 ^ k) = bpow radix2 k.
Proof. intros H. apply (IZR_Zpower radix2). exact H. Qed.
Lemma pow2_N k : IZR (Z.of_N (2 ^ k)) = bpow radix2 (Z.of_N k).
Proof. rewrite N2Z.inj_pow. apply pow2_bpow. lia. Qed.

(** Conversion of an integer. *)
Lemma of_Z_spec z : (Z.abs z <= 2 ^ 64)%Z ->
  is_finite (of_Z z) = true /\ B2R (of_Z z) = rnd (IZR z).
Proof.
  intros Hz. unfold of_Z.
  pose proof (binary_normalize_correct 53 1024 prec_gt_0_53 prec_lt_emax_53 mode_NE z 0 false) as H.
  cbv zeta in H.
  assert (F2R (Float radix2 z 0) = IZR z) as EF by (unfold F2R; cbn [Fnum Fexp bpow]; apply Rmult_1_r).
  rewrite EF in H.
  assert (Rlt_bool (Rabs (rnd (IZR z))) (bpow radix2 1024) = true) as E.
  { apply Rlt_bool_true. apply Rle_lt_trans with (bpow radix2 64); [|apply bpow_lt; lia].
    apply abs_round_le_generic; try typeclasses eauto; [apply fmt_bpow; lia|].
    rewrite <- abs_IZR, <- pow2_bpow by lia. apply IZR_le. exact Hz. }
  rewrite E in H. destruct H as (H1 & H2 & _). split; assumption.
Qed.
Lemma of_N_spec n : n <= 2 ^ 64 ->
  is_finite (of_N n) = true /\ B2R (of_N n) = rnd (IZR (Z.of_N n)).
Proof. intros Hn. apply of_Z_spec. lia. Qed.
Lemma of_N_exact n : n <= 2 ^ 53 -> is_finite (of_N n) = true /\ B2R (of_N n) = IZR (Z.of_N n).
Proof.
  intros Hn. destruct (of_N_spec n) as [H1 H2]; [lia|]. split; [exact H1|]. rewrite H2. apply rnd_fmt, fmt_int. lia.
Qed.
Lemma of_N_pow2 k : k <= 64 -> is_finite (of_N (2 ^ k)) = true /\ B2R (of_N (2 ^ k)) = bpow radix2 (Z.of_N k).
Proof.
  intros Hk. destruct (of_N_spec (2 ^ k)) as [H1 H2]; [apply N.pow_le_mono_r; lia|]. split; [exact H1|].
  rewrite H2, pow2_N. apply rnd_fmt, fmt_bpow. lia.
Qed.
Lemma of_N_mono a b : a <= b -> b <= 2 ^ 64 -> (B2R (of_N a) <= B2R (of_N b))%R.
Proof.
  intros H Hb. destruct (of_N_spec a) as [_ ->]; [lia|]. destruct (of_N_spec b) as [_ ->]; [lia|].
  apply rnd_le, IZR_le. lia.
Qed.
Lemma of_N_pos n : 0 < n -> n <= 2 ^ 64 -> (1 <= B2R (of_N n))%R.
Proof.
  intros H Hn. destruct (of_N_exact 1) as [_ E]; [lia|]. change (IZR (Z.of_N 1)) with 1%R in E. rewrite <- E.
  apply of_N_mono; lia.
Qed.

(** Comparisons. *)
Lemma fin_nan (x : double) : is_finite x = true -> is_nan x = false.
Proof. destruct x; try discriminate; reflexivity. Qed.
Lemma dlt_fin x y : is_finite x = true -> is_finite y = true -> dlt x y = Rlt_bool (B2R x) (B2R y).
Proof. apply Bltb_correct. Qed.
Lemma dle_fin x y : is_finite x = true -> is_finite y = true -> dle x y = Rle_bool (B2R x) (B2R y).
Proof. apply Bleb_correct. Qed.
Lemma number_cases (x : double) : is_nan x = false ->
  is_finite x = true \/ x = B754_infinity false \/ x = B754_infinity true.
Proof. destruct x as [s|[|]| |s m e H]; intros Hn; auto; discriminate. Qed.
Lemma inf_lt (y : double) : is_finite y = true -> dlt dinf y = false.
Proof. destruct y as [[|]|[|]| |[|] m e H]; intros E; try discriminate; reflexivity. Qed.
Lemma lt_inf (y : double) : is_finite y = true -> dlt y dinf = true.
Proof. destruct y as [[|]|[|]| |[|] m e H]; intros E; try discriminate; reflexivity. Qed.
Lemma ninf_lt (y : double) : is_finite y = true -> dlt (B754_infinity true) y = true.
Proof. destruct y as [[|]|[|]| |[|] m e H]; intros E; try discriminate; reflexivity. Qed.
(** x < y fails for a number x and a finite y iff y's value is at most x. *)
Lemma not_lt_at_most x y : is_nan x = false -> is_finite y = true ->
  (dlt x y = false <-> at_most (B2R y) x).
Proof.
  intros Hx Hy. unfold at_most. destruct (number_cases x Hx) as [F|[-> | ->]].
  - rewrite dlt_fin by assumption. split.
    + intros H. right. split; [exact F|]. destruct (Rlt_bool_spec (B2R x) (B2R y)); [discriminate|assumption].
    + intros [->|[_ H]]; [discriminate F|]. apply Rlt_bool_false. exact H.
  - rewrite inf_lt by assumption. tauto.
  - rewrite ninf_lt by assumption. split; [discriminate|]. intros [H|[H _]]; discriminate.
Qed.
Lemma dlt_true_fin x y : is_finite y = true -> dlt x y = true -> (is_finite x = true /\ (B2R x < B2R y)%R) \/ x = B754_infinity true.
Proof.
  intros Hy H. destruct (is_nan x) eqn:EN; [destruct x; discriminate|].
  destruct (number_cases x EN) as [F|[-> | ->]]; auto.
  - left. split; [exact F|]. rewrite dlt_fin in H by assumption.
    destruct (Rlt_bool_spec (B2R x) (B2R y)); [assumption|discriminate].
  - rewrite inf_lt in H by assumption. discriminate.
Qed.
Lemma at_most_le q q' x : (q <= q')%R -> at_most q' x -> at_most q x.
Proof. intros H [H1|[H1 H2]]; [left; exact H1|right; split; [exact H1|lra]]. Qed.
Lemma at_most_number q x : at_most q x -> is_nan x = false.
Proof. intros [-> |[H _]]; [reflexivity|apply fin_nan; exact H]. Qed.
Lemma not_at_most q x : is_nan x = false -> ~ at_most q x -> x = B754_infinity true \/ is_finite x = true /\ (B2R x < q)%R.
Proof.
  intros Hx H. destruct (number_cases x Hx) as [F|[-> | ->]]; auto.
  - right. split; [exact F|]. apply Rnot_le_lt. intros HC. apply H. right. auto.
  - exfalso. apply H. left. reflexivity.
Qed.

(** A double at least 2^-900 divided by a power of two up to 2^64: exact. *)
Lemma rnd_scale x k : fmt x -> (bpow radix2 (-900) <= x)%R -> (0 <= k <= 64)%Z -> rnd (x / bpow radix2 k) = (x / bpow radix2 k)%R.
Proof.
  intros Hx Hb Hk. apply rnd_fmt. unfold Rdiv. rewrite <- bpow_opp. rewrite fexp_FLT in *.
  assert (0 < x)%R as Hp by (pose proof (bpow_gt_0 radix2 (-900)); lra).
  assert (-899 <= mag radix2 x)%Z as HM.
  { apply mag_ge_bpow. rewrite Rabs_pos_eq by lra. exact Hb. }
  apply Mult_error.mult_bpow_exact_FLT; [exact Hx|lia].
Qed.
Lemma ddiv_pow2 x k : k <= 64 -> at_most (bpow radix2 (-900)) x ->
  (x = dinf /\ ddiv x (of_N (2 ^ k)) = dinf) \/
  (is_finite x = true /\ is_finite (ddiv x (of_N (2 ^ k))) = true /\
   B2R (ddiv x (of_N (2 ^ k))) = (B2R x / bpow radix2 (Z.of_N k))%R).
Proof.
  intros Hk H. destruct (of_N_pow2 k Hk) as [F1 F2]. destruct H as [-> |[Fx Hx]].
  - left. split; [reflexivity|]. 
    assert (0 < B2R (of_N (2 ^ k)))%R as Hp by (rewrite F2; apply bpow_gt_0).
    destruct (of_N (2 ^ k)) as [s|s| |s m e E]; try discriminate F1.
    + cbn in Hp. lra.
    + destruct s; [|reflexivity]. exfalso. cbn in Hp.
      assert (F2R (Float radix2 (Zneg m) e) <= 0)%R by (apply F2R_le_0; cbn; lia). lra.
  - right. split; [exact Fx|]. unfold ddiv.
    assert (B2R (of_N (2 ^ k)) <> 0%R) as Hn by (rewrite F2; apply Rgt_not_eq, bpow_gt_0).
    pose proof (Bdiv_correct 53 1024 _ _ mode_NE x (of_N (2 ^ k)) Hn) as HD.
    rewrite F2, rnd_scale in HD by (try apply fmt_B2R; try assumption; lia).
    rewrite Rlt_bool_true in HD.
    + destruct HD as (H1 & H2 & _). rewrite H2. auto.
    + assert (0 < B2R x)%R as Hp by (pose proof (bpow_gt_0 radix2 (-900)); lra).
      assert (1 <= bpow radix2 (Z.of_N k))%R as Hb by (change 1%R with (bpow radix2 0); apply bpow_le; lia).
      rewrite Rabs_pos_eq by (apply Rlt_le, Rdiv_lt_0_compat; lra).
      apply Rle_lt_trans with (B2R x).
      * apply Rmult_le_reg_r with (bpow radix2 (Z.of_N k)); [lra|]. unfold Rdiv. rewrite Rmult_assoc, Rinv_l by lra.
        rewrite Rmult_1_r. nra.
      * pose proof (abs_B2R_lt_emax 53 1024 x) as HA. rewrite Rabs_pos_eq in HA by lra. exact HA.
Qed.

(** Rounded division keeps representable lower bounds. *)
Lemma Bsign_pos (x : double) : is_finite x = true -> (0 < B2R x)%R -> Bsign x = false.
Proof.
  destruct x as [s|s| |s m e E]; intros F H; try discriminate F.
  - cbn in H. lra.
  - destruct s; [|reflexivity]. exfalso. cbn in H.
    assert (F2R (Float radix2 (Zneg m) e) <= 0)%R by (apply F2R_le_0; cbn; lia). lra.
Qed.
Lemma SF_inf (x : double) : B2SF x = SpecFloat.S754_infinity false -> x = dinf.
Proof. destruct x as [s|[|]| |s m e E]; intros H; try discriminate; reflexivity. Qed.
Lemma inf_div (y : double) : is_finite y = true -> (0 < B2R y)%R -> ddiv dinf y = dinf.
Proof.
  intros F H. pose proof (Bsign_pos y F H) as HS. destruct y as [s|s| |s m e E]; try discriminate F.
  - cbn in H. lra.
  - cbn in HS. subst s. reflexivity.
Qed.
Lemma ddiv_lower x y q : is_finite y = true -> (0 < B2R y)%R -> fmt q -> (0 < q)%R ->
  at_most (q * B2R y) x -> at_most q (ddiv x y).
Proof.
  intros Fy Hy Hq Hq0 [-> |[Fx Hx]]; [left; apply inf_div; assumption|].
  assert (0 < B2R x)%R as Hx0 by nra.
  assert (q <= B2R x / B2R y)%R as Hle.
  { apply Rmult_le_reg_r with (B2R y); [lra|]. unfold Rdiv. rewrite Rmult_assoc, Rinv_l by lra. lra. }
  pose proof (Bdiv_correct 53 1024 _ _ mode_NE x y ltac:(lra)) as HD.
  unfold ddiv. destruct (Rlt_bool_spec (Rabs (rnd (B2R x / B2R y))) (bpow radix2 1024)) as [_|_].
  - destruct HD as (H1 & H2 & _). right. split; [rewrite H2; exact Fx|]. rewrite H1.
    rewrite <- (rnd_fmt q Hq). apply rnd_le. exact Hle.
  - left. apply SF_inf. rewrite HD, (Bsign_pos x Fx Hx0), (Bsign_pos y Fy Hy). reflexivity.
Qed.
(** ... and exceeds the exact quotient only by the relative rounding error. *)
Lemma rnd_rel x : (bpow radix2 (-1000) <= x)%R -> (rnd x <= x * (1 + bpow radix2 (-53)))%R.
Proof.
  intros H. pose proof (bpow_gt_0 radix2 (-1000)) as Hp.
  pose proof (relative_error_N_FLT radix2 (-1074) 53 eq_refl (fun x => negb (Z.even x)) x) as HR.
  rewrite Rabs_pos_eq in HR by lra.
  specialize (HR (Rle_trans _ _ _ (bpow_le radix2 (-1074 + 53 - 1) (-1000) ltac:(lia)) H)).
  apply Rabs_le_inv in HR. 
  assert (/ 2 * bpow radix2 (- (53) + 1) = bpow radix2 (-53))%R as EB.
  { change (/ 2)%R with (bpow radix2 (-1)). rewrite <- bpow_plus. reflexivity. }
  rewrite EB in HR. cbn [round_mode]. change fexp53 with (FLT_exp (-1074) 53). lra.
Qed.
Lemma ddiv_upper x y q : is_finite y = true -> (0 < B2R y)%R -> (bpow radix2 (-900) <= q <= bpow radix2 1000)%R ->
  at_most q (ddiv x y) -> at_most (q * B2R y) x \/ 
  (is_finite x = true /\ (q * B2R y <= B2R x * (1 + bpow radix2 (-53)))%R).
Proof.
  intros Fy Hy Hq H.
  assert (is_nan x = false) as Hn.
  { apply at_most_number in H. destruct x; try reflexivity. destruct y; discriminate. }
  destruct (number_cases x Hn) as [Fx|[-> | ->]].
  2: left; left; reflexivity.
  2: { exfalso. pose proof (Bsign_pos y Fy Hy) as HS. destruct y as [s|s| |s m e E]; try discriminate Fy.
       - cbn in Hy. lra.
       - cbn in HS. subst s. destruct H as [H|[H _]]; discriminate. }
  destruct (Rle_or_lt (q * B2R y) (B2R x)) as [HL|HL]; [left; right; auto|]. right. split; [exact Fx|].
  pose proof (bpow_gt_0 radix2 (-900)) as Hp.
  assert (B2R x / B2R y < q)%R as Hlt.
  { apply Rmult_lt_reg_r with (B2R y); [lra|]. unfold Rdiv. rewrite Rmult_assoc, Rinv_l by lra. lra. }
  pose proof (Bdiv_correct 53 1024 _ _ mode_NE x y ltac:(lra)) as HD.
  unfold ddiv in H. destruct (Rlt_bool_spec (Rabs (rnd (B2R x / B2R y))) (bpow radix2 1024)) as [_|HO].
  - destruct HD as (H1 & H2 & _). destruct H as [H|[_ H]].
    + exfalso. rewrite H in H2. rewrite Fx in H2. discriminate.
    + rewrite H1 in H.
      assert (bpow radix2 (-1000) <= B2R x / B2R y)%R as HB.
      { destruct (Rle_or_lt (bpow radix2 (-1000)) (B2R x / B2R y)) as [HB|HB]; [exact HB|exfalso].
        assert (rnd (B2R x / B2R y) <= bpow radix2 (-1000))%R as HC.
        { rewrite <- (rnd_fmt (bpow radix2 (-1000))) by (apply fmt_bpow; lia). apply rnd_le. lra. }
        assert (bpow radix2 (-1000) < bpow radix2 (-900))%R by (apply bpow_lt; lia). lra. }
      pose proof (rnd_rel _ HB) as HR.
      assert (q <= B2R x / B2R y * (1 + bpow radix2 (-53)))%R as HQ by lra.
      apply Rmult_le_compat_r with (r := B2R y) in HQ; [|lra].
      replace (B2R x / B2R y * (1 + bpow radix2 (-53)) * B2R y)%R with (B2R x * (1 + bpow radix2 (-53)))%R in HQ by (field; lra).
      exact HQ.
  - (* overflow: the quotient is at least about 2^1024 *)
    rewrite (Bsign_pos y Fy Hy), xorb_false_r in HD. destruct (Bsign x) eqn:ES.
    + exfalso. destruct (Bdiv mode_NE x y) as [s|[|]| |s m e E]; cbn in HD; try discriminate HD.
      destruct H as [H|[H _]]; discriminate.
    + assert (0 <= B2R x)%R as Hx.
      { destruct x as [s|s| |s m e E]; try discriminate Fx; cbn in ES |- *; subst; [lra|]. apply F2R_ge_0. cbn. lia. }
      assert (0 <= B2R x / B2R y)%R as HQ0 by (apply Rmult_le_pos; [lra|apply Rlt_le, Rinv_0_lt_compat; lra]).
      exfalso. assert (Rabs (rnd (B2R x / B2R y)) <= bpow radix2 1000)%R as HC.
      { apply abs_round_le_generic; try typeclasses eauto; [apply fmt_bpow; lia|]. rewrite Rabs_pos_eq; lra. }
      assert (bpow radix2 1000 < bpow radix2 1024)%R by (apply bpow_lt; lia). lra.
Qed.
